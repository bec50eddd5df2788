(* Properties C01-C03: the SM3 hash object.  Statements only; proofs are in SM3_Proofs. *)
From Coq Require Import ZArith List.
From Verif Require Import Lib SM3_Iface SM3_Spec SM3_Model.
From Verif Require SM3_Proofs.
Import ListNotations.
Open Scope Z_scope.

(* the object after New() and the given Write calls *)
Definition written (ps : list (list Z)) : digest := fold_left (fun d p => fst (Write d p)) ps New.

(* C01: any chunking of any message *)
Theorem C01_sm3_digest_correct : forall ps, Forall bytes ps ->
  Sum (written ps) [] = sm3 (concat ps).
Proof. exact SM3_Proofs.digest_ok. Qed.
Print Assumptions C01_sm3_digest_correct.

(* C02: any history of Write/Sum/Reset.  [reported] is the count Write actually returns. *)
Definition reported (buffered n : Z) : Z :=
  if n + buffered <? 64 then 0 else n - (64 - buffered).
Theorem C02_sm3_history : forall ops, Forall op_bytes ops ->
  run New ops = ideal_run sm3 reported [] ops.
Proof. exact SM3_Proofs.history_ok. Qed.
Print Assumptions C02_sm3_history.

(* C02: whatever the object contains, Reset makes it behave like a new one for ever after *)
Theorem C02_sm3_reset_fresh : forall d ops, length (db d) = 64%nat -> Forall op_bytes ops ->
  run (Reset d) ops = run New ops.
Proof. exact SM3_Proofs.reset_fresh. Qed.
Print Assumptions C02_sm3_reset_fresh.

(* C03: io.Writer's "n = len(p)" holds for the empty slice only *)
Theorem C03_sm3_write_count_only_empty : forall ps p, Forall bytes ps -> bytes p ->
  (snd (Write (written ps) p) = Z.of_nat (length p) <-> p = []).
Proof. exact SM3_Proofs.Write_count_wrong. Qed.
Print Assumptions C03_sm3_write_count_only_empty.

(* C03: hash.Hash's "Sum appends the current hash to b" holds for empty b only *)
Theorem C03_sm3_sum_append_only_empty : forall ps b, Forall bytes ps -> bytes b ->
  (Sum (written ps) b = b ++ sm3 (concat ps) <-> b = []).
Proof. exact SM3_Proofs.Sum_append_wrong. Qed.
Print Assumptions C03_sm3_sum_append_only_empty.

Theorem C03_sm3_write_contract_refuted : exists p, bytes p /\ snd (Write New p) <> Z.of_nat (length p).
Proof.
  exists [1]. split; [constructor; [split; reflexivity || discriminate | constructor] | discriminate].
Qed.
Print Assumptions C03_sm3_write_contract_refuted.

Theorem C03_sm3_sum_contract_refuted :
  exists p b, bytes p /\ bytes b /\ Sum (fst (Write New p)) b <> b ++ Sum (fst (Write New p)) [].
Proof.
  exists [1], [2]. split; [|split].
  1-2: (constructor; [split; reflexivity || discriminate | constructor]).
  intros E. apply (f_equal (@length Z)) in E. vm_compute in E. discriminate.
Qed.
Print Assumptions C03_sm3_sum_contract_refuted.

(* Non-vacuity: concrete instances.  The digest of "abc" is the published test vector. *)
Example ex_spec_abc : sm3 [97; 98; 99] =
  [0x66;0xc7;0xf0;0xf4;0x62;0xee;0xed;0xd9;0xd1;0xf2;0xd4;0x6b;0xdc;0x10;0xe4;0xe2;
   0x41;0x67;0xc4;0x87;0x5c;0xf2;0xf7;0xa2;0x29;0x7d;0xa0;0x2b;0x8f;0x4b;0xa8;0xe0].
Proof. vm_compute. reflexivity. Qed.
Example ex_chunks : bytes (repeat 7 70) /\ Sum (written [repeat 7 70; [1]]) [] = sm3 (repeat 7 70 ++ [1]).
Proof.
  assert (H : bytes (repeat 7 70)) by (apply Forall_repeat; split; reflexivity || discriminate).
  split; [exact H|].
  apply (C01_sm3_digest_correct [repeat 7 70; [1]]).
  constructor; [exact H|]. constructor; [|constructor].
  constructor; [split; reflexivity || discriminate|constructor].
Qed.
Example ex_history : run New [OWrite (repeat 7 70); OReset; OWrite [97; 98]; OSum [99]; OSum [99]] =
  [RCount 6; RUnit; RCount 0; RBytes (sm3 [97; 98; 99]); RBytes (sm3 [97; 98; 99])].
Proof. rewrite ex_spec_abc. vm_compute. reflexivity. Qed.
