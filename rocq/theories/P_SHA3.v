(* Properties C04-C14: hash/sha3.  Statements only; proofs are in Keccak_Proofs, Sha3_Proofs, Sha3_Proofs2.
   [g] ranges over both builds (true: generic xor.go, false: unaligned xor_unaligned.go). *)
From Coq Require Import ZArith List Bool Lia.
From Verif Require Import Lib Keccak_Spec Sha3_Iface Sha3_Spec Sha3_Ideal Keccak_Model Sha3_Model Sha3_Client.
From Verif Require Keccak_Proofs Sha3_Proofs Sha3_Proofs2.
Import ListNotations.
Open Scope Z_scope.

(* C04 *)
Theorem C04_keccak_permutation : forall a, length a = 25%nat ->
  keccakF1600 a = keccak_p a.
Proof. exact Keccak_Proofs.keccakF1600_ok. Qed.
Print Assumptions C04_keccak_permutation.
(* published value: first lanes of Keccak-f[1600] applied to the zero state *)
Example ex_keccak_zero : firstn 2 (keccakF1600 (repeat 0 25)) = [0xF1258F7940E1DDE7; 0x84D5CCF933C0478A].
Proof. vm_compute. reflexivity. Qed.

(* C05 *)
Lemma r72 : valid_rate 72. Proof. unfold valid_rate. auto. Qed.
Lemma r104 : valid_rate 104. Proof. unfold valid_rate. auto. Qed.
Lemma r136 : valid_rate 136. Proof. unfold valid_rate. auto. Qed.
Lemma r144 : valid_rate 144. Proof. unfold valid_rate. auto. Qed.

Theorem C05_sha3_digests_correct : forall g ps, Forall bytes ps ->
  snd (Sum g (writes g New224 ps) true [] []) = sha3_224 (concat ps) /\
  snd (Sum g (writes g New256 ps) true [] []) = sha3_256 (concat ps) /\
  snd (Sum g (writes g New384 ps) true [] []) = sha3_384 (concat ps) /\
  snd (Sum g (writes g New512 ps) true [] []) = sha3_512 (concat ps).
Proof.
  exact (fun g ps H =>
    let S := or_introl (conj eq_refl eq_refl) in
    let n := fun _ => conj eq_refl eq_refl in
    conj (Sha3_Proofs2.digest_ok g 144 28 0x06 suffix_sha3 ps true [] [] r144 S H n)
   (conj (Sha3_Proofs2.digest_ok g 136 32 0x06 suffix_sha3 ps true [] [] r136 S H n)
   (conj (Sha3_Proofs2.digest_ok g 104 48 0x06 suffix_sha3 ps true [] [] r104 S H n)
         (Sha3_Proofs2.digest_ok g 72 64 0x06 suffix_sha3 ps true [] [] r72 S H n)))).
Qed.
Print Assumptions C05_sha3_digests_correct.
(* SHA3-256("abc") is the published digest; computed by the model in two writes *)
Example ex_sha3_abc : snd (Sum false (writes false New256 [[97]; [98; 99]]) true [] []) =
  [0x3a;0x98;0x5d;0xa7;0x4f;0xe2;0x25;0xb2;0x04;0x5c;0x17;0x2d;0x6b;0xd3;0x90;0xbd;
   0x85;0x5f;0x08;0x6e;0x3e;0x9d;0x52;0x5b;0x46;0xbf;0xe2;0x45;0x11;0x43;0x15;0x32].
Proof. vm_compute. reflexivity. Qed.
(* a block-crossing split *)
Example ex_sha3_split :
  snd (Sum true (writes true New512 [repeat 7 71; [8]; repeat 9 73]) true [] []) =
  sha3_512 (repeat 7 71 ++ [8] ++ repeat 9 73).
Proof.
  apply (C05_sha3_digests_correct true [repeat 7 71; [8]; repeat 9 73]).
  repeat (constructor; [repeat (constructor; [split; [discriminate|reflexivity]|]); constructor|]). constructor.
Qed.

(* C06 *)
Theorem C06_shake_stream : forall g ps outs, Forall bytes ps ->
  concat (reads g (writes g NewShake128 ps) outs) = shake128 (concat ps) (length (concat outs)) /\
  map (@length Z) (reads g (writes g NewShake128 ps) outs) = map (@length Z) outs /\
  concat (reads g (writes g NewShake256 ps) outs) = shake256 (concat ps) (length (concat outs)) /\
  map (@length Z) (reads g (writes g NewShake256 ps) outs) = map (@length Z) outs.
Proof.
  intros g ps outs H.
  destruct (Sha3_Proofs2.stream_ok g _ _ _ _ _ _ ps outs
    (Sha3_Proofs2.Rel_new 168 0 0x1f suffix_shake Sha3_Proofs.valid_rate_168
      (or_intror (or_introl (conj eq_refl eq_refl)))) H) as [A1 A2].
  destruct (Sha3_Proofs2.stream_ok g _ _ _ _ _ _ ps outs
    (Sha3_Proofs2.Rel_new 136 0 0x1f suffix_shake r136
      (or_intror (or_introl (conj eq_refl eq_refl)))) H) as [B1 B2].
  exact (conj A1 (conj A2 (conj B1 B2))).
Qed.
Print Assumptions C06_shake_stream.
Theorem C06_shakesum : forall g hash data, bytes data ->
  ShakeSum128 g hash data = shake128 data (length hash) /\
  ShakeSum256 g hash data = shake256 data (length hash).
Proof.
  intros g hash data H.
  destruct (C06_shake_stream g [data] [hash] (Forall_cons _ H (Forall_nil _))) as (A & _ & B & _).
  cbn [concat] in A, B. rewrite !app_nil_r in A, B. unfold reads, writes in A, B. cbn [fold_left] in A, B.
  unfold ShakeSum128, ShakeSum256.
  destruct (Read g (fst (Write g NewShake128 data)) hash). destruct (Read g (fst (Write g NewShake256 data)) hash).
  cbn [concat snd] in *. rewrite app_nil_r in A, B. exact (conj A B).
Qed.
Print Assumptions C06_shakesum.
Example ex_shake_reads :
  firstn 4 (concat (reads false (writes false NewShake128 [[]; []]) [[0]; []; [9; 9; 9]])) = [0x7f; 0x9c; 0x2b; 0xa4].
Proof. vm_compute. reflexivity. Qed.

(* C07, C08, C09: every history over any set of objects is that of the ideal objects *)
Theorem C08_history_refines_ideal : forall g os is ops,
  Forall2 (creates g) os is -> Forall op_ok ops -> run g os ops = irun is ops.
Proof. exact Sha3_Proofs2.history_ok. Qed.
Print Assumptions C08_history_refines_ideal.
Example ex_history :
  let os := [mkObj NewShake256 None; mkObj New224 None] in
  let ops := [OWrite 0 [1;2]; OClone 0; OWrite 2 [3]; ORead 0 [0;0]; OWrite 0 [1]; ORead 2 [0]; OSum 1 true [] [];
              OReset 0; OWrite 0 (repeat 5 137); ORead 0 [0]] in
  Forall2 (creates true) os [fresh 136 0 suffix_shake []; fresh 144 28 suffix_sha3 []] /\
  Forall op_ok ops /\
  run true os ops =
   [RWrite 2 None; RUnit; RWrite 1 None; RBytes (shake256 [1;2] 2); RWrite 0 (Some ErrWriteAfterRead);
    RBytes (shake256 [1;2;3] 1); RBytes (sha3_224 []); RUnit; RWrite 137 None; RBytes (shake256 (repeat 5 137) 1)].
Proof.
  intros os ops.
  assert (H : Forall2 (creates true) os [fresh 136 0 suffix_shake []; fresh 144 28 suffix_sha3 []])
    by (unfold os; repeat constructor).
  assert (B : Forall op_ok ops).
  { unfold ops. repeat (constructor; [try exact I; try (split; reflexivity);
      repeat (constructor; [split; [discriminate|reflexivity]|]); constructor|]). constructor. }
  split; [exact H|]. split; [exact B|].
  rewrite (C08_history_refines_ideal true os _ ops H B).
  unfold ops, shake256, sha3_224. cbv - [sponge bits_of_bytes repeat suffix_shake suffix_sha3 Nat.add].
  reflexivity.
Qed.

(* C07: refusal has no side effect *)
Theorem C07_write_after_read : forall g o i o' p, creates g o i -> reach g o o' -> bytes p ->
  forall out,
  let s := fst (Read g (st o') out) in
  Write g s p = (s, (O, Some ErrWriteAfterRead)).
Proof.
  intros g o i o' p C R _ out s.
  destruct (Sha3_Proofs2.reach_Rel g o o' i (Sha3_Proofs2.creates_Rel _ _ _ C) R) as (i' & H & _).
  destruct (Sha3_Proofs2.Rel_read g o' i' out H) as [(_ & _ & _ & _ & _ & _ & _ & Q) _].
  unfold Write. destruct Q as (_ & _ & Q & _). cbn [st] in Q. unfold s. rewrite Q. reflexivity.
Qed.
Print Assumptions C07_write_after_read.

(* C07: Reset restores freshness, for all later histories (clones included) *)
Theorem C07_reset_fresh : forall g o i o' ops, creates g o i -> reach g o o' -> Forall op_ok ops ->
  run g [ResetObj g o'] ops = run g [o] ops.
Proof. exact Sha3_Proofs2.reset_fresh. Qed.
Print Assumptions C07_reset_fresh.
Example ex_reset : exists o', reach false (NewCShake128 false [1] [2]) o' /\
  isSquezing (st o') = true /\
  run false [ResetObj false o'] [OClone 0; ORead 1 [0;0]] = run false [NewCShake128 false [1] [2]] [OClone 0; ORead 1 [0;0]].
Proof.
  assert (B : forall x, 0 <= x < 256 -> bytes [x]) by (intros; constructor; [assumption|constructor]).
  eexists. split; [eapply r_read with (out := [0;0;0]); eapply r_write with (p := [9]); [apply r_refl|]|].
  - apply B. split; [discriminate|reflexivity].
  - split; [reflexivity|]. eapply C07_reset_fresh.
    + apply crC128; try reflexivity; apply B; split; discriminate || reflexivity.
    + eapply r_read; eapply r_write; [apply r_refl|]. apply B. split; [discriminate|reflexivity].
    + repeat (constructor; [exact I|]). constructor.
Qed.

(* C09: Sum's result for any argument slice, and the state change that hash.Hash forbids *)
Theorem C09_sum_appends_and_advances : forall g r d b sf ps in1 sp1 in2 sp2,
  In (r, d, b, sf) [(144, 28, 0x06, suffix_sha3); (136, 32, 0x06, suffix_sha3);
                    (104, 48, 0x06, suffix_sha3); (72, 64, 0x06, suffix_sha3)]%nat -> Forall bytes ps ->
  let stream := sponge r (bits_of_bytes (concat ps) ++ sf) in
  let s := writes g (new r d (Z.of_nat b)) ps in
  let s1 := fst (Sum g s false in1 sp1) in
  snd (Sum g s false in1 sp1) = in1 ++ stream d /\
  snd (Sum g s1 false in2 sp2) = in2 ++ skipn d (stream (d + d)%nat) /\
  (forall p, Write g s1 p = (s1, (O, Some ErrWriteAfterRead))).
Proof.
  intros g r d b sf ps in1 sp1 in2 sp2 H Hp.
  assert (V : valid_rate r /\ Sha3_Proofs.sfx_ok (Z.of_nat b) sf).
  { cbn [In] in H. repeat (destruct H as [H|H]; [inversion H; subst; split; [unfold valid_rate; auto|left; split; reflexivity]|]).
    contradiction. }
  destruct V as [V S]. split.
  - apply Sha3_Proofs2.digest_ok; auto. discriminate.
  - apply Sha3_Proofs2.sum_twice; auto.
Qed.
Print Assumptions C09_sum_appends_and_advances.
Theorem C09_sum_keeps_state_refuted : exists p, bytes p /\
  let s := writes false New256 [p] in
  snd (Sum false (fst (Sum false s true [] [])) true [] []) <> snd (Sum false s true [] []).
Proof.
  exists [97]. split; [repeat constructor; discriminate|]. apply zlist_neq. vm_compute. reflexivity.
Qed.
Print Assumptions C09_sum_keeps_state_refuted.

(* C10 *)
Theorem C10_xor_builds_agree : forall a buf, length a = 25%nat -> valid_rate (length buf) ->
  xorInUnaligned a buf = xorInGeneric a buf /\ copyOutUnaligned a buf = copyOutGeneric a buf.
Proof. exact (fun a buf H V => conj (Sha3_Proofs.xorIn_eq a buf V) (Sha3_Proofs2.copyOut_same a buf H V)). Qed.
Print Assumptions C10_xor_builds_agree.
(* the restriction to the rates in use is needed *)
Theorem C10_all_lengths_refuted : exists a buf, length a = 25%nat /\ length buf = 80%nat /\
  xorInUnaligned a buf <> xorInGeneric a buf.
Proof.
  exists (repeat 0 25), (repeat 1 80). repeat split. apply zlist_neq. vm_compute. reflexivity.
Qed.
Print Assumptions C10_all_lengths_refuted.
Example ex_xor : xorInUnaligned (repeat 3 25) (repeat 1 104) <> repeat 3 25.
Proof. intros E. vm_compute in E. discriminate E. Qed.

(* C11 *)
Theorem C11_left_encode : forall v, 0 <= v < 2 ^ 64 -> leftEncode v = left_encode v.
Proof. exact Sha3_Proofs2.leftEncode_ok. Qed.
Print Assumptions C11_left_encode.
Theorem C11_left_encode_minimal : forall v n, 0 <= v -> (1 <= n)%nat -> v < 256 ^ Z.of_nat n ->
  (length (left_encode v) <= 1 + n)%nat.
Proof.
  intros v n H1 H2 H3. unfold left_encode. cbn [length]. rewrite be_enc_length.
  apply le_n_S. exact (Sha3_Proofs2.left_encode_minimal v n H1 H2 H3).
Qed.
Print Assumptions C11_left_encode_minimal.
Theorem C11_left_encode_prefix_free : forall x y s t, 0 <= x < 2 ^ 64 -> 0 <= y < 2 ^ 64 ->
  leftEncode x ++ s = leftEncode y ++ t -> x = y /\ s = t.
Proof.
  intros x y s t Hx Hy. rewrite !C11_left_encode by assumption.
  exact (Sha3_Proofs2.left_encode_prefix_free x y s t (proj1 Hx) (proj1 Hy)).
Qed.
Print Assumptions C11_left_encode_prefix_free.
Example ex_left_encode : leftEncode 0 = [1; 0] /\ leftEncode 65536 = [3; 1; 0; 0] /\
  leftEncode (2 ^ 64 - 1) = 8 :: repeat 255 8.
Proof. vm_compute. auto. Qed.

(* C12 *)
Theorem C12_bytepad : forall X w, 0 < Z.of_nat w < 2 ^ 64 ->
  (length (Sha3_Model.bytepad X w) mod w = 0)%nat /\
  Sha3_Model.bytepad X w = Sha3_Spec.bytepad X w ++
    (if (length (left_encode (Z.of_nat w) ++ X) mod w =? 0)%nat then repeat 0 w else []).
Proof.
  exact (fun X w H => conj (Sha3_Proofs2.bytepad_mod X w ltac:(lia)) (Sha3_Proofs2.bytepad_ok X w H)).
Qed.
Print Assumptions C12_bytepad.
Theorem C12_bytepad_exact_iff : forall X w, 0 < Z.of_nat w < 2 ^ 64 ->
  (Sha3_Model.bytepad X w = Sha3_Spec.bytepad X w <->
   (length (left_encode (Z.of_nat w) ++ X) mod w <> 0)%nat).
Proof. exact Sha3_Proofs2.bytepad_exact. Qed.
Print Assumptions C12_bytepad_exact_iff.
Example ex_bytepad : Sha3_Model.bytepad [5;6] 8 = [1;8;5;6;0;0;0;0] /\
  length (Sha3_Model.bytepad [1;2;3;4;5;6] 8) = 16%nat /\ length (Sha3_Spec.bytepad [1;2;3;4;5;6] 8) = 8%nat.
Proof. vm_compute. auto. Qed.

(* C13 *)
Theorem C13_cshake128 : forall g N S ps outs, bytes N -> bytes S -> small N -> small S -> Forall bytes ps ->
  concat (reads g (writes g (st (NewCShake128 g N S)) ps) outs) =
    sponge 168 (absorbed 168 N S (concat ps)) (length (concat outs)) /\
  (N = [] /\ S = [] \/ ~ aligned 168 N S ->
   concat (reads g (writes g (st (NewCShake128 g N S)) ps) outs) = cshake128 (concat ps) (length (concat outs)) N S).
Proof. exact Sha3_Proofs2.cshake128_ok. Qed.
Print Assumptions C13_cshake128.
Theorem C13_cshake256 : forall g N S ps outs, bytes N -> bytes S -> small N -> small S -> Forall bytes ps ->
  concat (reads g (writes g (st (NewCShake256 g N S)) ps) outs) =
    sponge 136 (absorbed 136 N S (concat ps)) (length (concat outs)) /\
  (N = [] /\ S = [] \/ ~ aligned 136 N S ->
   concat (reads g (writes g (st (NewCShake256 g N S)) ps) outs) = cshake256 (concat ps) (length (concat outs)) N S).
Proof. exact Sha3_Proofs2.cshake256_ok. Qed.
Print Assumptions C13_cshake256.
(* the deviation is real: a 161-byte customisation string *)
Theorem C13_cshake_all_inputs_refuted : exists S, bytes S /\ small S /\
  snd (Read false (st (NewCShake128 false [] S)) (repeat 0 8)) <> cshake128 [] 8 [] S.
Proof.
  exists (repeat 65 161). split; [apply Forall_repeat; split; [discriminate|reflexivity]|].
  split; [reflexivity|].
  (* the standard's value, computed by the (verified) sponge code *)
  set (pre := Sha3_Spec.bytepad (encode_string [] ++ encode_string (repeat 65 161)) 168).
  assert (E : cshake128 [] 8 [] (repeat 65 161) = concat (reads false (writes false (new 168 0 0x04) [pre]) [repeat 0 8])).
  { symmetry. refine (proj1 (Sha3_Proofs2.stream_ok false _ None 168 suffix_cshake 0 [] [pre] [repeat 0 8] _ _)).
    - apply Sha3_Proofs2.Rel_new; [unfold valid_rate; auto|right; right; split; reflexivity].
    - constructor; [|constructor]. unfold pre. vm_compute.
      repeat (constructor; [split; [discriminate|reflexivity]|]). constructor. }
  rewrite E. apply zlist_neq. vm_compute. reflexivity.
Qed.
Print Assumptions C13_cshake_all_inputs_refuted.
(* NIST sample #1: cSHAKE128 of 00010203 with S = "Email Signature" *)
Example ex_cshake_sample :
  let S := [69;109;97;105;108;32;83;105;103;110;97;116;117;114;101] in
  ~ aligned 168 [] S /\
  firstn 8 (snd (Read false (fst (Write false (st (NewCShake128 false [] S)) [0;1;2;3])) (repeat 0 32))) =
  [0xC1;0xC3;0x69;0x25;0xB6;0x40;0x9A;0x04].
Proof. split; [intros E; vm_compute in E; discriminate E|vm_compute; reflexivity]. Qed.

(* C14 *)
Theorem C14_customisation_unambiguous : forall r N S N' S' X X', (0 < r <= 168)%nat ->
  small N -> small S -> small N' -> small S' ->
  bytes N -> bytes S -> bytes N' -> bytes S' -> bytes X -> bytes X' ->
  absorbed r N S X = absorbed r N' S' X' -> N = N' /\ S = S' /\ X = X'.
Proof. exact Sha3_Proofs2.absorbed_inj. Qed.
Print Assumptions C14_customisation_unambiguous.
Example ex_custom : absorbed 136 [1] [2;3] [4] <> absorbed 136 [1;2] [3] [4].
Proof. intros E. vm_compute in E. discriminate E. Qed.
