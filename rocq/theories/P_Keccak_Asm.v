(* Property C75: the amd64 assembly of the Keccak permutation.  Proofs are in Keccak_AsmProofs. *)
From Coq Require Import ZArith List.
From Verif Require Import Lib Keccak_Spec Keccak_Model Keccak_Proofs Keccak_Asm Keccak_AsmProofs.
Import ListNotations.
Open Scope Z_scope.

(* The call ends, touches nothing but its 26-word frame and the 25 lanes, reads no register or frame word it has not written,
   leaves Keccak-p[1600,24] of the lanes and gives back BP. *)
Theorem C75_keccak_asm : forall a bp, length a = 25%nat -> Forall is_w64 a -> is_w64 bp ->
  keccakCall a bp = Some (keccak_p a, bp).
Proof. exact Keccak_AsmProofs.keccakCall_ok. Qed.
Print Assumptions C75_keccak_asm.

(* the two builds compute the same permutation *)
Theorem C75_same_build : forall a bp, length a = 25%nat -> Forall is_w64 a -> is_w64 bp ->
  keccakCall a bp = Some (keccakF1600 a, bp).
Proof. intros a bp H W Wb. rewrite keccakF1600_ok by exact H. apply Keccak_AsmProofs.keccakCall_ok; assumption. Qed.
Print Assumptions C75_same_build.

Example ex_C75 : let a := map (fun i => 0x0123456789abcdef * Z.of_nat i mod 2 ^ 64) (seq 3 25) in
  length a = 25%nat /\ Forall is_w64 a /\ is_w64 77 /\ keccakCall a 77 = Some (keccak_p a, 77).
Proof.
  cbv zeta. assert (L : length (map (fun i => 0x0123456789abcdef * Z.of_nat i mod 2 ^ 64) (seq 3 25)) = 25%nat) by reflexivity.
  assert (W : Forall is_w64 (map (fun i => 0x0123456789abcdef * Z.of_nat i mod 2 ^ 64) (seq 3 25))).
  { apply Forall_forall. intros x H. apply in_map_iff in H. destruct H as (i & <- & _). apply Z.mod_pos_bound. reflexivity. }
  assert (W77 : is_w64 77) by (split; [discriminate|reflexivity]).
  split; [exact L|split; [exact W|split; [exact W77|]]]. apply C75_keccak_asm; assumption.
Qed.
