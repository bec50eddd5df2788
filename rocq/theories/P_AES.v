(* C15 - C17: AES. *)
From Coq Require Import ZArith List Bool Lia.
From Verif Require Import Lib AES_Tables AES_Spec AES_Model AES_Proofs AES_Proofs2.
Import ListNotations.
Open Scope Z_scope.

(* two 16-byte windows share a byte without being the same window *)
Definition inexact_overlap (a b : Z) : Prop :=
  a <> b /\ exists i, a <= i < a + 16 /\ b <= i < b + 16.

Lemma overlap_iff : forall d s, (16 <= length (cont d))%nat -> (16 <= length (cont s))%nat ->
  InexactOverlap (first16 d) (first16 s) = true <-> inexact_overlap (addr d) (addr s).
Proof.
  intros d s Ld Ls. unfold InexactOverlap, AnyOverlap, first16, inexact_overlap. cbn [addr cont].
  assert (E1 : length (firstn 16 (cont d)) = 16%nat) by (rewrite firstn_length; lia).
  assert (E2 : length (firstn 16 (cont s)) = 16%nat) by (rewrite firstn_length; lia).
  rewrite E1, E2. cbn [Nat.eqb Nat.ltb Nat.leb andb orb]. change (Z.of_nat 16) with 16.
  destruct (Z.eqb_spec (addr d) (addr s)).
  - split; [discriminate|]. intros [H _]. contradiction.
  - rewrite andb_true_iff, !Z.leb_le. split.
    + intros [H1 H2]. split; auto. exists (Z.max (addr d) (addr s)). lia.
    + intros [_ [i Hi]]. lia.
Qed.

Lemma blit_first16 : forall d b, (16 <= length d)%nat -> length b = 16%nat -> blit d 0 b = b ++ skipn 16 d.
Proof.
  intros d b Ld L. unfold blit. rewrite L, Nat.sub_0_r, firstn_O, app_nil_l.
  rewrite firstn_all2 by (rewrite L; exact Ld). reflexivity.
Qed.

Theorem C15_aes_encrypt_is_fips197 : forall c key dst src,
  key_ok key -> bytes (cont src) -> (16 <= length (cont src))%nat -> (16 <= length (cont dst))%nat ->
  ~ inexact_overlap (addr dst) (addr src) ->
  Encrypt (fst (SetKey c key)) dst src =
    inl (AES_encrypt key (firstn 16 (cont src)) ++ skipn 16 (cont dst)).
Proof.
  intros c key dst src K B Ls Ld NO. unfold Encrypt, block_op.
  replace (length (cont src) <? 16)%nat with false by (symmetry; apply Nat.ltb_ge; lia).
  replace (length (cont dst) <? 16)%nat with false by (symmetry; apply Nat.ltb_ge; lia).
  destruct (InexactOverlap (first16 dst) (first16 src)) eqn:EO.
  { exfalso. apply NO, overlap_iff; auto. }
  rewrite (proj1 (SetKey_fields c key K)), enc_first16 by auto.
  assert (BO : block_ok (firstn 16 (cont src))).
  { split; [apply Forall_firstn, B | rewrite firstn_length; lia]. }
  destruct (AES_encrypt_ok key _ K BO) as [E [_ L]]. rewrite E.
  rewrite (blit_first16 (cont dst) (AES_encrypt key (firstn 16 (cont src))) Ld L). exact eq_refl.
Qed.
Print Assumptions C15_aes_encrypt_is_fips197.

(* Every table entry, against the GF(2^8) definitions of the standard. *)
Theorem C15_aes_tables : forall x, is_byte x ->
  let s := SubByte x in let i := InvSubByte x in
  tab sbox0 x = s /\ tab sbox1 x = i /\
  be_enc 4 (tab te0 x) = [gmul 2 s; s; s; gmul 3 s] /\
  be_enc 4 (tab te1 x) = [gmul 3 s; gmul 2 s; s; s] /\
  be_enc 4 (tab te2 x) = [s; gmul 3 s; gmul 2 s; s] /\
  be_enc 4 (tab te3 x) = [s; s; gmul 3 s; gmul 2 s] /\
  be_enc 4 (tab td0 x) = [gmul 14 i; gmul 9 i; gmul 13 i; gmul 11 i] /\
  be_enc 4 (tab td1 x) = [gmul 11 i; gmul 14 i; gmul 9 i; gmul 13 i] /\
  be_enc 4 (tab td2 x) = [gmul 13 i; gmul 11 i; gmul 14 i; gmul 9 i] /\
  be_enc 4 (tab td3 x) = [gmul 9 i; gmul 13 i; gmul 11 i; gmul 14 i].
Proof.
  intros x H s i. assert (Hs : is_byte s) by (apply S0_byte; auto). assert (Hi : is_byte i) by (apply S1_byte; auto).
  assert (G1 : gmul 1 s = s).
  { apply Z.eqb_eq. apply (forall_bytes (fun s => gmul 1 s =? s)); [vm_compute; reflexivity | assumption]. }
  rewrite S0_ok, S1_ok, te0_ok, te1_ok, te2_ok, te3_ok, td0_ok, td1_ok, td2_ok, td3_ok by assumption.
  fold s i. unfold col0. rewrite !W_enc by bytesolve. rewrite !G1. repeat split.
Qed.
Print Assumptions C15_aes_tables.

(* SubByte is the affine map of the inverse in GF(2^8), with 0 sent to the affine constant *)
Theorem C15_sbox_inverse : forall x, is_byte x ->
  (x = 0 -> SubByte x = 0x63) /\ (x <> 0 -> exists y, is_byte y /\ gmul x y = 1 /\ SubByte x = affine y).
Proof.
  intros x H. split; intros E.
  - subst. rewrite <- S0_ok by auto. reflexivity.
  - exists (ginv x). split; [|split; [apply ginv_ok; auto|]].
    + unfold ginv. apply gmul_byte. repeat apply gmul_byte. auto.
    + apply SubByte_def.
Qed.
Print Assumptions C15_sbox_inverse.

Theorem C16_aes_decrypt_is_invcipher : forall c key dst src,
  key_ok key -> bytes (cont src) -> (16 <= length (cont src))%nat -> (16 <= length (cont dst))%nat ->
  ~ inexact_overlap (addr dst) (addr src) ->
  Decrypt (fst (SetKey c key)) dst src =
    inl (AES_decrypt key (firstn 16 (cont src)) ++ skipn 16 (cont dst)).
Proof.
  intros c key dst src K B Ls Ld NO. unfold Decrypt, block_op.
  replace (length (cont src) <? 16)%nat with false by (symmetry; apply Nat.ltb_ge; lia).
  replace (length (cont dst) <? 16)%nat with false by (symmetry; apply Nat.ltb_ge; lia).
  destruct (InexactOverlap (first16 dst) (first16 src)) eqn:EO.
  { exfalso. apply NO, overlap_iff; auto. }
  rewrite (proj2 (SetKey_fields c key K)), dec_first16 by auto.
  assert (BO : block_ok (firstn 16 (cont src))).
  { split; [apply Forall_firstn, B | rewrite firstn_length; lia]. }
  destruct (AES_decrypt_ok key _ K BO) as [E [_ L]]. rewrite E.
  rewrite (blit_first16 (cont dst) (AES_decrypt key (firstn 16 (cont src))) Ld L). exact eq_refl.
Qed.
Print Assumptions C16_aes_decrypt_is_invcipher.

Theorem C16_aes_inverse : forall key b, key_ok key -> block_ok b ->
  AES_decrypt key (AES_encrypt key b) = b /\ AES_encrypt key (AES_decrypt key b) = b.
Proof.
  intros key b K Hb. destruct (expand_ok key K) as (_ & E2 & _ & E4 & E5).
  split.
  - exact (InvCipher_Cipher _ _ b E2 E4 ltac:(lia) Hb).
  - exact (Cipher_InvCipher _ _ b E2 E4 ltac:(lia) Hb).
Qed.
Print Assumptions C16_aes_inverse.

(* on the code: any two ciphers holding the same key undo each other's block operation *)
Theorem C16_aes_roundtrip : forall c c' key dst src dst' src' out,
  key_ok key -> bytes (cont src) -> (16 <= length (cont dst'))%nat -> ~ inexact_overlap (addr dst') (addr src') ->
  (Encrypt (fst (SetKey c key)) dst src = inl out -> cont src' = out ->
     Decrypt (fst (SetKey c' key)) dst' src' = inl (firstn 16 (cont src) ++ skipn 16 (cont dst'))) /\
  (Decrypt (fst (SetKey c key)) dst src = inl out -> cont src' = out ->
     Encrypt (fst (SetKey c' key)) dst' src' = inl (firstn 16 (cont src) ++ skipn 16 (cont dst'))).
Proof.
  intros c c' key dst src dst' src' out K B Ld' NO'.
  assert (G : forall f X, block_op f dst src = inl X ->
     (16 <= length (cont src))%nat /\ (16 <= length (cont dst))%nat /\ InexactOverlap (first16 dst) (first16 src) = false /\
     X = blit (cont dst) 0 (f (cont src))).
  { intros f X. unfold block_op. destruct (Nat.ltb_spec (length (cont src)) 16); [discriminate|].
    destruct (Nat.ltb_spec (length (cont dst)) 16); [discriminate|].
    destruct (InexactOverlap (first16 dst) (first16 src)); [discriminate|]. intros E; inversion E. auto. }
  assert (BO : (16 <= length (cont src))%nat -> block_ok (firstn 16 (cont src))).
  { intros L. split; [apply Forall_firstn, B | rewrite firstn_length; lia]. }
  split; intros HE Ho.
  - destruct (G _ _ HE) as (Ls & Ld & _ & EX). specialize (BO Ls).
    rewrite (proj1 (SetKey_fields c key K)), enc_first16 in EX by auto.
    destruct (AES_encrypt_ok key _ K BO) as [E [Bb L]]. rewrite E in EX.
    rewrite (blit_first16 (cont dst) (AES_encrypt key (firstn 16 (cont src))) Ld L) in EX.
    unfold Decrypt, block_op. rewrite Ho.
    replace (length out <? 16)%nat with false
      by (symmetry; apply Nat.ltb_ge; rewrite EX, app_length, L; lia).
    replace (length (cont dst') <? 16)%nat with false by (symmetry; apply Nat.ltb_ge; lia).
    destruct (InexactOverlap (first16 dst') (first16 src')) eqn:EO.
    { exfalso. apply NO', overlap_iff; auto. rewrite Ho, EX, app_length, L. lia. }
    rewrite (proj2 (SetKey_fields c' key K)), dec_first16 by (rewrite EX, app_length, L; lia).
    replace (firstn 16 out) with (AES_encrypt key (firstn 16 (cont src)))
      by (rewrite EX; rewrite firstn_app, L, Nat.sub_diag, firstn_O, app_nil_r; symmetry; apply firstn_all2; rewrite L; constructor).
    rewrite (proj1 (AES_decrypt_ok key _ K (conj Bb L))).
    rewrite (proj1 (C16_aes_inverse key _ K BO)).
    rewrite (blit_first16 (cont dst') (firstn 16 (cont src)) Ld' (proj2 BO)). exact eq_refl.
  - destruct (G _ _ HE) as (Ls & Ld & _ & EX). specialize (BO Ls).
    rewrite (proj2 (SetKey_fields c key K)), dec_first16 in EX by auto.
    destruct (AES_decrypt_ok key _ K BO) as [E [Bb L]]. rewrite E in EX.
    rewrite (blit_first16 (cont dst) (AES_decrypt key (firstn 16 (cont src))) Ld L) in EX.
    unfold Encrypt, block_op. rewrite Ho.
    replace (length out <? 16)%nat with false
      by (symmetry; apply Nat.ltb_ge; rewrite EX, app_length, L; lia).
    replace (length (cont dst') <? 16)%nat with false by (symmetry; apply Nat.ltb_ge; lia).
    destruct (InexactOverlap (first16 dst') (first16 src')) eqn:EO.
    { exfalso. apply NO', overlap_iff; auto. rewrite Ho, EX, app_length, L. lia. }
    rewrite (proj1 (SetKey_fields c' key K)), enc_first16 by (rewrite EX, app_length, L; lia).
    replace (firstn 16 out) with (AES_decrypt key (firstn 16 (cont src)))
      by (rewrite EX; rewrite firstn_app, L, Nat.sub_diag, firstn_O, app_nil_r; symmetry; apply firstn_all2; rewrite L; constructor).
    rewrite (proj1 (AES_encrypt_ok key _ K (conj Bb L))).
    rewrite (proj2 (C16_aes_inverse key _ K BO)).
    rewrite (blit_first16 (cont dst') (firstn 16 (cont src)) Ld' (proj2 BO)). exact eq_refl.
Qed.
Print Assumptions C16_aes_roundtrip.

Definition good_len (n : nat) : Prop := n = 16%nat \/ n = 24%nat \/ n = 32%nat.

Theorem C17_setkey_rejects_exactly : forall c key,
  (good_len (length key) -> snd (SetKey c key) = true) /\
  (~ good_len (length key) -> SetKey c key = (c, false)).
Proof.
  intros c key. unfold SetKey, good_len.
  destruct (Nat.eqb_spec (length key) 16); [split; intros; [reflexivity|tauto]|].
  destruct (Nat.eqb_spec (length key) 24); [split; intros; [reflexivity|tauto]|].
  destruct (Nat.eqb_spec (length key) 32); [split; intros; [reflexivity|tauto]|].
  cbn [orb snd]. split; intros; [tauto|reflexivity].
Qed.
Print Assumptions C17_setkey_rejects_exactly.

Definition good_lenb (n : nat) : bool := ((n =? 16) || (n =? 24) || (n =? 32))%nat.
Fixpoint last_accepted (ks : list (list Z)) (acc : option (list Z)) : option (list Z) :=
  match ks with
  | [] => acc
  | k :: ks' => last_accepted ks' (if good_lenb (length k) then Some k else acc)
  end.

(* after any calls of SetKey the object is the one a fresh object gets from the last accepted key *)
Theorem C17_setkey_no_residue : forall ks c,
  fold_left (fun c k => fst (SetKey c k)) ks c =
    match last_accepted ks None with None => c | Some k => fst (SetKey NewCipher k) end.
Proof.
  assert (G : forall ks c acc, (match acc with None => True | Some k => c = fst (SetKey NewCipher k) end) ->
     fold_left (fun c k => fst (SetKey c k)) ks c =
     match last_accepted ks acc with None => c | Some k => fst (SetKey NewCipher k) end).
  { induction ks as [|k ks IH]; intros c acc H; cbn [fold_left last_accepted].
    - destruct acc; auto.
    - unfold SetKey at 2. fold (good_lenb (length k)). destruct (good_lenb (length k)) eqn:E.
      + cbn [fst]. rewrite IH with (acc := Some k).
        * destruct (last_accepted ks (Some k)) eqn:F; auto.
          exfalso. revert F. clear. assert (A : forall ks k, last_accepted ks (Some k) <> None).
          { clear. induction ks as [|k' ks IH]; intros k; cbn; [discriminate|]. destruct (good_lenb (length k')); apply IH. }
          apply A.
        * unfold SetKey. fold (good_lenb (length k)). rewrite E. reflexivity.
      + cbn [fst]. rewrite IH with (acc := acc); auto. }
  intros. apply G. exact I.
Qed.
Print Assumptions C17_setkey_no_residue.

(* the block functions: which calls panic, and that a successful call touches 16 bytes only *)
Theorem C17_block_bounds : forall c dst src,
  (forall f, f = Encrypt \/ f = Decrypt ->
    ((length (cont src) < 16)%nat -> f c dst src = inr InputNotFull) /\
    ((16 <= length (cont src))%nat -> (length (cont dst) < 16)%nat -> f c dst src = inr OutputNotFull) /\
    ((16 <= length (cont src))%nat -> (16 <= length (cont dst))%nat ->
       (inexact_overlap (addr dst) (addr src) -> f c dst src = inr InvalidOverlap) /\
       (~ inexact_overlap (addr dst) (addr src) ->
          exists b, length b = 16%nat /\ bytes b /\ f c dst src = inl (b ++ skipn 16 (cont dst))))).
Proof.
  intros c dst src.
  assert (G : forall g, (forall s, length (g s) = 16%nat /\ bytes (g s)) ->
    ((length (cont src) < 16)%nat -> block_op g dst src = inr InputNotFull) /\
    ((16 <= length (cont src))%nat -> (length (cont dst) < 16)%nat -> block_op g dst src = inr OutputNotFull) /\
    ((16 <= length (cont src))%nat -> (16 <= length (cont dst))%nat ->
       (inexact_overlap (addr dst) (addr src) -> block_op g dst src = inr InvalidOverlap) /\
       (~ inexact_overlap (addr dst) (addr src) ->
          exists b, length b = 16%nat /\ bytes b /\ block_op g dst src = inl (b ++ skipn 16 (cont dst))))).
  { intros g Hg. unfold block_op.
    destruct (Nat.ltb_spec (length (cont src)) 16); [split; [auto|split; intros; lia]|].
    destruct (Nat.ltb_spec (length (cont dst)) 16); [split; [lia|split; [auto|intros; lia]]|].
    split; [lia|]. split; [lia|]. intros _ _.
    destruct (InexactOverlap (first16 dst) (first16 src)) eqn:EO.
    - apply overlap_iff in EO; auto. split; [auto|]. intros; contradiction.
    - split. + intros O. apply overlap_iff in O; auto. rewrite O in EO. discriminate.
      + intros _. exists (g (cont src)). split; [apply Hg|]. split; [apply Hg|].
        rewrite (blit_first16 (cont dst) (g (cont src))) by (assumption || apply Hg). reflexivity. }
  assert (A : forall w x y z, length (be_enc 4 w ++ be_enc 4 x ++ be_enc 4 y ++ be_enc 4 z) = 16%nat /\
                              bytes (be_enc 4 w ++ be_enc 4 x ++ be_enc 4 y ++ be_enc 4 z)).
  { intros. split; [rewrite !app_length, !be_enc_length; reflexivity|]. apply bytes_app; [apply be_enc_bytes|]. apply bytes_app; [apply be_enc_bytes|]. apply bytes_app; apply be_enc_bytes. }
  intros f [-> | ->]; apply G; intros s.
  - rewrite encryptBlockGo_unfold.
    match goal with |- context [enc_rounds ?a ?b ?c ?d ?e] => destruct (enc_rounds a b c d e) as [[[[t0 t1] t2] t3] k] end.
    apply A.
  - rewrite decryptBlockGo_unfold.
    match goal with |- context [dec_rounds ?a ?b ?c ?d ?e] => destruct (dec_rounds a b c d e) as [[[[t0 t1] t2] t3] k] end.
    apply A.
Qed.
Print Assumptions C17_block_bounds.

(* FIPS-197 appendix C *)
Definition pt : list Z := map (fun i => 0x11 * Z.of_nat i) (seq 0 16).
Definition key_n (n : nat) : list Z := map Z.of_nat (seq 0 n).
Definition ct256 : list Z := [0x8e; 0xa2; 0xb7; 0xca; 0x51; 0x67; 0x45; 0xbf; 0xea; 0xfc; 0x49; 0x90; 0x4b; 0x49; 0x60; 0x89].
Example ex_fips197_c1 : AES_encrypt (key_n 16) pt =
  [0x69; 0xc4; 0xe0; 0xd8; 0x6a; 0x7b; 0x04; 0x30; 0xd8; 0xcd; 0xb7; 0x80; 0x70; 0xb4; 0xc5; 0x5a].
Proof. vm_compute. reflexivity. Qed.
Example ex_c15_192 : Encrypt (fst (SetKey NewCipher (key_n 24))) (mkSlice 100 (repeat 7 18)) (mkSlice 0 pt) =
  inl ([0xdd; 0xa9; 0x7c; 0xa4; 0x86; 0x4c; 0xdf; 0xe0; 0x6e; 0xaf; 0x70; 0xa0; 0xec; 0x0d; 0x71; 0x91] ++ [7; 7]).
Proof. vm_compute. reflexivity. Qed.
Example ex_c15_256 : Encrypt (fst (SetKey NewCipher (key_n 32))) (mkSlice 0 pt) (mkSlice 0 pt) = inl ct256.
Proof. vm_compute. reflexivity. Qed.
Example ex_c16_256 : Decrypt (fst (SetKey NewCipher (key_n 32))) (mkSlice 0 (repeat 0 16)) (mkSlice 50 ct256) = inl pt.
Proof. vm_compute. reflexivity. Qed.
Example ex_c16_inv : AES_decrypt (key_n 32) ct256 = pt.
Proof. vm_compute. reflexivity. Qed.
(* a short key after a long one leaves nothing behind; a bad length changes nothing *)
Example ex_c17 : fold_left (fun c k => fst (SetKey c k)) [key_n 32; key_n 16; key_n 17] NewCipher = fst (SetKey NewCipher (key_n 16)).
Proof. vm_compute. reflexivity. Qed.
Example ex_c17_overlap : Encrypt (fst (SetKey NewCipher (key_n 16))) (mkSlice 8 pt) (mkSlice 0 pt) = inr InvalidOverlap.
Proof. vm_compute. reflexivity. Qed.
