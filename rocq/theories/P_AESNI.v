(* C18: the AES-NI cipher. *)
From Coq Require Import ZArith List Bool Lia.
From Verif Require Import Lib AES_Spec AES_Model AES_Proofs AES_Proofs2 P_AES AESNI AESNI_Code AESNI_Model AESNI_Proofs.
Import ListNotations.
Open Scope Z_scope.

(* FIPS-197 5.3.5, the equivalent inverse cipher over its own key schedule *)
Definition EqInvCipher (Nr : nat) (dw : list (list Z)) (inp : list Z) : list Z :=
  let s := AddRoundKey dw 0 inp in
  let s := fold_left (fun s r => AddRoundKey dw r (InvMixColumns (InvShiftRows (InvSubBytes s)))) (seq 1 (Nr - 1)) s in
  AddRoundKey dw Nr (InvShiftRows (InvSubBytes s)).

(* a schedule array holds 60 words of four bytes *)
Definition words60 (b : list Z) (w : list (list Z)) : Prop :=
  b = concat w /\ length w = 60%nat /\ Forall (fun c => bytes c /\ length c = 4%nat) w.
Definition asm_ok (c : AESAsm) : Prop := length (encA c) = 240%nat /\ length (decA c) = 240%nat.

Lemma words60_len b w : words60 b w -> length b = 240%nat.
Proof. intros (-> & L & W). rewrite concat4 by (apply wok4; exact W). lia. Qed.

Lemma blit16 d b : length d = 16%nat -> length b = 16%nat -> blit d 0 b = b.
Proof. intros Ld Lb. rewrite blit_first16 by lia. rewrite skipn_all2 by lia. apply app_nil_r. Qed.
Lemma slice16 l : (16 <= length l)%nat -> slice (firstn 16 l) 0 16 = firstn 16 l.
Proof. intros L. unfold slice. cbn [skipn]. apply firstn_all2. rewrite firstn_length. lia. Qed.

Lemma memOf_inv o m : memOf o = Some m -> exists s, o = Halted s /\ mem s = m.
Proof. destruct o; cbn [memOf]; intros H; try discriminate. inversion H. eauto. Qed.

(* the block operations, from what a run leaves in memory *)
Lemma blockAsm_ok code X dst src R :
  (forall d s, memOf (run code [Num nrAsm; Ptr 0 0; Ptr 1 0; Ptr 2 0] fuel (entry [(240%nat, X); (16%nat, d); (16%nat, s)])) =
     Some [(240%nat, X); (16%nat, blit d 0 (R (slice s 0 16))); (16%nat, s)] /\
   memOf (run code [Num nrAsm; Ptr 0 0; Ptr 1 0; Ptr 1 0] fuel (entry [(240%nat, X); (16%nat, s)])) =
     Some [(240%nat, X); (16%nat, blit s 0 (R (slice s 0 16)))]) ->
  (16 <= length (cont dst))%nat -> (16 <= length (cont src))%nat -> length (R (firstn 16 (cont src))) = 16%nat ->
  blockAsm code X dst src = AOk (R (firstn 16 (cont src)) ++ skipn 16 (cont dst)).
Proof.
  intros H Ld Ls LR. destruct (H (firstn 16 (cont dst)) (firstn 16 (cont src))) as [H1 H2].
  rewrite slice16 in H1, H2 by exact Ls.
  assert (L1 : length (firstn 16 (cont dst)) = 16%nat) by (rewrite firstn_length; lia).
  assert (L2 : length (firstn 16 (cont src)) = 16%nat) by (rewrite firstn_length; lia).
  rewrite blit16 in H1, H2 by assumption. unfold blockAsm. cbv zeta. destruct (addr dst =? addr src).
  - apply memOf_inv in H2. destruct H2 as (s & H2 & M). cbv iota. rewrite H2, M. rewrite blit_first16 by assumption. reflexivity.
  - apply memOf_inv in H1. destruct H1 as (s & H1 & M). cbv iota. rewrite H1, M. rewrite blit_first16 by assumption. reflexivity.
Qed.
Lemma fold_block (f : list Z -> nat -> list Z) l : (forall s r, In r l -> block_ok s -> block_ok (f s r)) -> forall s, block_ok s -> block_ok (fold_left f l s).
Proof.
  induction l as [|r l IH]; intros H s Hs; [exact Hs|]. cbn [fold_left]. apply IH.
  - intros s' q Hq. apply H. right. exact Hq.
  - apply H; [left; reflexivity|exact Hs].
Qed.
Lemma Cipher_ok w s : wok w -> length w = 60%nat -> block_ok s -> block_ok (Cipher 14 w s).
Proof.
  intros W L H. unfold Cipher. cbv zeta. change (fun s r => AddRoundKey w r (MixColumns (ShiftRows (SubBytes s)))) with (eround w).
  apply AddRoundKey_ok; auto; [lia|]. change (block_ok (U (fold_left (eround w) (seq 1 (14 - 1)) (AddRoundKey w 0 s)))). apply U_ok. apply fold_block.
  - intros s' r Hr Hs'. apply in_seq in Hr. apply eround_ok; auto. lia.
  - apply AddRoundKey_ok; auto. lia.
Qed.
Lemma inv_sub_shift s : length s = 16%nat -> InvSubBytes (InvShiftRows s) = InvShiftRows (InvSubBytes s).
Proof. intro L. destruct (list16 s L) as (a0 & a1 & a2 & a3 & b0 & b1 & b2 & b3 & c0 & c1 & c2 & c3 & d0 & d1 & d2 & d3 & ->). reflexivity. Qed.
Lemma eqinv_fold w l : wok w -> (forall r, In r l -> (4 * r + 4 <= length w)%nat) -> forall s, block_ok s ->
  fold_left (fun s r => aesdec (rk (concat w) r) s) l s =
    fold_left (fun s r => AddRoundKey w r (InvMixColumns (InvShiftRows (InvSubBytes s)))) l s /\
  block_ok (fold_left (fun s r => aesdec (rk (concat w) r) s) l s).
Proof.
  intro Hw. induction l as [|r l IH]; intros Hl s Hs; [split; [reflexivity|exact Hs]|]. cbn [fold_left].
  assert (E : aesdec (rk (concat w) r) s = AddRoundKey w r (InvMixColumns (V s))) by (unfold aesdec, rk, V, AddRoundKey; rewrite slice_round_key by exact Hw; reflexivity).
  assert (E2 : AddRoundKey w r (InvMixColumns (InvShiftRows (InvSubBytes s))) = AddRoundKey w r (InvMixColumns (V s))) by (unfold V; rewrite <- inv_sub_shift by apply Hs; reflexivity).
  rewrite E, E2. apply IH; [intros q Hq; apply Hl; right; exact Hq|]. apply AddRoundKey_ok; auto; [apply Hl; left; reflexivity|].
  apply InvMixColumns_ok, V_ok, Hs.
Qed.
Lemma eqinv_ok w s : wok w -> length w = 60%nat -> block_ok s -> decChain (concat w) s = EqInvCipher 14 w s /\ block_ok (EqInvCipher 14 w s).
Proof.
  intros Hw L Hs. unfold decChain, EqInvCipher. cbv zeta.
  assert (E0 : xor_list s (rk (concat w) 0) = AddRoundKey w 0 s) by (unfold rk, AddRoundKey; rewrite slice_round_key by exact Hw; reflexivity).
  rewrite E0. destruct (eqinv_fold w (seq 1 13) Hw ltac:(intros r Hr; apply in_seq in Hr; lia) (AddRoundKey w 0 s) ltac:(apply AddRoundKey_ok; auto; lia)) as [E Bk].
  change (14 - 1)%nat with 13%nat. rewrite <- E. set (S := fold_left _ _ _) in *. clearbody S. rewrite <- inv_sub_shift by apply Bk. split.
  - unfold aesdeclast, AddRoundKey, rk. rewrite slice_round_key by exact Hw. reflexivity.
  - apply AddRoundKey_ok; auto; [lia|]. apply (V_ok S), Bk.
Qed.

(* ---------- what Encrypt and Decrypt do, whatever the arrays hold: always 14 rounds ---------- *)
Lemma ops_fields f g dst src X :
  ((16 <= length (cont src))%nat -> (16 <= length (cont dst))%nat -> ~ inexact_overlap (addr dst) (addr src) ->
     f dst src = AOk (X ++ skipn 16 (cont dst)) /\ g (cont src) = X /\ length X = 16%nat) ->
  blockOpAsm f dst src = match block_op g dst src with inl o => inl (AOk o) | inr p => inr p end.
Proof.
  intros H. unfold blockOpAsm, block_op. destruct (Nat.ltb_spec (length (cont src)) 16) as [|G1]; [reflexivity|]. destruct (Nat.ltb_spec (length (cont dst)) 16) as [|G2]; [reflexivity|].
  destruct (InexactOverlap _ _) eqn:EO; [reflexivity|]. destruct H as (H1 & H2 & H3); auto.
  { intro I. apply overlap_iff in I; auto. congruence. }
  rewrite H1, H2, (blit_first16 (cont dst) X) by auto. reflexivity.
Qed.
Theorem C18_always_14_rounds : forall c w dw dst src,
  words60 (encA c) w -> words60 (decA c) dw -> bytes (cont src) ->
  (16 <= length (cont src))%nat -> (16 <= length (cont dst))%nat -> ~ inexact_overlap (addr dst) (addr src) ->
  EncryptAsm c dst src = inl (AOk (Cipher 14 w (firstn 16 (cont src)) ++ skipn 16 (cont dst))) /\
  DecryptAsm c dst src = inl (AOk (EqInvCipher 14 dw (firstn 16 (cont src)) ++ skipn 16 (cont dst))).
Proof.
  intros c w dw dst src (Ew & Lw & Ww) (Ed & Ld & Wd) B L1 L2 NO.
  assert (BO : block_ok (firstn 16 (cont src))) by (split; [apply Forall_firstn, B | rewrite firstn_length; lia]).
  assert (TO : InexactOverlap (first16 dst) (first16 src) = false).
  { destruct (InexactOverlap _ _) eqn:EO; [|reflexivity]. exfalso. apply NO, overlap_iff; auto. }
  unfold EncryptAsm, DecryptAsm, blockOpAsm.
  replace (length (cont src) <? 16)%nat with false by (symmetry; apply Nat.ltb_ge; lia).
  replace (length (cont dst) <? 16)%nat with false by (symmetry; apply Nat.ltb_ge; lia). rewrite TO. split; f_equal.
  - rewrite <- (encChain_ok w _ Ww Lw BO), <- Ew. apply (blockAsm_ok encryptBlockAsm (encA c) dst src (encChain (encA c)) (enc_run (encA c)) L2 L1). rewrite Ew, (encChain_ok w _ Ww Lw BO). apply Cipher_ok; auto.
  - destruct (eqinv_ok dw _ Wd Ld BO) as [E Bk]. rewrite <- E, <- Ed. apply (blockAsm_ok decryptBlockAsm (decA c) dst src (decChain (decA c)) (dec_run (decA c)) L2 L1). rewrite Ed, E. apply Bk.
Qed.
Print Assumptions C18_always_14_rounds.

(* the three refusals of the portable cipher, in its order *)
Theorem C18_same_panics : forall c a dst src p,
  (EncryptAsm c dst src = inr p <-> Encrypt a dst src = inr p) /\ (DecryptAsm c dst src = inr p <-> Decrypt a dst src = inr p).
Proof.
  intros c a dst src p. unfold EncryptAsm, DecryptAsm, Encrypt, Decrypt, blockOpAsm, block_op.
  assert (I : forall q, @inr (ares (list Z)) panic q = inr p <-> @inr (list Z) panic q = inr p) by (intro q; split; intro H; inversion H; reflexivity).
  destruct (_ <? _)%nat; [split; apply I|]. destruct (_ <? _)%nat; [split; apply I|]. destruct (InexactOverlap _ _); [split; apply I|].
  split; split; discriminate.
Qed.
Print Assumptions C18_same_panics.

(* ---------- SetKey ---------- *)
Lemma setkey_run c key nr E D : key <> [] -> roundsOf (length key) = nr ->
  memOf (run expandKeyAsm (args nr) fuel (entry [(length key, key); (240%nat, encA c); (240%nat, decA c)])) = Some [(length key, key); (240%nat, E); (240%nat, D)] ->
  SetKeyAsm c key = AOk (mkAsm E D).
Proof.
  intros N <- H. apply memOf_inv in H. destruct H as (s & H & M). unfold SetKeyAsm, args in *.
  destruct key as [|k0 key]; [congruence|]. rewrite H, M. reflexivity.
Qed.
Lemma setkey_32 c key : asm_ok c -> bytes key -> length key = 32%nat ->
  SetKeyAsm c key = AOk (mkAsm (concat (KeyExpansion key)) (concat (dec_sched (KeyExpansion key)))).
Proof.
  intros [LE LD] B L. apply (setkey_run c key 14); [intros ->; discriminate L|rewrite L; reflexivity|]. rewrite L. apply expand_256; auto.
Qed.
Lemma setkey_16 c key : asm_ok c -> bytes key -> length key = 16%nat ->
  SetKeyAsm c key = AOk (mkAsm (concat (KeyExpansion key) ++ skipn 176 (encA c)) (concat (dec_sched (KeyExpansion key)) ++ skipn 176 (decA c))).
Proof.
  intros [LE LD] B L. apply (setkey_run c key 10); [intros ->; discriminate L|rewrite L; reflexivity|]. rewrite L. apply expand_128; auto.
Qed.
Lemma setkey_24 c key : asm_ok c -> bytes key -> length key = 24%nat ->
  SetKeyAsm c key = AOk (mkAsm (concat (KeyExpansion key) ++ skipn 208 (encA c)) (concat (dec_sched (KeyExpansion key)) ++ skipn 208 (decA c))).
Proof.
  intros [LE LD] B L. apply (setkey_run c key 12); [intros ->; discriminate L|rewrite L; reflexivity|]. rewrite L. apply expand_192; auto.
Qed.
Lemma key32_facts key : bytes key -> length key = 32%nat -> key_ok key /\ wok (KeyExpansion key) /\ length (KeyExpansion key) = 60%nat.
Proof.
  intros B L. assert (K : key_ok key) by (split; auto). destruct (expand_ok key K) as (_ & W & Lw & _). rewrite L in Lw. auto.
Qed.

(* 32-byte keys: the same result as the portable cipher, whose state plays no part either, for every pair of buffers *)
Theorem C18_agrees_with_portable_32 : forall c a key dst src,
  asm_ok c -> bytes key -> length key = 32%nat -> bytes (cont src) ->
  exists c', SetKeyAsm c key = AOk c' /\ asm_ok c' /\
    EncryptAsm c' dst src = match Encrypt (fst (SetKey a key)) dst src with inl o => inl (AOk o) | inr p => inr p end /\
    DecryptAsm c' dst src = match Decrypt (fst (SetKey a key)) dst src with inl o => inl (AOk o) | inr p => inr p end.
Proof.
  intros c a key dst src A B L Bs. destruct (key32_facts key B L) as (K & W & Lw). eexists. split; [apply setkey_32; auto|].
  assert (Wd : wok (dec_sched (KeyExpansion key))) by (apply (dec_sched_wok 14); auto).
  split; [split; cbn [encA decA]; rewrite concat4 by (apply wok4; assumption); rewrite ?dec_sched_length; lia|].
  split; (eapply ops_fields; intros L1 L2 NO; assert (BO : block_ok (firstn 16 (cont src))) by (split; [apply Forall_firstn, Bs | rewrite firstn_length; lia])).
  - cbn [encA]. rewrite (proj1 (SetKey_fields a key K)), enc_first16 by auto. destruct (AES_encrypt_ok key _ K BO) as [E [_ L']].
    rewrite E. split; [|split; [reflexivity|exact L']]. unfold AES_encrypt in *. rewrite L in *. change (32 / 4 + 6)%nat with 14%nat in *.
    rewrite <- (encChain_ok _ _ W Lw BO). apply (blockAsm_ok encryptBlockAsm _ dst src (encChain (concat (KeyExpansion key))) (enc_run _) L2 L1). rewrite (encChain_ok _ _ W Lw BO). exact L'.
  - cbn [decA]. rewrite (proj2 (SetKey_fields a key K)), dec_first16 by auto. destruct (AES_decrypt_ok key _ K BO) as [E [_ L']].
    rewrite E. split; [|split; [reflexivity|exact L']]. unfold AES_decrypt in *. rewrite L in *. change (32 / 4 + 6)%nat with 14%nat in *.
    rewrite <- (decChain_ok _ _ W Lw BO). apply (blockAsm_ok decryptBlockAsm _ dst src (decChain (concat (dec_sched (KeyExpansion key)))) (dec_run _) L2 L1). rewrite (decChain_ok _ _ W Lw BO). exact L'.
Qed.
Print Assumptions C18_agrees_with_portable_32.

(* ... and so FIPS-197 *)
Theorem C18_fips197_32 : forall c key dst src,
  asm_ok c -> bytes key -> length key = 32%nat -> bytes (cont src) ->
  (16 <= length (cont src))%nat -> (16 <= length (cont dst))%nat -> ~ inexact_overlap (addr dst) (addr src) ->
  exists c', SetKeyAsm c key = AOk c' /\
    EncryptAsm c' dst src = inl (AOk (AES_encrypt key (firstn 16 (cont src)) ++ skipn 16 (cont dst))) /\
    DecryptAsm c' dst src = inl (AOk (AES_decrypt key (firstn 16 (cont src)) ++ skipn 16 (cont dst))).
Proof.
  intros c key dst src A B L Bs L1 L2 NO. destruct (C18_agrees_with_portable_32 c NewCipher key dst src A B L Bs) as (c' & E & _ & E1 & E2).
  exists c'. destruct (key32_facts key B L) as (K & _). rewrite E1, E2, C15_aes_encrypt_is_fips197, C16_aes_decrypt_is_invcipher by auto. auto.
Qed.
Print Assumptions C18_fips197_32.

(* shorter keys: the words of an earlier key stay behind the new schedule and take part in the 14 rounds *)
Lemma skipn_words b w k : words60 b w -> skipn (4 * k) b = concat (skipn k w).
Proof. intros (-> & _ & W). apply skipn_concat, wok4, W. Qed.
Theorem C18_short_keys : forall c w dw key dst src,
  words60 (encA c) w -> words60 (decA c) dw -> bytes key -> length key = 16%nat \/ length key = 24%nat -> bytes (cont src) ->
  (16 <= length (cont src))%nat -> (16 <= length (cont dst))%nat -> ~ inexact_overlap (addr dst) (addr src) ->
  exists c' dk, SetKeyAsm c key = AOk c' /\
    (let n := length (KeyExpansion key) in n = (length key + 28)%nat /\ length dk = n /\
     (forall b, block_ok b -> EqInvCipher (length key / 4 + 6) dk b = AES_decrypt key b) /\
     EncryptAsm c' dst src = inl (AOk (Cipher 14 (KeyExpansion key ++ skipn n w) (firstn 16 (cont src)) ++ skipn 16 (cont dst))) /\
     DecryptAsm c' dst src = inl (AOk (EqInvCipher 14 (dk ++ skipn n dw) (firstn 16 (cont src)) ++ skipn 16 (cont dst)))).
Proof.
  intros c w dw key dst src We Wd B L Bs L1 L2 NO.
  assert (K : key_ok key) by (split; auto; tauto). destruct (expand_ok key K) as (_ & W & Lw & Lw2 & _).
  assert (A : asm_ok c) by (split; eapply words60_len; eauto).
  assert (Wk : wok (dec_sched (KeyExpansion key))) by (apply (dec_sched_wok (length key / 4 + 6)); [exact W|]; rewrite Lw2; lia).
  assert (EQ : forall b, block_ok b -> EqInvCipher (length key / 4 + 6) (dec_sched (KeyExpansion key)) b = AES_decrypt key b).
  { intros b Hb. unfold AES_decrypt. set (nr := (length key / 4 + 6)%nat) in *. assert (Hn : (nr = 10 \/ nr = 12)%nat) by (unfold nr; destruct L as [-> | ->]; cbn; auto).
    unfold EqInvCipher, InvCipher. cbv zeta. set (k := KeyExpansion key) in *. clearbody k. clear -W Wk Lw2 Hb Hn.
    assert (RK : forall r, (r <= nr)%nat -> round_key (dec_sched k) r = if ((0 <? r) && (r <? nr))%nat then InvMixColumns (round_key k (nr - r)) else round_key k (nr - r)).
    { intros r Hr. apply (dec_sched_round nr); auto; rewrite Lw2; lia. }
    assert (F : forall l s, block_ok s -> (forall r, In r l -> (1 <= r <= nr - 1)%nat) ->
      fold_left (fun s r => AddRoundKey (dec_sched k) r (InvMixColumns (InvShiftRows (InvSubBytes s)))) l s = fold_left (iround k) (map (fun r => nr - r)%nat l) s /\
      block_ok (fold_left (iround k) (map (fun r => nr - r)%nat l) s)).
    { induction l as [|r l IH]; intros s Hs Hl; [split; [reflexivity|exact Hs]|]. cbn [fold_left map]. assert (Hr := Hl r (or_introl eq_refl)).
      assert (E : AddRoundKey (dec_sched k) r (InvMixColumns (InvShiftRows (InvSubBytes s))) = iround k s (nr - r)).
      { unfold AddRoundKey at 1. rewrite RK by lia. replace ((0 <? r) && (r <? nr))%nat with true by (symmetry; apply andb_true_iff; split; apply Nat.ltb_lt; lia).
        rewrite <- inv_sub_shift by apply Hs. fold (V s). rewrite <- inv_mix_xor by (try (apply V_ok; auto); apply round_key_ok; auto; lia). reflexivity. }
      rewrite E. apply IH; [|intros q Hq; apply Hl; right; exact Hq]. apply iround_ok; auto. lia. }
    assert (E0 : AddRoundKey (dec_sched k) 0 b = AddRoundKey k nr b) by (unfold AddRoundKey; rewrite RK by lia; cbn [Nat.ltb Nat.leb andb]; rewrite Nat.sub_0_r; reflexivity).
    destruct (F (seq 1 (nr - 1)) (AddRoundKey k nr b) ltac:(apply AddRoundKey_ok; auto; lia) ltac:(intros r Hr; apply in_seq in Hr; lia)) as [E Bk].
    rewrite E0, E. change (fun s r => InvMixColumns (AddRoundKey k r (InvSubBytes (InvShiftRows s)))) with (iround k).
    replace (map (fun r => nr - r)%nat (seq 1 (nr - 1))) with (rev (seq 1 (nr - 1))) in * by (destruct Hn as [-> | ->]; reflexivity).
    set (S := fold_left _ _ _) in *. clearbody S. rewrite inv_sub_shift by apply Bk. unfold AddRoundKey. rewrite RK by lia.
    rewrite Nat.ltb_irrefl, andb_false_r, Nat.sub_diag. reflexivity. }
  assert (Z0 : exists c', SetKeyAsm c key = AOk c' /\ words60 (encA c') (KeyExpansion key ++ skipn (length (KeyExpansion key)) w) /\
            words60 (decA c') (dec_sched (KeyExpansion key) ++ skipn (length (KeyExpansion key)) dw)).
  { assert (G : forall k, (k = 44 \/ k = 52)%nat -> length (KeyExpansion key) = k ->
        words60 (concat (KeyExpansion key) ++ skipn (4 * k) (encA c)) (KeyExpansion key ++ skipn k w) /\
        words60 (concat (dec_sched (KeyExpansion key)) ++ skipn (4 * k) (decA c)) (dec_sched (KeyExpansion key) ++ skipn k dw)).
    { intros k Hk Lk. rewrite (skipn_words _ w k We), (skipn_words _ dw k Wd). destruct We as (_ & Le & We), Wd as (_ & Ld & Wd).
      split; (split; [rewrite concat_app; reflexivity|]); rewrite app_length, ?dec_sched_length, skipn_length; (split; [lia|apply Forall_app; split; auto; apply Forall_skipn; auto]). }
    destruct L as [L | L]; rewrite L in Lw; eexists; (split; [first [apply setkey_16; assumption | apply setkey_24; assumption]|]); cbn [encA decA]; rewrite Lw;
      [apply (G 44%nat)|apply (G 52%nat)]; auto. }
  destruct Z0 as (c' & E & W1 & W2). exists c', (dec_sched (KeyExpansion key)). split; [exact E|]. cbv zeta.
  split; [exact Lw|]. split; [apply dec_sched_length|]. split; [exact EQ|]. apply C18_always_14_rounds; auto.
Qed.
Print Assumptions C18_short_keys.

(* ---------- so shorter keys do not give AES ---------- *)
(* the table code of the portable cipher computes the same functions, and fast *)
Lemma eqinv_rounds dw n : forall r s, wok dw -> length dw = 60%nat -> block_ok s -> (r + n <= 14)%nat ->
  dec_rounds n (map be_dec dw) (4 * r)%nat (qw s) (qw s) =
    (qw (fold_left (fun s r => AddRoundKey dw r (InvMixColumns (InvShiftRows (InvSubBytes s)))) (seq r n) s), 4 * (r + n))%nat /\
  block_ok (fold_left (fun s r => AddRoundKey dw r (InvMixColumns (InvShiftRows (InvSubBytes s)))) (seq r n) s).
Proof.
  induction n as [|n IH]; intros r s Hw L Hs H.
  - cbn [dec_rounds seq fold_left]. split; [f_equal; lia|auto].
  - rewrite dec_rounds_S. cbv zeta. cbn [seq fold_left]. destruct (round_key_ok dw r Hw) as [B E]; [lia|]. rewrite E, dec_step_ok by auto.
    change (xor_list (InvMixColumns (InvSubBytes (InvShiftRows s))) (round_key dw r)) with (AddRoundKey dw r (InvMixColumns (V s))).
    replace (AddRoundKey dw r (InvMixColumns (InvShiftRows (InvSubBytes s)))) with (AddRoundKey dw r (InvMixColumns (V s))) by (unfold V; rewrite inv_sub_shift by apply Hs; reflexivity).
    replace (4 * r + 4)%nat with (4 * S r)%nat by lia.
    destruct (IH (S r) (AddRoundKey dw r (InvMixColumns (V s))) Hw L) as [I1 I2]; [|lia|].
    { apply AddRoundKey_ok; auto; [lia|]. apply InvMixColumns_ok, V_ok, Hs. }
    rewrite I1. split; [f_equal; lia|exact I2].
Qed.
Lemma eqinv_go dw s : wok dw -> length dw = 60%nat -> block_ok s -> decryptBlockGo (map be_dec dw) s = EqInvCipher 14 dw s.
Proof.
  intros Hw L Hs. rewrite decryptBlockGo_unfold, map_length, L. change (60 / 4 - 2)%nat with 13%nat.
  destruct (round_key_ok dw 0 Hw) as [B0 E0]; [lia|].
  change (4 * 0 + 0)%nat with 0%nat in E0. change (4 * 0 + 1)%nat with 1%nat in E0. change (4 * 0 + 2)%nat with 2%nat in E0. change (4 * 0 + 3)%nat with 3%nat in E0.
  rewrite E0, first_step_ok by auto. fold (AddRoundKey dw 0 s). assert (BA : block_ok (AddRoundKey dw 0 s)) by (apply AddRoundKey_ok; auto; lia).
  destruct (eqinv_rounds dw 13 1 _ Hw L BA ltac:(lia)) as [E1 B1].
  rewrite (dec_rounds_t 12 _ _ _ _ (qw (AddRoundKey dw 0 s))). change (dec_rounds 13 (map be_dec dw) 4) with (dec_rounds 13 (map be_dec dw) (4 * 1)). rewrite E1. change (1 + 13)%nat with 14%nat.
  destruct (round_key_ok dw 14 Hw) as [B2 E2]; [lia|]. rewrite E2, last_stepd_ok by auto. unfold EqInvCipher. cbv zeta. change (14 - 1)%nat with 13%nat.
  set (S := fold_left _ _ _) in *. clearbody S. rewrite <- inv_sub_shift by apply B1. reflexivity.
Qed.
Lemma zero_words b : b = repeat 0 240 -> words60 b (repeat [0; 0; 0; 0] 60).
Proof. intros ->. repeat split. apply Forall_forall. intros x Hx. apply repeat_spec in Hx. subst x. split; [|reflexivity]. repeat constructor; unfold is_byte; lia. Qed.
(* a fresh object with a short key, in terms of the table code *)
Lemma fresh_short key src : key_ok key -> (length key <> 32)%nat -> block_ok src ->
  exists c, SetKeyAsm NewAsm key = AOk c /\
    EncryptAsm c (mkSlice 100 (repeat 0 16)) (mkSlice 0 src) = inl (AOk (encryptBlockGo (expand_enc key (length key + 28) ++ repeat 0 (32 - length key)) src)) /\
    DecryptAsm c (mkSlice 100 (repeat 0 16)) (mkSlice 0 src) = inl (AOk (decryptBlockGo (expand_dec (expand_enc key (length key + 28)) ++ repeat 0 (32 - length key)) src)).
Proof.
  intros K N Hs. destruct (expand_ok key K) as (E1 & W & Lw & Lw2 & _). assert (B := proj1 K). assert (L : length key = 16%nat \/ length key = 24%nat) by (destruct K as [_ K]; lia).
  destruct Hs as [Bs Ls]. assert (F16 : firstn 16 src = src) by (apply firstn_all2; lia).
  assert (NO : ~ inexact_overlap 100 0) by (intros (_ & i & H); lia).
  assert (Wz : wok (repeat [0; 0; 0; 0] 60)) by apply (zero_words _ eq_refl).
  assert (Wd : wok (dec_sched (KeyExpansion key))) by (apply (dec_sched_wok (length key / 4 + 6)); [exact W|]; rewrite Lw2; lia).
  assert (MZ : forall k, (k <= 60)%nat -> map be_dec (skipn k (repeat [0; 0; 0; 0] 60)) = repeat 0 (60 - k)).
  { intros k Hk. replace 60%nat with (k + (60 - k))%nat at 1 by lia. rewrite repeat_app, skipn_app, skipn_all2 by (rewrite repeat_length; lia).
    rewrite repeat_length, Nat.sub_diag. cbn [skipn app]. generalize (60 - k)%nat. clear. intro n. induction n; [reflexivity|]. cbn [repeat map]. rewrite IHn. reflexivity. }
  assert (Z0 : exists c, SetKeyAsm NewAsm key = AOk c /\
     words60 (encA c) (KeyExpansion key ++ skipn (length key + 28) (repeat [0; 0; 0; 0] 60)) /\
     words60 (decA c) (dec_sched (KeyExpansion key) ++ skipn (length key + 28) (repeat [0; 0; 0; 0] 60))).
  { assert (G : forall k w, (k = 44 \/ k = 52)%nat -> wok w -> length w = k ->
        words60 (concat w ++ skipn (4 * k) (repeat 0 240)) (w ++ skipn k (repeat [0; 0; 0; 0] 60))).
    { intros k w Hk Ww Lk. rewrite (skipn_words _ _ k (zero_words _ eq_refl)). split; [rewrite concat_app; reflexivity|].
      rewrite app_length, skipn_length, repeat_length. split; [lia|apply Forall_app; split; auto; apply Forall_skipn; auto]. }
    assert (A : asm_ok NewAsm) by (split; apply repeat_length).
    destruct L as [L | L]; rewrite L in *; eexists; (split; [first [apply setkey_16; assumption | apply setkey_24; assumption]|]); cbn [encA decA NewAsm];
      split; [apply (G 44%nat)|apply (G 44%nat)|apply (G 52%nat)|apply (G 52%nat)]; auto; rewrite dec_sched_length; exact Lw. }
  destruct Z0 as (c & E & W1 & W2). exists c. split; [exact E|].
  destruct (C18_always_14_rounds c _ _ (mkSlice 100 (repeat 0 16)) (mkSlice 0 src) W1 W2 Bs ltac:(cbn [cont]; lia) ltac:(cbn [cont]; rewrite repeat_length; lia) NO) as [R1 R2].
  cbn [cont] in R1, R2. rewrite F16 in R1, R2. change (skipn 16 (repeat 0 16)) with (@nil Z) in R1, R2. rewrite app_nil_r in R1, R2.
  destruct W1 as (_ & L1 & W1), W2 as (_ & L2 & W2). rewrite R1, R2, E1, (expand_dec_ok (length key / 4 + 6)) by (auto; rewrite Lw2; lia).
  replace (32 - length key)%nat with (60 - (length key + 28))%nat by lia. rewrite <- MZ, <- !map_app by lia.
  rewrite (proj1 (encryptBlockGo_ok 14 _ src W1 L1 ltac:(lia) (conj Bs Ls))), eqinv_go by (auto; split; auto). auto.
Qed.

(* neither AES nor even a cipher whose decryption undoes its encryption *)
Definition zkey (n : nat) : list Z := repeat 0 n.
Definition zblk : list Z := repeat 0 16.
Lemma short_witness : forallb (fun n =>
  let ct := encryptBlockGo (expand_enc (zkey n) (n + 28) ++ repeat 0 (32 - n)) zblk in
  negb (if list_eq_dec Z.eq_dec ct (encryptBlockGo (expand_enc (zkey n) (n + 28)) zblk) then true else false) &&
  negb (if list_eq_dec Z.eq_dec (decryptBlockGo (expand_dec (expand_enc (zkey n) (n + 28)) ++ repeat 0 (32 - n)) ct) zblk then true else false) &&
  forallb (fun b => (0 <=? b) && (b <? 256)) ct && (length ct =? 16)%nat) [16; 24]%nat = true.
Proof. vm_compute. reflexivity. Qed.
Theorem C18_short_keys_not_fips197_refuted : forall n, n = 16%nat \/ n = 24%nat -> exists key b c ct,
  key_ok key /\ length key = n /\ block_ok b /\ SetKeyAsm NewAsm key = AOk c /\ block_ok ct /\
  EncryptAsm c (mkSlice 100 (repeat 0 16)) (mkSlice 0 b) = inl (AOk ct) /\ ct <> AES_encrypt key b /\
  DecryptAsm c (mkSlice 100 (repeat 0 16)) (mkSlice 0 ct) <> inl (AOk b).
Proof.
  intros n Hn. assert (Zb : forall m, bytes (repeat 0 m)) by (intro m; apply Forall_forall; intros x Hx; apply repeat_spec in Hx; subst x; unfold is_byte; lia).
  assert (K : key_ok (zkey n)) by (split; [apply Zb|unfold zkey; rewrite repeat_length; tauto]). assert (LK : length (zkey n) = n) by apply repeat_length.
  assert (Hb : block_ok zblk) by (split; [apply Zb|reflexivity]).
  assert (T := short_witness). rewrite forallb_forall in T. specialize (T n ltac:(destruct Hn as [-> | ->]; cbn; auto)). cbv zeta in T.
  destruct (fresh_short (zkey n) zblk K ltac:(rewrite LK; lia) Hb) as (c & E & E1 & _). rewrite LK in E1.
  set (ct := encryptBlockGo (expand_enc (zkey n) (n + 28) ++ repeat 0 (32 - n)) zblk) in *.
  apply andb_true_iff in T. destruct T as [T T4]. apply andb_true_iff in T. destruct T as [T T3]. apply andb_true_iff in T. destruct T as [T1 T2].
  apply Nat.eqb_eq in T4. assert (Hc : block_ok ct).
  { split; [|exact T4]. apply Forall_forall. intros x Hx. rewrite forallb_forall in T3. apply T3 in Hx. apply andb_true_iff in Hx. unfold is_byte. lia. }
  exists (zkey n), zblk, c, ct. split; [exact K|]. split; [exact LK|]. split; [exact Hb|]. split; [exact E|]. split; [exact Hc|]. split; [exact E1|]. split.
  - rewrite <- (proj1 (AES_encrypt_ok _ _ K Hb)), <- (proj1 (expand_ok _ K)), LK. intros H. clear T2. revert T1. destruct (list_eq_dec _ _ _) as [|D]; [discriminate|]. intros _. exact (D H).
  - destruct (fresh_short (zkey n) ct K ltac:(rewrite LK; lia) Hc) as (c' & E' & _ & E2). rewrite E' in E. assert (c' = c) by congruence. subst c'. rewrite LK in E2. rewrite E2.
    intros H. clear T1. revert T2. destruct (list_eq_dec _ _ _) as [|D]; [discriminate|]. intros _. apply D. congruence.
Qed.
Print Assumptions C18_short_keys_not_fips197_refuted.

(* what is left of an earlier key shows in every block: two objects given the same short key, whose arrays differed only in the last
   round key, never encrypt any block alike *)
Theorem C18_short_key_remembers : forall c1 c2 w1 w2 dw1 dw2 key dst src,
  words60 (encA c1) w1 -> words60 (encA c2) w2 -> words60 (decA c1) dw1 -> words60 (decA c2) dw2 ->
  firstn 56 w1 = firstn 56 w2 -> w1 <> w2 ->
  bytes key -> length key = 16%nat \/ length key = 24%nat -> bytes (cont src) ->
  (16 <= length (cont src))%nat -> (16 <= length (cont dst))%nat -> ~ inexact_overlap (addr dst) (addr src) ->
  exists c1' c2', SetKeyAsm c1 key = AOk c1' /\ SetKeyAsm c2 key = AOk c2' /\ EncryptAsm c1' dst src <> EncryptAsm c2' dst src.
Proof.
  intros c1 c2 w1 w2 dw1 dw2 key dst src V1 V2 D1 D2 F N B L Bs L1 L2 NO.
  destruct (C18_short_keys c1 w1 dw1 key dst src V1 D1 B L Bs L1 L2 NO) as (c1' & dk1 & E1 & Ln & _ & _ & R1 & _).
  destruct (C18_short_keys c2 w2 dw2 key dst src V2 D2 B L Bs L1 L2 NO) as (c2' & dk2 & E2 & _ & _ & _ & R2 & _).
  exists c1', c2'. split; [exact E1|]. split; [exact E2|]. rewrite R1, R2. intro H.
  assert (K : key_ok key) by (split; auto; tauto). destruct (expand_ok key K) as (_ & W & _). set (k := KeyExpansion key) in *. clearbody k.
  set (n := length k) in *. assert (Hn : (n = 44 \/ n = 52)%nat) by lia.
  assert (BO : block_ok (firstn 16 (cont src))) by (split; [apply Forall_firstn, Bs | rewrite firstn_length; lia]). set (s := firstn 16 (cont src)) in *. clearbody s.
  assert (H' : Cipher 14 (k ++ skipn n w1) s ++ skipn 16 (cont dst) = Cipher 14 (k ++ skipn n w2) s ++ skipn 16 (cont dst)) by congruence.
  apply app_inv_tail in H'. destruct V1 as (_ & Lw1 & V1), V2 as (_ & Lw2 & V2).
  assert (G : forall w, wok w -> length w = 60%nat -> exists t, wok t /\ length t = 4%nat /\ w = firstn 56 w ++ t).
  { intros w Hw Lw. exists (skipn 56 w). split; [apply Forall_skipn; exact Hw|]. split; [rewrite skipn_length; lia|symmetry; apply firstn_skipn]. }
  destruct (G w1 V1 Lw1) as (t1 & T1 & Lt1 & Q1). destruct (G w2 V2 Lw2) as (t2 & T2 & Lt2 & Q2).
  assert (Lf : length (firstn 56 w1) = 56%nat) by (rewrite firstn_length; lia).
  assert (Wf : wok (firstn 56 w1)) by (apply Forall_firstn; exact V1). rewrite <- F in Q2. set (f := firstn 56 w1) in *. clearbody f.
  assert (C : forall t, wok t -> length t = 4%nat -> exists x, block_ok x /\ forall t', wok t' -> length t' = 4%nat -> Cipher 14 (k ++ skipn n (f ++ t')) s = xor_list x (concat t')).
  { intros _ _ _. set (p := k ++ skipn n f). assert (Lp : length p = 56%nat) by (unfold p; rewrite app_length, skipn_length; fold n; lia).
    assert (Wp : wok p) by (apply Forall_app; split; [exact W|apply Forall_skipn; exact Wf]).
    assert (Sp : forall t', k ++ skipn n (f ++ t') = p ++ t').
    { intro t'. unfold p. rewrite skipn_app. replace (n - length f)%nat with 0%nat by lia. cbn [skipn]. apply app_assoc. }
    assert (RK : forall t' r, (r <= 13)%nat -> round_key (p ++ t') r = round_key p r).
    { intros t' r Hr. unfold round_key. rewrite skipn_app, firstn_app, skipn_length. replace (4 - (length p - 4 * r))%nat with 0%nat by lia. rewrite firstn_O, app_nil_r. reflexivity. }
    assert (FL : forall t' l s0, (forall r, In r l -> (r <= 13)%nat) -> fold_left (eround (p ++ t')) l s0 = fold_left (eround p) l s0).
    { intros t' l. induction l as [|r l IH]; intros s0 Hl; [reflexivity|]. cbn [fold_left]. rewrite IH by (intros q Hq; apply Hl; right; exact Hq).
      f_equal. unfold eround, AddRoundKey. rewrite RK; [reflexivity|apply Hl; left; reflexivity]. }
    exists (U (fold_left (eround p) (seq 1 13) (AddRoundKey p 0 s))). split.
    - apply U_ok, fold_block; [|apply AddRoundKey_ok; auto; lia]. intros s' r Hr Hs'. apply in_seq in Hr. apply eround_ok; auto. lia.
    - intros t' Ht' Lt'. rewrite Sp. unfold Cipher. cbv zeta. change (fun s r => AddRoundKey (p ++ t') r (MixColumns (ShiftRows (SubBytes s)))) with (eround (p ++ t')).
      change (14 - 1)%nat with 13%nat. rewrite FL by (intros r Hr; apply in_seq in Hr; lia). unfold AddRoundKey at 2. rewrite RK by lia. fold (AddRoundKey p 0 s).
      unfold AddRoundKey at 1, U. f_equal. unfold round_key. rewrite skipn_app, skipn_all2 by lia. replace (4 * 14 - length p)%nat with 0%nat by lia. cbn [skipn app].
      rewrite firstn_all2 by lia. reflexivity. }
  destruct (C t1 T1 Lt1) as (x & [Bx Lx] & Cx). rewrite Q1, Q2 in H'. rewrite (Cx t1 T1 Lt1), (Cx t2 T2 Lt2) in H'.
  assert (CC : concat t1 = concat t2).
  { assert (LC : forall t, wok t -> length t = 4%nat -> length (concat t) = 16%nat) by (intros t Ht Lt; rewrite concat4 by (apply wok4; exact Ht); lia).
    assert (M1 := LC t1 T1 Lt1). assert (M2 := LC t2 T2 Lt2). clear -H' M1 M2 Lx. revert H' M1 M2 Lx. generalize (concat t1) (concat t2) 16%nat x. clear. intros a b n x H M1 M2 Lx. revert x n Lx b H M1 M2.
    induction a as [|y a IH]; intros x n Lx b H M1 M2.
    - destruct b; [reflexivity|]. cbn in M1, M2. lia.
    - destruct b as [|z b]; [cbn in M1, M2; lia|]. destruct x as [|u x]; [cbn in Lx, M1; lia|]. cbn [xor_list] in H. cbn [length] in *.
      assert (Hh : Z.lxor u y = Z.lxor u z) by congruence. assert (Ht : xor_list x a = xor_list x b) by congruence. f_equal.
      + apply (f_equal (Z.lxor u)) in Hh. rewrite <- !Z.lxor_assoc, Z.lxor_nilpotent, !Z.lxor_0_l in Hh. exact Hh.
      + destruct n; [discriminate|]. apply (IH x n); auto; lia. }
  assert (TT : t1 = t2).
  { clear -CC T1 T2 Lt1 Lt2. revert t2 T2 CC Lt2. revert Lt1. generalize 4%nat at 1 2. induction T1 as [|a t1 [_ Ha] T1 IH]; intros n Lt1 t2 T2 CC Lt2.
    - cbn in Lt1. destruct t2; [reflexivity|]. cbn in Lt2. lia.
    - destruct T2 as [|b t2 [_ Hb] T2]; [cbn in *; lia|]. cbn [concat] in CC. assert (a = b /\ concat t1 = concat t2) as [-> CC'].
      { assert (X := f_equal (firstn 4) CC). assert (Y := f_equal (skipn 4) CC). rewrite !firstn_app, Ha, Hb, !Nat.sub_diag, !firstn_O, !app_nil_r, !firstn_all2 in X by lia.
        rewrite !skipn_app, Ha, Hb, !Nat.sub_diag, (skipn_all2 a), (skipn_all2 b) in Y by lia. split; [exact X|exact Y]. }
      f_equal. destruct n; [discriminate|]. apply (IH n); auto; cbn [length] in *; lia. }
  apply N. rewrite Q1, Q2, TT. reflexivity.
Qed.
Print Assumptions C18_short_key_remembers.

(* ---------- key lengths ---------- *)
Lemma bad_run n key E D : forall m, (300 <= m)%nat ->
  run expandKeyAsm (args 0) m (entry [(n, key); (240%nat, E); (240%nat, D)]) = Stuck.
Proof.
  intros m Hm. replace m with (300 + (m - 300))%nat by lia. rewrite run_add.
  assert (H : run expandKeyAsm (args 0) 300 (entry [(n, key); (240%nat, E); (240%nat, D)]) = Stuck); [|rewrite H; reflexivity].
  change 300%nat with (5 + 295)%nat. rewrite run_add.
  assert (G : run expandKeyAsm (args 0) 5 (entry [(n, key); (240%nat, E); (240%nat, D)]) =
    match load [(n, key); (240%nat, E); (240%nat, D)] 0 0 16 with
    | Some v => Running (mkS 5 [] [Ptr 0 0; Ptr 1 0; Num 0; Ptr 2 0] [Some v; None; None; None; None; None; None; None] None None [(n, key); (240%nat, E); (240%nat, D)])
    | None => Stuck
    end) by (lazy -[load]; destruct (load _ 0 0 16); reflexivity).
  rewrite G. destruct (load _ 0 0 16) as [v|]; [|reflexivity]. lazy -[slice blit InvMixColumns xor_list keygenassist pshufd shufps]. reflexivity.
Qed.
Lemma rounds_bad n : n <> 16%nat -> n <> 24%nat -> n <> 32%nat -> roundsOf n = 0.
Proof. intros N1 N2 N3. unfold roundsOf. do 33 (destruct n as [|n]; [first [reflexivity | exfalso; lia]|]). reflexivity. Qed.
(* An error is never returned.  A length that is no AES key size is not refused: an empty key panics, any other makes the assembly read or
   write outside the key and the two arrays, whatever they hold. *)
Theorem C18_bad_key_length : forall c key, length key <> 16%nat -> length key <> 24%nat -> length key <> 32%nat ->
  SetKeyAsm c key = if (length key =? 0)%nat then APanic else AFault.
Proof.
  intros c key N1 N2 N3. unfold SetKeyAsm. destruct key as [|k0 key]; [reflexivity|]. cbn [length Nat.eqb]. cbn [length] in N1, N2, N3.
  assert (R := rounds_bad _ N1 N2 N3).
  rewrite R. pose proof (bad_run (S (length key)) (k0 :: key) (encA c) (decA c) fuel ltac:(unfold fuel; lia)) as H. unfold args in H. rewrite H. reflexivity.
Qed.
Print Assumptions C18_bad_key_length.

(* every outcome of SetKey on 240-byte arrays: it never runs on, and the arrays keep their size *)
Theorem C18_setkey_total : forall c key, asm_ok c -> bytes key ->
  (length key = 16%nat \/ length key = 24%nat \/ length key = 32%nat) <-> exists c', SetKeyAsm c key = AOk c' /\ asm_ok c'.
Proof.
  intros c key A B. split.
  - intro L. assert (K : key_ok key) by (split; auto). destruct (expand_ok key K) as (_ & W & Lw & Lw2 & _).
    assert (Wd : wok (dec_sched (KeyExpansion key))) by (apply (dec_sched_wok (length key / 4 + 6)); [exact W|]; rewrite Lw2; lia).
    destruct A as [A1 A2].
    destruct L as [L | [L | L]]; rewrite L in Lw; eexists; (split; [first [apply setkey_32; (split || idtac); assumption | apply setkey_16; (split || idtac); assumption | apply setkey_24; (split || idtac); assumption]|]);
      split; cbn [encA decA]; rewrite ?app_length, ?skipn_length, concat4 by (apply wok4; assumption); rewrite ?dec_sched_length; lia.
  - intros (c' & E & _). destruct (Nat.eq_dec (length key) 16); [auto|]. destruct (Nat.eq_dec (length key) 24); [auto|]. destruct (Nat.eq_dec (length key) 32); [auto|].
    rewrite C18_bad_key_length in E by assumption. destruct (length key =? 0)%nat; discriminate.
Qed.
Print Assumptions C18_setkey_total.

(* FIPS-197, C.3 on a used object, in place *)
Definition used : AESAsm := mkAsm (repeat 0xaa 240) (repeat 0x55 240).
Definition key_32 : list Z := map Z.of_nat (seq 0 32).
Definition pt_c3 : list Z := map (fun i => Z.of_nat i * 17) (seq 0 16).
Example ex_C18_hyp : asm_ok used /\ length key_32 = 32%nat /\ words60 (encA used) (repeat [0xaa; 0xaa; 0xaa; 0xaa] 60).
Proof.
  split; [split; reflexivity|]. split; [reflexivity|]. split; [reflexivity|]. split; [reflexivity|]. apply Forall_forall. intros x Hx.
  apply repeat_spec in Hx. subst x. split; [|reflexivity]. repeat constructor; unfold is_byte; lia.
Qed.
Example ex_C18_c3 : exists c, SetKeyAsm used key_32 = AOk c /\
  EncryptAsm c (mkSlice 7 pt_c3) (mkSlice 7 pt_c3) =
    inl (AOk [0x8e; 0xa2; 0xb7; 0xca; 0x51; 0x67; 0x45; 0xbf; 0xea; 0xfc; 0x49; 0x90; 0x4b; 0x49; 0x60; 0x89]).
Proof.
  assert (B : bytes key_32 /\ bytes pt_c3) by (split; apply Forall_forall; intros x Hx; apply in_map_iff in Hx; destruct Hx as (i & <- & Hi); apply in_seq in Hi; unfold is_byte; lia).
  destruct (C18_agrees_with_portable_32 used NewCipher key_32 (mkSlice 7 pt_c3) (mkSlice 7 pt_c3)) as (c & E & _ & E1 & _);
    [split; reflexivity|apply B|reflexivity|apply B|]. exists c. split; [exact E|]. rewrite E1. vm_compute. reflexivity.
Qed.
