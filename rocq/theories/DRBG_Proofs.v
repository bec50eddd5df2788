From Coq Require Import ZArith List Bool Lia.
From Verif Require Import Lib AES_Spec AES_Model AES_Proofs AES_Proofs2 P_AES DRBG_Spec DRBG_Model.
Import ListNotations.
Open Scope Z_scope.

(** * The counter *)
Lemma be_dec_snoc : forall p x, be_dec (p ++ [x]) = 256 * be_dec p + x.
Proof. intros. unfold be_dec. rewrite rev_app_distr. cbn [rev app le_dec]. lia. Qed.
Lemma be_enc_S : forall n y, be_enc (S n) y = be_enc n (y / 256) ++ [y mod 256].
Proof. intros. unfold be_enc. reflexivity. Qed.
Lemma snoc_inv : forall (p : list Z) n, length p = S n -> exists p' x, p = p' ++ [x] /\ length p' = n.
Proof.
  intros p n L. destruct (@exists_last _ p) as (p' & x & E). { intros ->. discriminate. }
  exists p', x. split; auto. rewrite E, app_length in L. cbn in L. lia.
Qed.
Lemma upd_mid : forall (p : list Z) x q v, upd (p ++ x :: q) (length p) v = p ++ v :: q.
Proof. induction p; intros; cbn; f_equal; auto. Qed.
Lemma inc_loop_ok : forall n p q, length p = n -> bytes p ->
  inc_loop n (p ++ q) = be_enc n ((be_dec p + 1) mod 256 ^ Z.of_nat n) ++ q.
Proof.
  induction n; intros p q L B.
  { destruct p; [|discriminate]. reflexivity. }
  destruct (snoc_inv p n L) as (p' & x & -> & L'). apply Forall_app in B. destruct B as [B Bx].
  inversion Bx as [|? ? Hx _]; subst. clear L Bx. cbn [inc_loop].
  rewrite <- app_assoc. cbn [app]. rewrite app_nth2, Nat.sub_diag by lia. cbn [nth].
  rewrite upd_mid. pose proof (be_dec_bound p' B) as HP.
  set (N := length p') in *. set (P := be_dec p') in *.
  rewrite be_dec_snoc. fold P. rewrite be_enc_S. rewrite pow256_S.
  pose proof (pow256_pos N) as Hpos. unfold is_byte in Hx.
  destruct (Z.eqb_spec x 0xff).
  - subst x. rewrite IHn by auto. fold P.
    replace (256 * P + 255 + 1) with (256 * (P + 1)) by lia.
    rewrite Z.mul_mod_distr_l by lia. rewrite (Z.mul_comm 256), Z.div_mul, Z.mod_mul by lia.
    rewrite <- app_assoc. reflexivity.
  - rewrite (Z.mod_small (256 * P + x + 1)) by lia. replace (256 * P + x + 1) with ((x + 1) + P * 256) by lia.
    rewrite upd_mid. rewrite Z.div_add, Z.mod_add by lia. rewrite Z.div_small, Z.add_0_l by lia.
    unfold N, P. rewrite be_enc_dec by auto. rewrite <- app_assoc. reflexivity.
Qed.
Lemma inc_ok : forall b, block_ok b -> inc b = incV b.
Proof.
  intros b [B L]. unfold inc, incV. rewrite <- (app_nil_r b) at 1. rewrite inc_loop_ok by auto.
  rewrite app_nil_r. reflexivity.
Qed.
Lemma incV_ok : forall b, block_ok (incV b).
Proof. intros. split; [apply be_enc_bytes | apply be_enc_length]. Qed.

(** * Blocks *)
Definition key32 (K : list Z) : Prop := bytes K /\ length K = 32%nat.
Lemma key32_ok : forall K, key32 K -> key_ok K. Proof. intros K [B L]. split; auto. Qed.

Lemma blocks_ok : forall n K v, key32 K -> block_ok v ->
  length (fst (blocks n K v)) = (16 * n)%nat /\ bytes (fst (blocks n K v)) /\ block_ok (snd (blocks n K v)).
Proof.
  induction n; intros K v HK Hv; cbn [blocks]. { repeat split; auto; try apply Hv. constructor. }
  destruct (IHn K (incV v) HK (incV_ok v)) as (L & B & O).
  destruct (blocks n K (incV v)) as [t v'].
  destruct (AES_encrypt_ok K (incV v) (key32_ok K HK) (incV_ok v)) as [_ [Bb Lb]].
  cbn [fst snd] in *. rewrite app_length, Lb, L. split; [lia|]. split; auto. apply bytes_app; auto.
Qed.
Lemma blocks_S : forall n K v, blocks (S n) K v =
  (AES_encrypt K (incV v) ++ fst (blocks n K (incV v)), snd (blocks n K (incV v))).
Proof. intros. cbn [blocks]. destruct (blocks n K (incV v)). reflexivity. Qed.
Lemma blocks_last : forall n K v, key32 K -> block_ok v ->
  skipn (16 * n) (fst (blocks (S n) K v)) = AES_encrypt K (snd (blocks (S n) K v)).
Proof.
  induction n; intros K v HK Hv.
  - rewrite blocks_S. cbn [fst snd blocks]. rewrite app_nil_r. reflexivity.
  - rewrite blocks_S. cbn [fst snd].
    destruct (AES_encrypt_ok K (incV v) (key32_ok K HK) (incV_ok v)) as [_ [Bb Lb]].
    replace (16 * S n)%nat with (length (AES_encrypt K (incV v)) + 16 * n)%nat by (rewrite Lb; lia).
    rewrite <- skipn_skipn', skipn_app, skipn_all, Nat.sub_diag. cbn [skipn app].
    apply IHn; auto. apply incV_ok.
Qed.

Definition keyed (K : list Z) (a : AES) : Prop := key32 K /\ exists a0, a = fst (SetKey a0 K).

Lemma enc_v_ok : forall K a dst vv, keyed K a -> block_ok vv -> (16 <= length dst)%nat ->
  enc_v a dst vv = Some (AES_encrypt K vv ++ skipn 16 dst).
Proof.
  intros K a dst vv [HK [a0 ->]] [B L] Ld. unfold enc_v.
  rewrite (C15_aes_encrypt_is_fips197 a0 K (mkSlice 1024 dst) (mkSlice 0 vv)); cbn [cont addr]; auto; try lia.
  - rewrite (firstn_all2 vv) by (rewrite L; constructor). exact eq_refl.
  - apply key32_ok, HK.
  - unfold inexact_overlap. intros [_ [i Hi]]. lia.
Qed.

(* object c holds working state s *)
Definition DR (c : CtrDrbg) (s : wstate) : Prop :=
  v c = V s /\ key c = Key s /\ block_ok (V s) /\ key32 (Key s) /\ length (tmpBlk c) = 48%nat.

Lemma keyed_SetKey : forall K a, key32 K -> keyed K (fst (SetKey a K)).
Proof. intros K a H. split; auto. exists a. reflexivity. Qed.

Lemma update_loop_ok : forall n i c K, key c = K -> key32 K -> block_ok (v c) ->
  (i + 16 * n <= length (tmpBlk c))%nat ->
  exists a, update_loop n i c =
    Some (mkDrbg (snd (blocks n K (v c))) K (counter c) (strength c) a
            (firstn i (tmpBlk c) ++ fst (blocks n K (v c)) ++ skipn (i + 16 * n) (tmpBlk c))) /\
    (n = O -> a = blockEnc c) /\ (n <> O -> keyed K a).
Proof.
  induction n; intros i c K EK HK Hv L.
  - exists (blockEnc c). cbn [update_loop blocks fst snd app]. rewrite Nat.mul_0_r, Nat.add_0_r, firstn_skipn.
    destruct c; cbn in *; subst. split; [reflexivity|]. split; [auto | congruence].
  - cbn [update_loop]. rewrite inc_ok by auto. rewrite EK.
    rewrite (enc_v_ok K) by (try apply keyed_SetKey; try apply incV_ok; auto; rewrite skipn_length; lia).
    rewrite skipn_skipn'.
    destruct (AES_encrypt_ok K (incV (v c)) (key32_ok K HK) (incV_ok (v c))) as [_ [Bb Lb]].
    edestruct (IHn (i + 16)%nat (mkDrbg (incV (v c)) K (counter c) (strength c) (fst (SetKey (blockEnc c) K))
       (firstn i (tmpBlk c) ++ AES_encrypt K (incV (v c)) ++ skipn (i + 16) (tmpBlk c))) K) as (a & E & A1 & A2); auto.
    + apply incV_ok.
    + cbn [tmpBlk]. rewrite !app_length, Lb, firstn_length, skipn_length. lia.
    + exists a. rewrite E. cbn [v tmpBlk counter strength blockEnc] in *. split; [|split; [discriminate|]].
      * rewrite blocks_S. cbn [fst snd]. do 2 f_equal.
        set (h := firstn i (tmpBlk c)). assert (Lh : length h = i) by (unfold h; rewrite firstn_length; lia).
        rewrite (app_assoc h (AES_encrypt K (incV (v c)))).
        assert (LL : length (h ++ AES_encrypt K (incV (v c))) = (i + 16)%nat) by (rewrite app_length, Lh, Lb; reflexivity).
        rewrite firstn_app, LL, Nat.sub_diag, firstn_O, app_nil_r.
        rewrite (firstn_all2 (h ++ _)) by (rewrite LL; constructor).
        rewrite skipn_app, LL. rewrite (skipn_all2 (h ++ _)) by (rewrite LL; lia).
        cbn [app]. rewrite skipn_skipn'. rewrite <- !app_assoc. do 3 f_equal. f_equal. lia.
      * intros _. destruct n; [rewrite A1 by auto; apply keyed_SetKey; auto | apply A2; discriminate].
Qed.

Lemma Update_ok : forall d s, block_ok (V s) -> key32 (Key s) -> bytes d -> length d = 48%nat ->
  block_ok (V (Update d s)) /\ key32 (Key (Update d s)).
Proof.
  intros d s Hv HK Bd Ld. destruct (blocks_ok 3 (Key s) (V s) HK Hv) as (L & B & _). unfold Update.
  set (t := xor_list (firstn 48 (fst (blocks 3 (Key s) (V s)))) d).
  assert (Bt : bytes t) by (apply bytes_xor; auto; apply Forall_firstn; auto).
  assert (Lt : length t = 48%nat) by (unfold t; rewrite xor_list_length, firstn_length, L, Ld; reflexivity).
  cbn [V Key]. split; split.
  - apply Forall_skipn, Bt. - rewrite skipn_length, Lt. reflexivity.
  - apply Forall_firstn, Bt. - rewrite firstn_length, Lt. reflexivity.
Qed.

Lemma update_ok : forall c s d, DR c s -> bytes d -> length d = 48%nat ->
  exists c', update c d = Some c' /\ DR c' (Update d s) /\ keyed (Key s) (blockEnc c') /\
             strength c' = strength c /\ counter c' = counter c.
Proof.
  intros c s d (Ev & Ek & Hv & HK & Lt) Bd Ld. unfold update. rewrite Ld. cbn [Nat.eqb negb].
  destruct (update_loop_ok 3 0 c (Key s)) as (a & E & _ & A); auto; try (rewrite Ev; auto); try lia.
  rewrite E. cbn [v key counter strength blockEnc tmpBlk]. rewrite Ev, firstn_O, app_nil_l.
  replace (0 + 16 * 3)%nat with 48%nat by reflexivity.
  rewrite (skipn_all2 (tmpBlk c)) by (rewrite Lt; constructor). rewrite app_nil_r.
  destruct (blocks_ok 3 (Key s) (V s) HK Hv) as (L & B & [_ Lv]).
  destruct (Update_ok d s Hv HK Bd Ld) as [U1 U2].
  assert (LT : length (xor_list (firstn 48 (fst (blocks 3 (Key s) (V s)))) d) = 48%nat)
    by (rewrite xor_list_length, firstn_length, L, Ld; reflexivity).
  rewrite (skipn_all2 (fst (blocks 3 (Key s) (V s)))) by (rewrite L; constructor). rewrite app_nil_r.
  eexists. split; [reflexivity|]. split; [|split; [apply A; discriminate | auto]].
  unfold DR. cbn [v key tmpBlk]. split; [|split; [|split; [auto|split; [auto|exact LT]]]].
  - unfold Update. cbn [V]. revert LT. generalize (xor_list (firstn 48 (fst (blocks 3 (Key s) (V s)))) d). intros T LT. unfold blit. rewrite firstn_O, app_nil_l, Nat.sub_0_r, Lv.
    rewrite (firstn_all2 (skipn 32 T)) by (rewrite skipn_length, LT; constructor).
    rewrite (skipn_all2 (snd (blocks 3 (Key s) (V s)))) by (rewrite skipn_length, LT, Lv; constructor). apply app_nil_r.
  - unfold Update. cbn [Key]. revert LT. generalize (xor_list (firstn 48 (fst (blocks 3 (Key s) (V s)))) d). intros T LT. unfold blit. rewrite firstn_O, app_nil_l, Nat.sub_0_r, (proj2 HK).
    rewrite (firstn_all2 (firstn 32 T)) by (rewrite firstn_length, LT; constructor).
    rewrite (skipn_all2 (Key s)) by (rewrite firstn_length, LT, (proj2 HK); constructor). apply app_nil_r.
Qed.

(** * Seed buffers *)
Lemma pad48_length : forall x, length (pad48 x) = 48%nat.
Proof. intros. unfold pad48. rewrite firstn_length, app_length, repeat_length. lia. Qed.
Lemma zeros_bytes : forall n, bytes (repeat 0 n).
Proof. intros. apply Forall_repeat. unfold is_byte; lia. Qed.
Lemma pad48_bytes : forall x, bytes x -> bytes (pad48 x).
Proof. intros. apply Forall_firstn, bytes_app; auto. apply zeros_bytes. Qed.
Lemma skipn_rep : forall (x : Z) n k, skipn k (repeat x n) = repeat x (n - k).
Proof. induction n; destruct k; cbn; auto. Qed.
Lemma firstn_rep : forall (x : Z) n k, firstn k (repeat x n) = repeat x (Nat.min k n).
Proof. induction n; destruct k; cbn; auto. f_equal; auto. Qed.
Lemma copy48 : forall x, blit (repeat 0 48) 0 x = pad48 x.
Proof.
  intros x. unfold blit, pad48. rewrite firstn_O, app_nil_l, repeat_length, Nat.sub_0_r, Nat.add_0_l.
  rewrite firstn_app, skipn_rep, firstn_rep. f_equal. f_equal. lia.
Qed.
Lemma seed_copy_ok : forall x, seed_copy x = pad48 x.
Proof.
  intros x. unfold seed_copy. rewrite copy48. unfold pad48.
  destruct (Nat.le_gt_cases (length x) 48) as [H|H].
  - rewrite Nat.min_l by auto. rewrite firstn_all. reflexivity.
  - rewrite Nat.min_r by lia. rewrite !firstn_app, firstn_firstn, firstn_length. f_equal.
    rewrite Nat.min_l by lia. replace (48 - 48)%nat with (48 - length x)%nat by lia. reflexivity.
Qed.
Lemma xor_into_ok : forall a b n, length a = n -> (length b <= n)%nat ->
  xor_into a b = xor_list a (b ++ repeat 0 (n - length b)).
Proof.
  induction a as [|x a IH]; intros b n L1 L2.
  - cbn in L1. subst. destruct b; reflexivity.
  - cbn in L1. subst n. destruct b as [|y b].
    + cbn [xor_into app length]. rewrite Nat.sub_0_r. symmetry. apply xor_list_zeros. cbn. lia.
    + cbn [xor_into app length xor_list Nat.sub] in *. f_equal. apply IH; auto. lia.
Qed.
Lemma seed_buf_ok : forall a b, seed_buf a b = xor_list (pad48 a) (pad48 b).
Proof.
  intros a b. unfold seed_buf. rewrite seed_copy_ok.
  rewrite (xor_into_ok _ _ 48) by (try apply pad48_length; rewrite firstn_length; lia). f_equal.
  rewrite firstn_length. unfold pad48. rewrite firstn_app.
  destruct (Nat.le_gt_cases (length b) 48) as [H|H].
  - rewrite Nat.min_l by auto. rewrite Nat.min_id. rewrite firstn_all, firstn_all2 by auto.
    rewrite firstn_rep. f_equal. f_equal. lia.
  - rewrite !Nat.min_r by lia. rewrite Nat.min_l by lia. replace (48 - length b)%nat with 0%nat by lia.
    rewrite Nat.sub_diag. rewrite firstn_O. reflexivity.
Qed.
Lemma seed_ok : forall a b, bytes a -> bytes b -> bytes (seed_buf a b) /\ length (seed_buf a b) = 48%nat.
Proof.
  intros. rewrite seed_buf_ok. split; [apply bytes_xor; apply pad48_bytes; auto|].
  rewrite xor_list_length, !pad48_length. reflexivity.
Qed.

(** * Generating *)
Lemma gen_loop_ok : forall n i c K out, key c = K -> key32 K -> block_ok (v c) ->
  ((i + n) * 16 <= length out)%nat ->
  exists a, gen_loop n i c out =
    Some (mkDrbg (snd (blocks n K (v c))) K (counter c) (strength c) a (tmpBlk c),
            (firstn (i * 16) out ++ fst (blocks n K (v c)) ++ skipn ((i + n) * 16) out)) /\
    (n = O -> a = blockEnc c) /\ (n <> O -> keyed K a).
Proof.
  induction n; intros i c K out EK HK Hv L.
  - exists (blockEnc c). cbn [gen_loop blocks fst snd app]. rewrite Nat.add_0_r, firstn_skipn.
    destruct c; cbn in *; subst. split; [reflexivity|]. split; [auto | congruence].
  - cbn [gen_loop]. rewrite inc_ok by auto. rewrite EK.
    rewrite (enc_v_ok K) by (try apply keyed_SetKey; try apply incV_ok; auto; rewrite skipn_length; lia).
    rewrite skipn_skipn'.
    destruct (AES_encrypt_ok K (incV (v c)) (key32_ok K HK) (incV_ok (v c))) as [_ [Bb Lb]].
    edestruct (IHn (i + 1)%nat (mkDrbg (incV (v c)) K (counter c) (strength c) (fst (SetKey (blockEnc c) K)) (tmpBlk c))
       K (firstn (i * 16) out ++ AES_encrypt K (incV (v c)) ++ skipn (i * 16 + 16) out)) as (a & E & A1 & A2); auto.
    + apply incV_ok.
    + rewrite !app_length, Lb, firstn_length, skipn_length. lia.
    + exists a. rewrite E. cbn [v tmpBlk counter strength blockEnc] in *. split; [|split; [discriminate|]].
      * rewrite blocks_S. cbn [fst snd]. do 2 f_equal.
        set (h := firstn (i * 16) out). assert (Lh : length h = (i * 16)%nat) by (unfold h; rewrite firstn_length; lia).
        rewrite (app_assoc h (AES_encrypt K (incV (v c)))).
        assert (LL : length (h ++ AES_encrypt K (incV (v c))) = ((i + 1) * 16)%nat) by (rewrite app_length, Lh, Lb; lia).
        rewrite firstn_app, LL, Nat.sub_diag, firstn_O, app_nil_r.
        rewrite (firstn_all2 (h ++ _)) by (rewrite LL; constructor).
        rewrite skipn_app, LL. rewrite (skipn_all2 (h ++ _)) by (rewrite LL; lia).
        cbn [app]. rewrite skipn_skipn'. rewrite <- !app_assoc.
        replace ((i * 16 + 16 + ((i + 1 + n) * 16 - (i + 1) * 16)))%nat with ((i + S n) * 16)%nat by lia. reflexivity.
      * intros _. destruct n; [rewrite A1 by auto; apply keyed_SetKey; auto | apply A2; discriminate].
Qed.

(* What ReadWithAdditionalData does: whole blocks as in SP 800-90A; the remaining r bytes come from
   encrypting the counter once more without incrementing it, under the key the cipher was last given
   (the current key if there was a whole block, else the one before the last update). *)
Definition GenImpl (Kp : list Z) (s : wstate) (n : nat) (addin : list Z) : list Z * wstate * list Z :=
  let '(Kp, s, a) := match addin with
                 | [] => (Kp, s, repeat 0 48)
                 | _ => (Key s, Update (pad48 addin) s, pad48 addin)
                 end in
  let '(temp, vv) := blocks (n / 16) (Key s) (V s) in
  let Ks := if (n / 16 =? 0)%nat then Kp else Key s in
  (temp ++ firstn (n mod 16) (AES_encrypt Ks vv), Update a (mkW (Key s) vv), Key s).

Lemma read_ok : forall c s Kp out ad, DR c s -> keyed Kp (blockEnc c) -> bytes ad ->
  exists c', ReadWithAdditionalData c out ad =
     Some (c', fst (fst (GenImpl Kp s (length out) ad)), Z.of_nat (length out)) /\
     DR c' (snd (fst (GenImpl Kp s (length out) ad))) /\ keyed (snd (GenImpl Kp s (length out) ad)) (blockEnc c') /\
     strength c' = strength c /\ length (fst (fst (GenImpl Kp s (length out) ad))) = length out.
Proof.
  intros c s Kp out ad HD HKp Bad. unfold ReadWithAdditionalData, GenImpl.
  set (pre := match ad with [] => Some (c, repeat 0 48) | _ =>
      match update c (blit (repeat 0 48) 0 ad) with None => None | Some c0 => Some (c0, blit (repeat 0 48) 0 ad) end end).
  set (pim := match ad with [] => (Kp, s, repeat 0 48) | _ => (Key s, Update (pad48 ad) s, pad48 ad) end).
  assert (P : exists c1 s1 K1 a, pre = Some (c1, a) /\ pim = (K1, s1, a) /\ DR c1 s1 /\ keyed K1 (blockEnc c1) /\
                bytes a /\ length a = 48%nat /\ strength c1 = strength c).
  { unfold pre, pim. destruct ad as [|x ad].
    - exists c, s, Kp, (repeat 0 48). do 4 (split; [auto|]). split; [apply zeros_bytes|]. split; auto.
    - rewrite !copy48. destruct (update_ok c s (pad48 (x :: ad)) HD (pad48_bytes _ Bad) (pad48_length _)) as (c1 & E & D & A & S1 & _).
      rewrite E. exists c1, (Update (pad48 (x :: ad)) s), (Key s), (pad48 (x :: ad)).
      do 4 (split; [auto|]). split; [apply pad48_bytes; auto|]. split; [apply pad48_length | auto]. }
  destruct P as (c1 & s1 & K1 & a & -> & -> & (Ev & Ek & Hv & HK & Lt) & HK1 & Ba & La & ES).
  set (nb := (length out / 16)%nat).
  assert (Hdiv : length out = (16 * nb + length out mod 16)%nat) by (apply Nat.div_mod; discriminate).
  assert (Hm : (length out mod 16 < 16)%nat) by (apply Nat.mod_upper_bound; discriminate).
  destruct (gen_loop_ok nb 0 c1 (Key s1) out) as (aa & E & A1 & A2); auto; try (rewrite Ev; auto); try lia.
  rewrite E. cbn [v key counter strength blockEnc tmpBlk]. rewrite Ev. rewrite Nat.mul_0_l, firstn_O, app_nil_l, Nat.add_0_l.
  destruct (blocks_ok nb (Key s1) (V s1) HK Hv) as (L & B & O).
  destruct (blocks nb (Key s1) (V s1)) as [t vv]. cbn [fst snd] in *.
  set (Ks := if (nb =? 0)%nat then K1 else Key s1).
  assert (HKs : keyed Ks aa).
  { unfold Ks. destruct (Nat.eqb_spec nb 0); [rewrite A1 by auto; auto | apply A2; auto]. }
  rewrite (enc_v_ok Ks) by (auto; rewrite Lt; lia).
  destruct (AES_encrypt_ok Ks vv (key32_ok Ks (proj1 HKs)) O) as [_ [Bb Lb]].
  edestruct (update_ok (mkDrbg vv (Key s1) (counter c1) (strength c1) aa (AES_encrypt Ks vv ++ skipn 16 (tmpBlk c1)))
              (mkW (Key s1) vv) a) as (c2 & E2 & D2 & K2 & S2 & C2); auto.
  { unfold DR. cbn [v key V Key tmpBlk]. do 4 (split; [auto|]). rewrite app_length, skipn_length, Lb, Lt. reflexivity. }
  rewrite E2.
  assert (EO : blit (t ++ skipn (nb * 16) out) (nb * 16) (firstn (length out mod 16) (AES_encrypt Ks vv ++ skipn 16 (tmpBlk c1))) =
               t ++ firstn (length out mod 16) (AES_encrypt Ks vv)).
  { assert (Lf : length (firstn (length out mod 16) (AES_encrypt Ks vv)) = (length out mod 16)%nat) by (rewrite firstn_length, Lb; lia).
    rewrite firstn_app. replace (length out mod 16 - length (AES_encrypt Ks vv))%nat with 0%nat by (rewrite Lb; lia).
    rewrite firstn_O, app_nil_r. unfold blit.
    rewrite app_length, skipn_length, L, Lf.
    rewrite firstn_app, L. replace (nb * 16 - 16 * nb)%nat with 0%nat by lia. rewrite firstn_O, app_nil_r.
    rewrite (firstn_all2 t) by lia.
    rewrite (firstn_all2 (firstn _ _)) by (rewrite Lf; lia).
    rewrite (skipn_all2 (t ++ _)) by (rewrite app_length, skipn_length, L; lia). rewrite app_nil_r. reflexivity. }
  rewrite EO. eexists. split; [reflexivity|]. split.
  { destruct D2 as (D21 & D22 & D23 & D24 & D25). do 4 (split; [assumption|]). assumption. }
  split; [exact K2|]. split; [cbn [strength]; rewrite S2; exact ES|].
  rewrite app_length, L, firstn_length, Lb. lia.
Qed.

Lemma reseed_ok : forall c s e d, DR c s -> bytes e -> bytes d ->
  exists c', Reseed c e d = Some c' /\ DR c' (ReseedS s e d) /\ keyed (Key s) (blockEnc c') /\ strength c' = strength c.
Proof.
  intros c s e d HD Be Bd. unfold Reseed, ReseedS. destruct (seed_ok e d Be Bd) as [B L].
  destruct (update_ok c s _ HD B L) as (c1 & E & D & K & S1 & _). rewrite E. eexists. split; [reflexivity|].
  rewrite seed_buf_ok in D. destruct D as (D21 & D22 & D23 & D24 & D25).
  split; [do 4 (split; [assumption|]); assumption|]. split; [exact K | exact S1].
Qed.

Lemma init_ok : forall c s e p, DR c s -> bytes e -> bytes p -> strength c / 8 <= Z.of_nat (length e) ->
  exists c', Init c e p = Some (c', true) /\ DR c' (ReseedS s e p) /\ keyed (Key s) (blockEnc c') /\ strength c' = 256.
Proof.
  intros c s e p HD Be Bp L. unfold Init, ReseedS.
  replace (Z.of_nat (length e) <? strength c / 8) with false by (symmetry; apply Z.ltb_ge; exact L).
  destruct (seed_ok e p Be Bp) as [B LL].
  set (c0 := mkDrbg _ _ _ _ _ _).
  assert (HD0 : DR c0 s) by (destruct HD as (D1 & D2 & D3 & D4 & D5); do 4 (split; [assumption|]); assumption).
  destruct (update_ok c0 s _ HD0 B LL) as (c1 & E & D & K & S1 & _). rewrite E. eexists. split; [reflexivity|].
  rewrite seed_buf_ok in D. destruct D as (D21 & D22 & D23 & D24 & D25).
  split; [do 4 (split; [assumption|]); assumption|]. split; [exact K | exact S1].
Qed.

Lemma new_DR : DR NewCtrDrbg (mkW (repeat 0 32) (repeat 0 16)).
Proof.
  unfold DR, NewCtrDrbg. cbn [v key V Key tmpBlk].
  do 2 (split; [reflexivity|]). split; [split; [apply zeros_bytes | apply repeat_length]|].
  split; [split; [apply zeros_bytes | apply repeat_length]|]. apply repeat_length.
Qed.
