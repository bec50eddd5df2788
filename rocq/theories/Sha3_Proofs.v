From Coq Require Import ZArith List Bool Lia.
From Verif Require Import Lib Keccak_Spec Keccak_Model Keccak_Proofs Sha3_Iface Sha3_Spec Sha3_Ideal Sha3_Model Sha3_Client.
Import ListNotations.
Open Scope Z_scope.

(* ---------- lanes and strings ---------- *)
Lemma lane_bytes_string : forall a, lane_bytes a = string_of a. Proof. reflexivity. Qed.

Lemma string_length : forall a, length (string_of a) = (8 * length a)%nat.
Proof.
  induction a; auto. unfold string_of in *. cbn [map concat length].
  rewrite app_length, le_enc_length, IHa. lia.
Qed.

Lemma string_bytes : forall a, bytes (string_of a).
Proof.
  induction a; [constructor|]. unfold string_of in *. cbn [map concat].
  apply bytes_app; auto. apply le_enc_bytes.
Qed.

Lemma chunks_string : forall a, chunks 8 (string_of a) = map (le_enc 8) a.
Proof.
  induction a; auto. unfold string_of in *. cbn [map concat].
  rewrite chunks_app with (j := 1%nat); [|lia|apply le_enc_length].
  rewrite chunks_one; [|lia|apply le_enc_length]. now rewrite IHa.
Qed.

Lemma lanes_string : forall a, Forall is_w64 a -> lanes_of (string_of a) = a.
Proof.
  intros a H. unfold lanes_of. rewrite chunks_string, map_map.
  rewrite <- (map_id a) at 2. apply map_ext_in. intros x Hx.
  rewrite le_dec_enc. apply Z.mod_small. rewrite Forall_forall in H.
  specialize (H x Hx). unfold is_w64 in H. change (256 ^ Z.of_nat 8) with (2 ^ 64). auto.
Qed.

Lemma string_lanes : forall k S, length S = (8 * k)%nat -> bytes S -> string_of (lanes_of S) = S.
Proof.
  induction k; intros S H B.
  - destruct S; [reflexivity|discriminate].
  - unfold lanes_of. rewrite chunks_cons by lia. unfold string_of. cbn [map concat].
    assert (L : length (firstn 8 S) = 8%nat) by (rewrite firstn_length; lia).
    rewrite <- L at 1. rewrite le_enc_dec by (apply Forall_firstn; auto).
    specialize (IHk (skipn 8 S)). unfold string_of, lanes_of in IHk.
    rewrite IHk; [apply firstn_skipn| |apply Forall_skipn; auto].
    rewrite skipn_length. lia.
Qed.

Lemma lanes_length : forall k S, length S = (8 * k)%nat -> length (lanes_of S) = k.
Proof.
  intros. unfold lanes_of. rewrite map_length, chunks_length, H, Nat.mul_comm, Nat.div_mul; lia.
Qed.

Lemma lanes_w64 : forall S, bytes S -> Forall is_w64 (lanes_of S).
Proof.
  intros S H. unfold lanes_of, chunks. rewrite map_map. apply Forall_forall. intros x Hx.
  apply in_map_iff in Hx. destruct Hx as [k [<- Hk]].
  assert (B : bytes (chunk 8 S k)) by (apply bytes_slice; auto).
  assert (L : (length (chunk 8 S k) <= 8)%nat)
    by (unfold chunk, slice; rewrite firstn_length; lia).
  apply le_dec_bound in B. unfold is_w64. split; [lia|].
  apply Z.lt_le_trans with (1 := proj2 B). change (2 ^ 64) with (256 ^ 8).
  apply Z.pow_le_mono_r; lia.
Qed.

Lemma lxor_mod_pow2 : forall x y n, 0 <= n -> (Z.lxor x y) mod 2 ^ n = Z.lxor (x mod 2 ^ n) (y mod 2 ^ n).
Proof.
  intros. rewrite <- !Z.land_ones by auto. apply Z.bits_inj'. intros i Hi.
  rewrite !Z.land_spec, !Z.lxor_spec, !Z.land_spec.
  destruct (Z.testbit x i), (Z.testbit y i), (Z.testbit (Z.ones n) i); auto.
Qed.

Lemma le_enc_lxor : forall n x y, le_enc n (Z.lxor x y) = xor_list (le_enc n x) (le_enc n y).
Proof.
  induction n; intros; auto. cbn [le_enc xor_list]. f_equal.
  - change 256 with (2 ^ 8). apply lxor_mod_pow2; lia.
  - rewrite <- IHn. f_equal. change 256 with (2 ^ 8).
    rewrite <- !Z.shiftr_div_pow2 by lia. apply Z.shiftr_lxor.
Qed.

Lemma string_xor : forall a b, length a = length b ->
  string_of (xor_list a b) = xor_list (string_of a) (string_of b).
Proof.
  induction a; intros [|y b] H; simpl in H; try lia; auto.
  unfold string_of in *. cbn [xor_list map concat]. rewrite le_enc_lxor, IHa by lia.
  symmetry. apply xor_list_app. now rewrite !le_enc_length.
Qed.

(* ---------- xorIn / copyOut ---------- *)
Lemma fold_xor_length : forall buf l a, length (fold_left (xor_word buf) l a) = length a.
Proof.
  induction l; intros; simpl; auto. rewrite IHl. unfold xor_word. apply upd_length.
Qed.

Lemma fold_xor_nth : forall buf n s a i, (s + n <= length a)%nat ->
  nth i (fold_left (xor_word buf) (seq s n) a) 0 =
  if ((s <=? i) && (i <? s + n))%nat then Z.lxor (nth i a 0) (word buf i) else nth i a 0.
Proof.
  induction n; intros s a i H.
  - cbn [seq fold_left]. destruct (Nat.leb_spec s i); destruct (Nat.ltb_spec i (s + 0)); simpl; auto; lia.
  - cbn [seq fold_left].
    rewrite IHn by (unfold xor_word; rewrite upd_length; lia).
    unfold xor_word. destruct (Nat.eq_dec s i) as [->|E].
    + rewrite upd_nth_same by lia.
      destruct (Nat.leb_spec (S i) i); try lia.
      destruct (Nat.leb_spec i i); try lia. destruct (Nat.ltb_spec i (i + S n)); try lia. reflexivity.
    + rewrite upd_nth_other by auto.
      destruct (Nat.leb_spec (S s) i); destruct (Nat.ltb_spec i (S s + n));
      destruct (Nat.leb_spec s i); destruct (Nat.ltb_spec i (s + S n)); simpl; auto; lia.
Qed.

Lemma xorIn_eq : forall a buf, valid_rate (length buf) -> xorInUnaligned a buf = xorInGeneric a buf.
Proof.
  intros a buf H. unfold xorInUnaligned, xorInGeneric.
  assert (A : forall l1 l2 x, fold_left (xor_word buf) l2 (fold_left (xor_word buf) l1 x) =
                              fold_left (xor_word buf) (l1 ++ l2) x)
    by (intros; symmetry; apply fold_left_app).
  destruct H as [E|[E|[E|[E|E]]]]; rewrite E; cbn [Nat.leb]; rewrite ?A; reflexivity.
Qed.

Lemma nth_lanes : forall S i, (i < length S / 8)%nat -> nth i (lanes_of S) 0 = le_dec (slice S (8 * i) 8).
Proof.
  intros. unfold lanes_of, chunks. rewrite map_map.
  rewrite nth_indep with (d' := le_dec (chunk 8 S 0)) by (now rewrite map_length, seq_length).
  rewrite (map_nth (fun x => le_dec (chunk 8 S x))), seq_nth by auto.
  unfold chunk. now rewrite Nat.mul_comm, Nat.add_0_l.
Qed.

Lemma le_dec_zeros : forall n, le_dec (repeat 0 n) = 0.
Proof. induction n; simpl; auto. rewrite IHn. reflexivity. Qed.

Lemma skipn_repeat : forall (x : Z) n k, skipn k (repeat x n) = repeat x (n - k).
Proof. induction n; intros [|k]; simpl; auto. Qed.
Lemma firstn_repeat : forall (x : Z) n k, firstn k (repeat x n) = repeat x (Nat.min k n).
Proof. induction n; intros [|k]; simpl; auto. now rewrite IHn. Qed.

Lemma xorInGeneric_lanes : forall a buf w, length a = 25%nat -> length buf = (8 * w)%nat ->
  (w <= 25)%nat ->
  xorInGeneric a buf = xor_list a (lanes_of (buf ++ repeat 0 (200 - length buf))).
Proof.
  intros a buf w Ha Hb Hw. unfold xorInGeneric.
  replace (length buf / 8)%nat with w by (rewrite Hb, Nat.mul_comm, Nat.div_mul; lia).
  set (S := buf ++ repeat 0 (200 - length buf)).
  assert (LS : length S = 200%nat) by (unfold S; rewrite app_length, repeat_length; lia).
  assert (LL : length (lanes_of S) = 25%nat) by (apply lanes_length; lia).
  apply list_eq_nth.
  - rewrite fold_xor_length, xor_list_length, Ha, LL. reflexivity.
  - intros i Hi. rewrite fold_xor_length in Hi.
    rewrite fold_xor_nth by lia. rewrite xor_list_nth by lia.
    rewrite nth_lanes by (rewrite LS; change (200 / 8)%nat with 25%nat; lia).
    destruct (Nat.leb_spec 0 i); try lia.
    destruct (Nat.ltb_spec i (0 + w)); cbn [andb].
    + f_equal. unfold word, S. f_equal. unfold slice. rewrite skipn_app, firstn_app, skipn_length.
      replace (8 - (length buf - 8 * i))%nat with 0%nat by lia. now rewrite firstn_O, app_nil_r.
    + unfold S, slice. rewrite skipn_app, (skipn_all2 buf) by lia. rewrite app_nil_l.
      rewrite skipn_repeat, firstn_repeat, le_dec_zeros, Z.lxor_0_r. reflexivity.
Qed.

Definition Good (a : list Z) : Prop := length a = 25%nat /\ Forall is_w64 a.

Lemma xor_list_w64 : forall a b, Forall is_w64 a -> Forall is_w64 b -> Forall is_w64 (xor_list a b).
Proof.
  induction a; intros [|y b] Ha Hb; simpl; auto. inversion Ha; inversion Hb; subst.
  constructor; auto. apply lxor_bound; auto; lia.
Qed.

Lemma repeat_bytes : forall n, bytes (repeat 0 n).
Proof. intros. apply Forall_repeat. split; reflexivity || discriminate. Qed.

Lemma valid_rate_8 : forall r, valid_rate r -> exists w, r = (8 * w)%nat /\ (9 <= w <= 21)%nat.
Proof.
  intros r [E|[E|[E|[E|E]]]]; subst r.
  - exists 9%nat; lia. - exists 13%nat; lia. - exists 17%nat; lia.
  - exists 18%nat; lia. - exists 21%nat; lia.
Qed.

Lemma valid_rate_168 : valid_rate 168. Proof. unfold valid_rate. auto. Qed.

Lemma xorIn_ok : forall g a buf, Good a -> bytes buf -> valid_rate (length buf) ->
  Good (xorIn g a buf) /\
  string_of (xorIn g a buf) = xor_list (string_of a) (buf ++ repeat 0 (200 - length buf)).
Proof.
  intros g a buf [Ha Hw] Hb Hr.
  assert (E : xorIn g a buf = xor_list a (lanes_of (buf ++ repeat 0 (200 - length buf)))).
  { destruct (valid_rate_8 _ Hr) as [w [E1 E2]].
    destruct g; cbn [xorIn]; [|rewrite xorIn_eq by auto]; apply xorInGeneric_lanes with w; auto; lia. }
  destruct (valid_rate_8 _ Hr) as [w [E1 E2]].
  assert (LS : length (buf ++ repeat 0 (200 - length buf)) = 200%nat)
    by (rewrite app_length, repeat_length; lia).
  assert (BS : bytes (buf ++ repeat 0 (200 - length buf))) by (apply bytes_app; auto; apply repeat_bytes).
  assert (LL : length (lanes_of (buf ++ repeat 0 (200 - length buf))) = 25%nat) by (apply lanes_length; lia).
  rewrite E. split; [split|].
  - rewrite xor_list_length. lia.
  - apply xor_list_w64; auto. apply lanes_w64; auto.
  - rewrite string_xor by lia. f_equal. apply string_lanes with 25%nat; auto.
Qed.

Lemma copyOutGeneric_ok : forall w a b, length b = (8 * w)%nat -> (w <= length a)%nat ->
  copyOutGeneric a b = firstn (8 * w) (string_of a).
Proof.
  induction w; intros a b Hb Ha.
  - destruct b; [|discriminate]. destruct a; reflexivity.
  - destruct a as [|x a]; [simpl in Ha; lia|].
    cbn [copyOutGeneric]. destruct (Nat.leb_spec 8 (length b)); [|lia].
    rewrite IHw; [| rewrite skipn_length; lia | simpl in Ha; lia].
    unfold string_of. cbn [map concat]. rewrite firstn_app, le_enc_length.
    rewrite (firstn_all2 (le_enc 8 x)) by (rewrite le_enc_length; lia).
    do 2 f_equal. lia.
Qed.

Lemma copyOut_ok : forall g a b, length a = 25%nat -> valid_rate (length b) ->
  copyOut g a b = firstn (length b) (string_of a).
Proof.
  intros g a b Ha Hr. destruct (valid_rate_8 _ Hr) as [w [E1 E2]].
  destruct g; cbn [copyOut].
  - rewrite E1. apply copyOutGeneric_ok; lia.
  - unfold copyOutUnaligned, blit, maxRate. rewrite lane_bytes_string.
    assert (L := string_length a).
    rewrite firstn_O, app_nil_l, firstn_firstn, firstn_length, skipn_all2, app_nil_r by lia.
    f_equal. lia.
Qed.

(* ---------- permutation ---------- *)
Lemma perm_ok : forall a, Good a -> Good (Keccak_Model.keccakF1600 a) /\ string_of (Keccak_Model.keccakF1600 a) = perm (string_of a).
Proof.
  intros a [Ha Hw]. rewrite keccakF1600_ok by auto. unfold perm. rewrite lanes_string by auto.
  split; [split|reflexivity]. apply keccak_p_length; auto. apply keccak_p_w64; auto.
Qed.

Lemma absorb1_ok : forall g r a P, Good a -> bytes P -> valid_rate r -> length P = r ->
  Good (Keccak_Model.keccakF1600 (xorIn g a P)) /\
  string_of (Keccak_Model.keccakF1600 (xorIn g a P)) = absorb1 r (string_of a) P.
Proof.
  intros g r a P Ha HP Hr L. subst r. destruct (xorIn_ok g a P Ha HP Hr) as [G E].
  destruct (perm_ok _ G) as [G' E']. split; auto. rewrite E', E. reflexivity.
Qed.

Lemma absorb_app : forall r P Q j, r <> O -> length P = (j * r)%nat ->
  absorb r (P ++ Q) = fold_left (absorb1 r) (chunks r Q) (absorb r P).
Proof.
  intros. unfold absorb. rewrite chunks_app with (j := j) by auto. apply fold_left_app.
Qed.

Lemma absorb_one : forall r P Q j, r <> O -> length P = (j * r)%nat -> length Q = r ->
  absorb r (P ++ Q) = absorb1 r (absorb r P) Q.
Proof.
  intros. rewrite absorb_app with (j := j) by auto. rewrite chunks_one by auto. reflexivity.
Qed.

Lemma valid_rate_bounds : forall r, valid_rate r -> (72 <= r <= 168)%nat.
Proof. unfold valid_rate. lia. Qed.

Lemma firstn_app_exact : forall (A : Type) (l1 l2 : list A) n, length l1 = n -> firstn n (l1 ++ l2) = l1.
Proof. intros. subst. rewrite firstn_app, Nat.sub_diag, firstn_O, app_nil_r. apply firstn_all. Qed.
Lemma skipn_app_exact : forall (A : Type) (l1 l2 : list A) n, length l1 = n -> skipn n (l1 ++ l2) = l2.
Proof. intros. subst. rewrite skipn_app, Nat.sub_diag, skipn_all. reflexivity. Qed.

(* ---------- absorbing ---------- *)
Definition Absorbing (s : state) (M : list Z) : Prop :=
  valid_rate (rate s) /\ Good (a s) /\ bytes M /\ isSquezing s = false /\
  exists q m1 m2 mid,
    M = m1 ++ m2 /\ length m1 = (q * rate s)%nat /\ idx s = length m2 /\
    (length m2 < rate s)%nat /\
    data s = m2 ++ mid ++ repeat 0 (maxRate - rate s) /\
    (length m2 + length mid = rate s)%nat /\ bytes mid /\
    string_of (a s) = absorb (rate s) m1.

Lemma zeros_Good : Good (repeat 0 25).
Proof. split; auto. apply Forall_repeat. split; reflexivity || discriminate. Qed.

Lemma new_absorbing : forall s, valid_rate (rate s) -> a s = repeat 0 25 -> data s = repeat 0 maxRate ->
  idx s = O -> isSquezing s = false -> Absorbing s [].
Proof.
  intros s Hr Ha Hd Hi Hs. split; [auto|]. rewrite Ha. split; [apply zeros_Good|].
  split; [constructor|]. split; [auto|].
  exists O, [], [], (repeat 0 (rate s)). repeat split; auto.
  - simpl. apply valid_rate_bounds in Hr. lia.
  - rewrite Hd. rewrite app_nil_l. rewrite <- repeat_app. f_equal. apply valid_rate_bounds in Hr. unfold maxRate. lia.
  - now rewrite repeat_length.
  - apply repeat_bytes.
  - unfold absorb. rewrite chunks_nil. reflexivity.
Qed.

Lemma write_loop_ok : forall g r, valid_rate r -> forall fuel a0 inp m j, (length inp <= fuel)%nat ->
  Good a0 -> bytes inp -> length m = (j * r)%nat -> string_of a0 = absorb r m ->
  exists c1 c2 k a', write_loop g r fuel a0 inp = (a', c2) /\ inp = c1 ++ c2 /\
    length c1 = (k * r)%nat /\ (length c2 < r)%nat /\ Good a' /\ string_of a' = absorb r (m ++ c1).
Proof.
  intros g r Hr. assert (Rb := valid_rate_bounds r Hr).
  induction fuel; intros a0 inp m j Hf Ha Hb Hm Hs.
  - destruct inp; [|simpl in Hf; lia]. exists [], [], O, a0. rewrite !app_nil_r. simpl. repeat split; auto; try lia; apply Ha.
  - cbn [write_loop]. destruct (Nat.leb_spec r (length inp)).
    + assert (LF : length (firstn r inp) = r) by (rewrite firstn_length; lia).
      destruct (absorb1_ok g r a0 (firstn r inp) Ha (Forall_firstn _ _ _ _ Hb) Hr LF) as [G E].
      destruct (IHfuel (Keccak_Model.keccakF1600 (xorIn g a0 (firstn r inp))) (skipn r inp) (m ++ firstn r inp) (S j))
        as (c1 & c2 & k & a' & E1 & E2 & E3 & E4 & E5 & E6).
      * rewrite skipn_length. lia.
      * auto.
      * apply Forall_skipn; auto.
      * rewrite app_length, LF. lia.
      * rewrite absorb_one with (j := j) by (auto; lia). rewrite E, Hs. reflexivity.
      * exists (firstn r inp ++ c1), c2, (S k), a'. split; [auto|].
        split. { rewrite <- app_assoc, <- E2. symmetry. apply firstn_skipn. }
        split. { rewrite app_length, LF. lia. }
        split; [auto|]. split; [auto|]. rewrite app_assoc. auto.
    + exists [], inp, O, a0. rewrite app_nil_r. simpl. repeat split; auto; try lia; apply Ha.
Qed.

Lemma blit_prefix : forall (d s rest : list Z), length d = length s -> blit (d ++ rest) 0 s = s ++ rest.
Proof.
  intros. unfold blit. cbn [firstn app]. rewrite Nat.sub_0_r, app_length, Nat.add_0_l.
  rewrite firstn_all2 by lia. rewrite skipn_app_exact by auto. reflexivity.
Qed.
Lemma blit_mid : forall (p d s rest : list Z), length d = length s ->
  blit (p ++ d ++ rest) (length p) s = p ++ s ++ rest.
Proof.
  intros. unfold blit. rewrite firstn_app_exact by auto. f_equal.
  rewrite firstn_all2 by (rewrite !app_length; lia). f_equal.
  rewrite app_assoc, skipn_app_exact by (rewrite app_length; lia). reflexivity.
Qed.

Lemma Write_ok : forall g s M p, Absorbing s M -> bytes p ->
  Absorbing (fst (Write g s p)) (M ++ p) /\ snd (Write g s p) = (length p, None) /\
  rate (fst (Write g s p)) = rate s /\ size (fst (Write g s p)) = size s /\
  sfx (fst (Write g s p)) = sfx s.
Proof.
  intros g s M p (Hr & Ha & HM & Hs & q & m1 & m2 & mid & EM & L1 & Ei & L2 & Ed & Lm & Bm & Es) Hp.
  assert (Rb := valid_rate_bounds _ Hr).
  unfold Write. rewrite Hs.
  destruct (Nat.ltb_spec (idx s + length p) (rate s)).
  - cbn [fst snd]. split; [|repeat split; auto].
    split; [auto|]. split; [auto|]. split; [apply bytes_app; auto|]. split; [auto|].
    exists q, m1, (m2 ++ p), (skipn (length p) mid). cbn [rate a data idx].
    rewrite Ei in *.
    split; [rewrite EM; now rewrite app_assoc|]. split; [auto|].
    split; [now rewrite app_length|]. split; [rewrite app_length; lia|].
    split.
    { rewrite Ed. rewrite <- (firstn_skipn (length p) mid) at 1. rewrite <- (app_assoc (firstn _ _)).
      rewrite blit_mid by (rewrite firstn_length; lia). rewrite <- !app_assoc. reflexivity. }
    split; [rewrite app_length, skipn_length; lia|].
    split; [apply Forall_skipn; auto|auto].
  - set (fb := (rate s - idx s)%nat).
    assert (Lfb : length (firstn fb p) = fb) by (rewrite firstn_length; unfold fb; lia).
    assert (E1 : blit (data s) (idx s) (firstn fb p) = (m2 ++ firstn fb p) ++ repeat 0 (maxRate - rate s)).
    { rewrite Ed, Ei, blit_mid by (rewrite Lfb; unfold fb; lia). now rewrite app_assoc. }
    rewrite E1. set (blk := m2 ++ firstn fb p).
    assert (Lblk : length blk = rate s) by (unfold blk; rewrite app_length, Lfb; unfold fb; lia).
    assert (Bp : bytes (firstn fb p)) by (apply Forall_firstn; auto).
    assert (Bm2 : bytes m2) by (rewrite EM in HM; apply Forall_app in HM; tauto).
    assert (Bblk : bytes blk) by (apply bytes_app; auto).
    assert (LL : length (blk ++ repeat 0 (maxRate - rate s)) = 168%nat)
      by (rewrite app_length, repeat_length, Lblk; unfold maxRate; lia).
    destruct (xorIn_ok g (a s) (blk ++ repeat 0 (maxRate - rate s)) Ha) as [G1 G2].
    { apply bytes_app; auto. apply repeat_bytes. }
    { rewrite LL. apply valid_rate_168. }
    destruct (perm_ok _ G1) as [G3 G4].
    destruct (write_loop_ok g (rate s) Hr (length (skipn fb p))
                (Keccak_Model.keccakF1600 (xorIn g (a s) (blk ++ repeat 0 (maxRate - rate s))))
                (skipn fb p) (m1 ++ blk) (S q)) as (c1 & c2 & k & a' & W1 & W2 & W3 & W4 & W5 & W6).
    { auto. } { auto. } { apply Forall_skipn; auto. }
    { rewrite app_length, Lblk. lia. }
    { rewrite G4, G2, absorb_one with (j := q) by (auto; lia).
      unfold absorb1. rewrite <- Es. do 2 f_equal. rewrite <- app_assoc, <- repeat_app. do 2 f_equal.
      rewrite app_length, repeat_length, Lblk. unfold maxRate. lia. }
    rewrite W1. cbn [fst snd]. split; [|repeat split; auto].
    split; [auto|]. split; [auto|]. split; [apply bytes_app; auto|]. split; [auto|].
    exists (S q + k)%nat, (m1 ++ blk ++ c1), c2, (skipn (length c2) blk). cbn [rate a data idx].
    split. { rewrite EM. unfold blk. rewrite <- !app_assoc. do 2 f_equal. rewrite <- W2. symmetry. apply firstn_skipn. }
    split. { rewrite !app_length, Lblk. lia. }
    split; [auto|]. split; [auto|].
    split. { rewrite <- (firstn_skipn (length c2) blk) at 1. rewrite <- app_assoc.
             rewrite blit_prefix by (rewrite firstn_length; lia). reflexivity. }
    split. { rewrite skipn_length. lia. }
    split; [apply Forall_skipn; auto|]. rewrite app_assoc. auto.
Qed.

(* ---------- padding ---------- *)
Definition sfx_ok (b : Z) (s : list bool) : Prop :=
  (b = 0x06 /\ s = suffix_sha3) \/ (b = 0x1f /\ s = suffix_shake) \/ (b = 0x04 /\ s = suffix_cshake).

Definition tail_bytes (b : Z) (t : nat) : list Z :=
  match t with
  | O => []
  | S O => [Z.lor b 0x80]
  | S (S t') => b :: repeat 0 t' ++ [0x80]
  end.

Lemma byte_bits : forall b, is_byte b ->
  Z.b2z (Z.testbit b 0) + 2 * Z.b2z (Z.testbit b 1) + 4 * Z.b2z (Z.testbit b 2) +
  8 * Z.b2z (Z.testbit b 3) + 16 * Z.b2z (Z.testbit b 4) + 32 * Z.b2z (Z.testbit b 5) +
  64 * Z.b2z (Z.testbit b 6) + 128 * Z.b2z (Z.testbit b 7) = b.
Proof.
  intros b [H0 H1].
  rewrite !Z.testbit_spec' by lia.
  change (2 ^ 0) with 1. change (2 ^ 1) with 2. change (2 ^ 2) with 4. change (2 ^ 3) with 8.
  change (2 ^ 4) with 16. change (2 ^ 5) with 32. change (2 ^ 6) with 64. change (2 ^ 7) with 128.
  Z.to_euclidean_division_equations. lia.
Qed.

Lemma bytes_of_bits_app : forall m l, bytes m -> bytes_of_bits (bits_of_bytes m ++ l) = m ++ bytes_of_bits l.
Proof.
  induction m; intros l H; auto. inversion H; subst.
  unfold bits_of_bytes. cbn [flat_map]. rewrite <- app_assoc.
  unfold bits_of_byte at 1. cbn [app bytes_of_bits]. rewrite byte_bits by auto. f_equal. apply IHm; auto.
Qed.

Lemma bits_length : forall m, length (bits_of_bytes m) = (8 * length m)%nat.
Proof. unfold bits_of_bytes. induction m; auto. cbn [flat_map]. rewrite app_length, IHm. simpl. lia. Qed.

Lemma bytes_of_zeros : forall t, bytes_of_bits (repeat false (8 * t) ++ [false;false;false;false;false;false;false;true]) = repeat 0 t ++ [0x80].
Proof.
  induction t; auto. replace (8 * S t)%nat with (8 + 8 * t)%nat by lia.
  cbn [repeat Nat.add app bytes_of_bits]. rewrite IHt. reflexivity.
Qed.

Lemma repeat_snoc : forall n k (l : list bool), (k <= n)%nat -> repeat false n ++ l = repeat false (n - k) ++ repeat false k ++ l.
Proof. intros. rewrite app_assoc, <- repeat_app. do 2 f_equal. lia. Qed.

Lemma tail_bits : forall b s t, sfx_ok b s -> (1 <= t)%nat ->
  bytes_of_bits (s ++ [true] ++ repeat false (8 * t - length s - 2) ++ [true]) = tail_bytes b t.
Proof.
  intros b s t H Ht. destruct t as [|[|t]]; [lia| |].
  - destruct H as [[-> ->]|[[-> ->]|[-> ->]]]; reflexivity.
  - cbn [tail_bytes]. rewrite <- bytes_of_zeros.
    destruct H as [[-> ->]|[[-> ->]|[-> ->]]]; cbn [length suffix_sha3 suffix_shake suffix_cshake].
    + rewrite (repeat_snoc _ 7) by lia. replace (8 * S (S t) - 2 - 2 - 7)%nat with (5 + 8 * t)%nat by lia. reflexivity.
    + rewrite (repeat_snoc _ 7) by lia. replace (8 * S (S t) - 4 - 2 - 7)%nat with (3 + 8 * t)%nat by lia. reflexivity.
    + rewrite (repeat_snoc _ 7) by lia. replace (8 * S (S t) - 2 - 2 - 7)%nat with (5 + 8 * t)%nat by lia. reflexivity.
Qed.

Lemma padded_ok : forall b s r q m1 m2, sfx_ok b s -> bytes (m1 ++ m2) ->
  length m1 = (q * r)%nat -> (length m2 < r)%nat ->
  padded r (bits_of_bytes (m1 ++ m2) ++ s) = m1 ++ m2 ++ tail_bytes b (r - length m2).
Proof.
  intros b s r q m1 m2 Hs HB L1 L2. unfold padded, pad10star1. rewrite <- app_assoc.
  rewrite bytes_of_bits_app by auto. rewrite <- app_assoc. do 2 f_equal.
  rewrite <- (tail_bits b s) by (auto; lia). do 5 f_equal.
  rewrite app_length, bits_length, app_length, L1.
  assert (Ls : (length s <= 4)%nat) by (destruct Hs as [[-> ->]|[[-> ->]|[-> ->]]]; simpl; lia).
  replace (- Z.of_nat (8 * (q * r + length m2) + length s) - 2) with
    (8 * (Z.of_nat r - Z.of_nat (length m2)) - Z.of_nat (length s) - 2 + (- Z.of_nat q - 1) * (8 * Z.of_nat r)) by nia.
  rewrite Z.mod_add by lia. rewrite Z.mod_small by lia. lia.
Qed.

Lemma tail_length : forall b t, length (tail_bytes b t) = t.
Proof. destruct t as [|[|t]]; simpl; auto. rewrite app_length, repeat_length. simpl. lia. Qed.

Lemma tail_is_bytes : forall b s t, sfx_ok b s -> bytes (tail_bytes b t).
Proof.
  intros b s t H.
  assert (B : is_byte b /\ is_byte (Z.lor b 0x80)).
  { destruct H as [[-> ->]|[[-> ->]|[-> ->]]]; split; split; reflexivity || discriminate. }
  destruct t as [|[|t]]; simpl.
  - constructor.
  - constructor; [tauto|constructor].
  - constructor; [tauto|]. apply bytes_app; [apply repeat_bytes|]. constructor; [|constructor]. split; reflexivity || discriminate.
Qed.

Fixpoint iter_perm (n : nat) (S : list Z) : list Z :=
  match n with O => S | S n' => iter_perm n' (perm S) end.

Definition final_state (s : state) (sf : list bool) (M : list Z) : list Z :=
  absorb (rate s) (padded (rate s) (bits_of_bytes M ++ sf)).

Lemma upd_app_r : forall (l1 l2 : list Z) i v, (length l1 <= i)%nat ->
  upd (l1 ++ l2) i v = l1 ++ upd l2 (i - length l1) v.
Proof.
  induction l1; intros l2 i v H; simpl. { now rewrite Nat.sub_0_r. }
  destruct i; [simpl in H; lia|]. simpl in H. f_equal. apply IHl1. lia.
Qed.

Lemma upd_app_l : forall (l1 l2 : list Z) i v, (i < length l1)%nat -> upd (l1 ++ l2) i v = upd l1 i v ++ l2.
Proof. induction l1; intros l2 [|i] v H; simpl in *; try lia; auto. f_equal. apply IHl1. lia. Qed.

Lemma upd_last_zero : forall t (rest : list Z),
  upd (0 :: repeat 0 t ++ rest) t (Z.lor (nth t (0 :: repeat 0 t ++ rest) 0) 0x80) = (repeat 0 t ++ [0x80]) ++ rest.
Proof.
  intros t rest.
  assert (R : 0 :: repeat 0 t ++ rest = (repeat 0 t ++ [0]) ++ rest).
  { rewrite <- app_assoc. cbn [app]. clear. induction t; simpl; auto. now f_equal. }
  rewrite R. rewrite app_nth1 by (rewrite app_length, repeat_length; simpl; lia).
  rewrite (app_nth2 (repeat 0 t)) by (rewrite repeat_length; lia).
  rewrite repeat_length, Nat.sub_diag. cbn [nth]. change (Z.lor 0 128) with 128.
  rewrite upd_app_l by (rewrite app_length, repeat_length; simpl; lia).
  rewrite upd_app_r by (rewrite repeat_length; lia). rewrite repeat_length, Nat.sub_diag. reflexivity.
Qed.

(* the padding code writes suffix, zeros and the final bit *)
Lemma pad_code : forall b (m2 mid rest : list Z) r, (length m2 < r)%nat ->
  (length m2 + length mid = r)%nat ->
  let buf := m2 ++ mid ++ rest in
  let buf1 := firstn (S (length m2)) buf ++ repeat 0 (r - S (length m2)) ++ skipn r buf in
  let buf2 := upd buf1 (length m2) b in
  upd buf2 (r - 1) (Z.lor (nth (r - 1) buf2 0) 0x80) = (m2 ++ tail_bytes b (r - length m2)) ++ rest.
Proof.
  intros b m2 mid rest r H1 H2. cbv zeta.
  destruct mid as [|x mid]; [simpl in H2; lia|].
  assert (E1 : firstn (S (length m2)) (m2 ++ (x :: mid) ++ rest) = m2 ++ [x]).
  { replace (m2 ++ (x :: mid) ++ rest) with ((m2 ++ [x]) ++ (mid ++ rest)) by (rewrite <- app_assoc; reflexivity).
    apply firstn_app_exact. rewrite app_length. simpl. lia. }
  assert (E2 : skipn r (m2 ++ (x :: mid) ++ rest) = rest).
  { rewrite app_assoc. apply skipn_app_exact. rewrite app_length. lia. }
  rewrite E1, E2. rewrite <- !app_assoc. rewrite (upd_app_r m2) by lia. rewrite Nat.sub_diag. cbn [app upd].
  rewrite (upd_app_r m2) by lia. f_equal.
  rewrite app_nth2 by lia.
  replace (r - 1 - length m2)%nat with (r - length m2 - 1)%nat by lia.
  replace (r - S (length m2))%nat with (r - length m2 - 1)%nat by lia.
  destruct (r - length m2)%nat as [|[|t]] eqn:E; [lia| |].
  - cbn [Nat.sub repeat app nth upd tail_bytes]. reflexivity.
  - exact (f_equal (cons b) (upd_last_zero t rest)).
Qed.

Definition Squeezing (s : state) (S0 : list Z) (k : nat) : Prop :=
  valid_rate (rate s) /\ Good (a s) /\ isSquezing s = true /\ length (data s) = maxRate /\
  exists j, string_of (a s) = iter_perm j S0 /\
    firstn (rate s) (data s) = firstn (rate s) (string_of (a s)) /\
    (idx s <= rate s)%nat /\ (k + idx s = (j + 1) * rate s)%nat.

Lemma finalize_ok : forall g s M sf, Absorbing s M -> sfx_ok (sfx s) sf ->
  Squeezing (finalize_sha3 g s) (final_state s sf M) 0 /\
  rate (finalize_sha3 g s) = rate s /\ size (finalize_sha3 g s) = size s /\
  sfx (finalize_sha3 g s) = sfx s.
Proof.
  intros g s M sf (Hr & Ha & HM & Hs & q & m1 & m2 & mid & EM & L1 & Ei & L2 & Ed & Lm & Bm & Es) Hsf.
  assert (Rb := valid_rate_bounds _ Hr).
  split; [|repeat split].
  unfold finalize_sha3. cbv zeta. rewrite Ei, Ed.
  rewrite (pad_code (sfx s) m2 mid _ (rate s)) by auto.
  set (t := m2 ++ tail_bytes (sfx s) (rate s - length m2)).
  assert (Lt : length t = rate s) by (unfold t; rewrite app_length, tail_length; lia).
  assert (Bt : bytes t).
  { apply bytes_app; [rewrite EM in HM; apply Forall_app in HM; tauto|]. eapply tail_is_bytes; eauto. }
  rewrite firstn_app_exact by auto.
  destruct (absorb1_ok g (rate s) (a s) t Ha Bt Hr Lt) as [G E].
  set (a1 := Keccak_Model.keccakF1600 (xorIn g (a s) t)) in *.
  assert (LS : length (string_of a1) = 200%nat) by (rewrite string_length; destruct G; lia).
  assert (C : copyOut g a1 t = firstn (rate s) (string_of a1)).
  { rewrite copyOut_ok, Lt; auto. apply G. rewrite Lt; auto. }
  rewrite C.
  assert (Lc : length (firstn (rate s) (string_of a1)) = rate s) by (rewrite firstn_length; lia).
  rewrite blit_prefix by lia.
  split; [auto|]. split; [auto|]. split; [auto|]. cbn [data rate a idx].
  split. { rewrite app_length, repeat_length, Lc. unfold maxRate. lia. }
  exists O. split.
  { cbn [iter_perm]. rewrite E. unfold final_state. rewrite EM.
    rewrite (padded_ok (sfx s) sf (rate s) q m1 m2) by (auto; rewrite <- EM; auto).
    fold t. rewrite absorb_one with (j := q) by (auto; lia). now rewrite Es. }
  split. { rewrite firstn_app_exact by auto. reflexivity. }
  lia.
Qed.

(* ---------- squeezing ---------- *)
Lemma perm_length : forall S, bytes S -> length S = 200%nat -> length (perm S) = 200%nat /\ bytes (perm S).
Proof.
  intros. unfold perm. split; [|apply string_bytes]. rewrite string_length, keccak_p_length; auto.
  apply lanes_length; lia.
Qed.
Lemma iter_perm_len : forall n S, bytes S -> length S = 200%nat -> length (iter_perm n S) = 200%nat /\ bytes (iter_perm n S).
Proof.
  induction n; intros; simpl; auto. destruct (perm_length S); auto.
Qed.
Lemma iter_perm_add : forall m n S, iter_perm (m + n) S = iter_perm n (iter_perm m S).
Proof. induction m; intros; simpl; auto. Qed.

Lemma squeeze_add : forall r m n S, squeeze r (m + n) S = squeeze r m S ++ squeeze r n (iter_perm m S).
Proof. induction m; intros; simpl; auto. rewrite IHm. now rewrite app_assoc. Qed.

Lemma squeeze_length : forall r n S, (r <= 200)%nat -> bytes S -> length S = 200%nat ->
  length (squeeze r n S) = (n * r)%nat.
Proof.
  induction n; intros; simpl; auto. destruct (perm_length S); auto.
  rewrite app_length, firstn_length, IHn; auto. lia.
Qed.

Lemma absorb1_len : forall r S P, bytes S -> bytes P -> length S = 200%nat -> (r <= 200)%nat -> length P = r ->
  length (absorb1 r S P) = 200%nat /\ bytes (absorb1 r S P).
Proof.
  intros. apply perm_length.
  - apply bytes_xor; auto. apply bytes_app; auto. apply repeat_bytes.
  - rewrite xor_list_length, app_length, repeat_length. lia.
Qed.

Lemma squeeze_firstn : forall r n1 n2 d S, (0 < r <= 200)%nat -> bytes S -> length S = 200%nat ->
  (d <= n1 * r)%nat -> (d <= n2 * r)%nat ->
  firstn d (squeeze r n1 S) = firstn d (squeeze r n2 S).
Proof.
  assert (H : forall r n m d S, (0 < r <= 200)%nat -> bytes S -> length S = 200%nat -> (d <= n * r)%nat ->
    firstn d (squeeze r (n + m) S) = firstn d (squeeze r n S)).
  { intros. rewrite squeeze_add, firstn_app, squeeze_length by (auto; lia).
    replace (d - n * r)%nat with O by lia. now rewrite firstn_O, app_nil_r. }
  intros. destruct (Nat.le_ge_cases n1 n2).
  - replace n2 with (n1 + (n2 - n1))%nat by lia. now rewrite H.
  - replace n1 with (n2 + (n1 - n2))%nat by lia. now rewrite H.
Qed.

(* output at positions [k, k+n) computed from S0 *)
Definition out_bytes (r : nat) (S0 : list Z) (k n : nat) : list Z :=
  skipn k (firstn (k + n) (squeeze r ((k + n) / r + 1) S0)).

Lemma out_bytes_any : forall r S0 k n N, (0 < r <= 200)%nat -> bytes S0 -> length S0 = 200%nat ->
  (k + n <= N * r)%nat -> out_bytes r S0 k n = slice (squeeze r N S0) k n.
Proof.
  intros. unfold out_bytes, slice.
  rewrite (squeeze_firstn r _ N) by (auto; nia || (assert (D := Nat.div_mod (k + n) r ltac:(lia));
     assert (B := Nat.mod_upper_bound (k + n) r ltac:(lia)); nia)).
  rewrite skipn_firstn_comm. f_equal. lia.
Qed.

Lemma read_loop_ok : forall g r, valid_rate r -> forall nb a0 out, Good a0 ->
  (nb * r <= length out)%nat ->
  exists a', read_loop g r nb a0 out = (a', squeeze r nb (perm (string_of a0)), skipn (nb * r) out) /\
    Good a' /\ string_of a' = iter_perm nb (string_of a0).
Proof.
  intros g r Hr. assert (Rb := valid_rate_bounds r Hr).
  induction nb; intros a0 out Ha Hl.
  - exists a0. simpl. auto.
  - cbn [read_loop]. destruct (perm_ok a0 Ha) as [G E].
    destruct (IHnb (Keccak_Model.keccakF1600 a0) (skipn r out) G) as (a' & E1 & E2 & E3).
    { rewrite skipn_length. lia. }
    rewrite E1. exists a'. split; [|split]; auto.
    + rewrite copyOut_ok.
      2: apply G. 2: rewrite firstn_length; replace (Nat.min r (length out)) with r by lia; auto.
      rewrite firstn_length. replace (Nat.min r (length out)) with r by lia.
      rewrite E, skipn_skipn'. cbn [squeeze]. f_equal.
    + rewrite E3, E. reflexivity.
Qed.

Lemma slice_app_l : forall (l1 l2 : list Z) i n, (i + n <= length l1)%nat -> slice (l1 ++ l2) i n = slice l1 i n.
Proof.
  intros. unfold slice. rewrite skipn_app, firstn_app, skipn_length.
  replace (n - (length l1 - i))%nat with O by lia. now rewrite firstn_O, app_nil_r.
Qed.
Lemma slice_app_r : forall (l1 l2 : list Z) i n, (length l1 <= i)%nat -> slice (l1 ++ l2) i n = slice l2 (i - length l1) n.
Proof. intros. unfold slice. rewrite skipn_app, skipn_all2 by lia. reflexivity. Qed.
Lemma slice_split : forall (l : list Z) i n m, slice l i (n + m) = slice l i n ++ slice l (i + n) m.
Proof.
  intros. unfold slice. rewrite <- (firstn_skipn n (skipn i l)) at 1.
  rewrite skipn_skipn'. rewrite firstn_app.
  rewrite firstn_firstn. replace (Nat.min (n + m) n) with n by lia. f_equal.
  rewrite firstn_length, skipn_length.
  destruct (Nat.le_ge_cases (length l) (i + n)).
  - rewrite (skipn_all2 l) by lia. now rewrite !firstn_nil.
  - f_equal. lia.
Qed.

Lemma slice_firstn_eq : forall (l l' : list Z) r i n, firstn r l = firstn r l' -> (i + n <= r)%nat -> slice l i n = slice l' i n.
Proof.
  intros l l' r i n H Hi. unfold slice.
  assert (A : forall x : list Z, firstn n (skipn i x) = firstn n (skipn i (firstn r x))).
  { intros. rewrite skipn_firstn_comm, firstn_firstn. f_equal. lia. }
  rewrite (A l), (A l'), H. reflexivity.
Qed.

Lemma read_sq : forall g s S0 k out, bytes S0 -> length S0 = 200%nat -> Squeezing s S0 k ->
  Squeezing (fst (Read g s out)) S0 (k + length out) /\
  snd (Read g s out) = out_bytes (rate s) S0 k (length out) /\
  rate (fst (Read g s out)) = rate s /\ size (fst (Read g s out)) = size s /\
  sfx (fst (Read g s out)) = sfx s.
Proof.
  intros g s S0 k out B0 L0 (Hr & Ha & Hs & Ld & j & Ej & Ed & Hi & Hk).
  assert (Rb := valid_rate_bounds _ Hr).
  unfold Read. rewrite Hs. cbv zeta.
  set (l := Nat.min (idx s) (length out)).
  destruct (iter_perm_len j S0 B0 L0) as [LSj BSj].
  assert (P1 : slice (data s) (rate s - idx s) l = slice (squeeze (rate s) (j + 1) S0) k l).
  { rewrite squeeze_add, slice_app_r by (rewrite squeeze_length by (auto; lia); lia).
    rewrite squeeze_length by (auto; lia).
    rewrite (slice_firstn_eq _ _ _ _ l Ed) by lia.
    cbn [squeeze]. rewrite app_nil_r. rewrite Ej.
    replace (k - j * rate s)%nat with (rate s - idx s)%nat by lia.
    apply (slice_firstn_eq _ _ (rate s)); [|lia]. rewrite firstn_firstn. f_equal. lia. }
  rewrite skipn_length.
  destruct (Nat.eqb_spec (length out - l) 0) as [E0|E0].
  - cbn [fst snd]. assert (El : l = length out) by lia. split; [|split].
    + split; [auto|]. split; [auto|]. split; [auto|]. split; [auto|].
      exists j. cbn [rate a data idx]. repeat split; auto; lia.
    + rewrite P1, El. symmetry. apply out_bytes_any; auto; lia.
    + auto.
  - assert (El : l = idx s) by lia.
    set (nb := ((length out - l) / rate s)%nat).
    assert (Dm := Nat.div_mod (length out - l) (rate s) ltac:(lia)).
    assert (Mb := Nat.mod_upper_bound (length out - l) (rate s) ltac:(lia)). fold nb in Dm.
    destruct (read_loop_ok g (rate s) Hr nb (a s) (skipn l out) Ha) as (a2 & E1 & G2 & E2).
    { rewrite skipn_length. nia. }
    rewrite E1. cbn [fst snd].
    destruct (perm_ok a2 G2) as [G3 E3].
    assert (Cd : copyOut g (Keccak_Model.keccakF1600 a2) (data s) = firstn maxRate (string_of (Keccak_Model.keccakF1600 a2))).
    { rewrite copyOut_ok, Ld; auto. apply G3. rewrite Ld. apply valid_rate_168. }
    rewrite Cd.
    assert (LS3 : length (string_of (Keccak_Model.keccakF1600 a2)) = 200%nat)
      by (rewrite string_length; destruct G3; lia).
    assert (Lrest : length (skipn (nb * rate s) (skipn l out)) = (length out - l - nb * rate s)%nat)
      by (rewrite !skipn_length; lia).
    rewrite Lrest. set (rem := (length out - l - nb * rate s)%nat) in *.
    assert (Hrem : (rem < rate s)%nat) by (unfold rem; nia).
    assert (Sj3 : string_of (Keccak_Model.keccakF1600 a2) = iter_perm (j + 1 + nb) S0).
    { rewrite E3, E2, Ej.
      transitivity (iter_perm 1 (iter_perm nb (iter_perm j S0))); [reflexivity|].
      rewrite <- !iter_perm_add. f_equal. lia. }
    split; [|split; [|auto]].
    + split; [auto|]. split; [auto|]. split; [auto|]. cbn [rate a data idx].
      split. { rewrite firstn_length. unfold maxRate. lia. }
      exists (j + 1 + nb)%nat. split; [auto|].
      split. { rewrite firstn_firstn. f_equal. unfold maxRate. lia. }
      split; [lia|]. nia.
    + rewrite P1. rewrite (out_bytes_any _ _ _ _ (j + 1 + (nb + 1))) by (auto; nia).
      rewrite (squeeze_add _ (j + 1) (nb + 1)).
      replace (length out) with (l + (nb * rate s + rem))%nat by lia.
      rewrite (slice_split _ k l). f_equal.
      { symmetry. apply slice_app_l. rewrite squeeze_length by (auto; lia). lia. }
      rewrite slice_app_r by (rewrite squeeze_length by (auto; lia); lia).
      rewrite squeeze_length by (auto; lia).
      replace (k + l - (j + 1) * rate s)%nat with O by lia.
      destruct (iter_perm_len (j + 1) S0 B0 L0) as [LSj1 BSj1].
      rewrite (squeeze_add _ nb 1), slice_split. f_equal.
      { rewrite slice_app_l by (rewrite squeeze_length by (auto; lia); lia).
        unfold slice. cbn [skipn]. rewrite firstn_all2 by (rewrite squeeze_length by (auto; lia); lia).
        rewrite iter_perm_add. cbn [iter_perm]. now rewrite Ej. }
      rewrite slice_app_r by (rewrite squeeze_length by (auto; lia); lia).
      rewrite squeeze_length by (auto; lia). replace (0 + nb * rate s - nb * rate s)%nat with O by lia.
      rewrite <- iter_perm_add, <- Sj3. cbn [squeeze]. rewrite app_nil_r. unfold slice. cbn [skipn].
      rewrite !firstn_firstn. f_equal. unfold maxRate. lia.
Qed.
