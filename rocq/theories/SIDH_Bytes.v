(* Little-endian bytes and limb vectors: what BytesToFp2 and Fp2ToBytes do to the values. *)
From Coq Require Import ZArith List Lia Bool.
From Verif Require Import Lib MP SIDH_Consts SIDH_Field SIDH_Curve SIDH_Impl CSIDH_ApiProofs.
Import ListNotations.
Open Scope Z_scope.

Lemma bval_dec : forall l, bval l = le_dec l.
Proof. induction l; cbn [bval fold_right le_dec]; [reflexivity|]. fold (bval l). rewrite IHl. reflexivity. Qed.
Lemma lor_step : forall w v y, is_w64 w -> Z.lor (w + B * v) (B * y) = w + B * Z.lor v y.
Proof.
  intros w v y [H1 H2]. replace (2 ^ 64 * v) with (v * 2 ^ 64) by ring. replace (2 ^ 64 * y) with (y * 2 ^ 64) by ring.
  replace (2 ^ 64 * Z.lor v y) with (Z.lor v y * 2 ^ 64) by ring.
  rewrite <- (lor_low_high w v 64), <- (lor_low_high w (Z.lor v y) 64) by lia. rewrite <- Z.lor_assoc. f_equal. rewrite <- !Z.shiftl_mul_pow2 by lia. symmetry. apply Z.shiftl_lor.
Qed.
Lemma val_upd_lor : forall l j x, words l -> (j < length l)%nat -> is_w64 x ->
  val (upd l j (Z.lor (nth j l 0) x)) = Z.lor (val l) (x * B ^ Z.of_nat j) /\ words (upd l j (Z.lor (nth j l 0) x)).
Proof.
  induction l as [|w l IH]; intros j x W L X; [cbn in L; lia|]. inversion W; subst. destruct j as [|j].
  - cbn [upd nth]. rewrite !val_cons. change (Z.of_nat 0) with 0. rewrite Z.pow_0_r, Z.mul_1_r. split.
    + destruct H1 as [A1 A2], X as [X1 X2]. pose proof (lor_bound w x 64 ltac:(lia) ltac:(lia) ltac:(lia)) as LB.
      replace (2 ^ 64 * val l) with (val l * 2 ^ 64) by ring.
      rewrite <- (lor_low_high w (val l) 64), <- (lor_low_high (Z.lor w x) (val l) 64) by lia. rewrite <- !Z.lor_assoc. f_equal. apply Z.lor_comm.
    + constructor; [|exact H2]. destruct H1 as [A1 A2], X as [X1 X2]. apply lor_bound; lia.
  - cbn [upd nth]. cbn [length] in L. destruct (IH j x H2 ltac:(lia) X) as [E Wd]. rewrite !val_cons, E. split; [|constructor; assumption].
    rewrite Nat2Z.inj_succ, Z.pow_succ_r by lia. replace (x * (B * B ^ Z.of_nat j)) with (B * (x * B ^ Z.of_nat j)) by ring.
    symmetry. apply lor_step. exact H1.
Qed.
Lemma pow_split : forall i, 256 ^ Z.of_nat i = 2 ^ (8 * Z.of_nat (i mod 8)) * B ^ Z.of_nat (i / 8).
Proof.
  intros i. change 256 with (2 ^ 8). rewrite <- !Z.pow_mul_r by lia. rewrite <- Z.pow_add_r by lia. f_equal.
  pose proof (Nat.div_mod i 8 ltac:(lia)). lia.
Qed.
Lemma orByte_ok : forall l i b, words l -> (i / 8 < length l)%nat -> 0 <= b < 256 ->
  val (orByte l i b) = Z.lor (val l) (b * 256 ^ Z.of_nat i) /\ words (orByte l i b) /\ length (orByte l i b) = length l.
Proof.
  intros l i b W L Hb. unfold orByte. set (k := 8 * Z.of_nat (i mod 8)).
  assert (HK : 0 <= k <= 56) by (unfold k; pose proof (Nat.mod_upper_bound i 8 ltac:(lia)); lia).
  assert (S : is_w64 (Z.shiftl b k)).
  { rewrite Z.shiftl_mul_pow2 by lia. unfold is_w64. split; [apply Z.mul_nonneg_nonneg; [lia|apply Z.pow_nonneg; lia]|].
    apply Z.le_lt_trans with (255 * 2 ^ k); [apply Z.mul_le_mono_nonneg_r; [apply Z.pow_nonneg; lia|lia]|].
    apply Z.le_lt_trans with (255 * 2 ^ 56); [apply Z.mul_le_mono_nonneg_l; [lia|apply Z.pow_le_mono_r; lia]|]. reflexivity. }
  rewrite (Z.mod_small (Z.shiftl b k)) by exact S.
  destruct (val_upd_lor l (i / 8) _ W L S) as [E Wd]. split; [|split; [exact Wd|apply upd_length]].
  rewrite E. f_equal. rewrite Z.shiftl_mul_pow2 by lia. rewrite (pow_split i). fold k. ring.
Qed.
Lemma firstn_S_nth : forall (A : Type) n (l : list A) d, (n < length l)%nat -> firstn (S n) l = firstn n l ++ [nth n l d].
Proof.
  induction n; intros l d H; destruct l; cbn [length] in H; try lia; [reflexivity|].
  cbn [firstn nth app]. f_equal. apply IHn. lia.
Qed.
Lemma dec_firstn_S : forall n l, bytes l -> (n < length l)%nat ->
  le_dec (firstn (S n) l) = Z.lor (le_dec (firstn n l)) (nth n l 0 * 256 ^ Z.of_nat n).
Proof.
  intros n l Hb L. rewrite (firstn_S_nth _ n l 0 L), le_dec_app. cbn [le_dec]. rewrite firstn_length, Nat.min_l by lia.
  pose proof (le_dec_bound (firstn n l) (Forall_firstn _ _ n l Hb)) as BD. rewrite firstn_length, Nat.min_l in BD by lia.
  replace 256 with (2 ^ 8) in * by reflexivity. rewrite <- !Z.pow_mul_r in * by lia. rewrite lor_low_high by lia. ring.
Qed.
Definition orBytes (a : list Z) (input : list Z) (n : nat) : list Z := fold_left (fun a i => orByte a i (nth i input 0)) (seq 0 n) a.
Lemma orBytes_ok : forall input n a, words a -> (n <= 8 * length a)%nat -> bytes input -> (n <= length input)%nat ->
  val (orBytes a input n) = Z.lor (val a) (le_dec (firstn n input)) /\ words (orBytes a input n) /\ length (orBytes a input n) = length a.
Proof.
  intros input. induction n; intros a W L Hb LI; unfold orBytes.
  - cbn [seq fold_left firstn le_dec]. rewrite Z.lor_0_r. auto.
  - rewrite seq_S, fold_left_app. cbn [fold_left Nat.add]. fold (orBytes a input n).
    destruct (IHn a W ltac:(lia) Hb ltac:(lia)) as (E & W1 & L1).
    destruct (orByte_ok (orBytes a input n) n (nth n input 0) W1) as (E2 & W2 & L2).
    + rewrite L1. apply Nat.div_lt_upper_bound; lia.
    + unfold bytes in Hb. rewrite Forall_forall in Hb. apply Hb. apply nth_In. lia.
    + rewrite E2, E, dec_firstn_S by (assumption || lia). rewrite Z.lor_assoc. rewrite L2. auto.
Qed.
Lemma fold_pair : forall (A C : Type) (f g : A -> C -> A) l x y,
  fold_left (fun '(a, b) i => (f a i, g b i)) l (x, y) = (fold_left f l x, fold_left g l y).
Proof. induction l; intros; cbn [fold_left]; [reflexivity|]. apply IHl. Qed.
Lemma orBytes_skip : forall a input k n, fold_left (fun a i => orByte a i (nth (i + k) input 0)) (seq 0 n) a = orBytes a (skipn k input) n.
Proof.
  intros. unfold orBytes. generalize (seq 0 n). intros l. revert a. induction l; intros; cbn [fold_left]; [reflexivity|].
  rewrite IHl. f_equal. f_equal. rewrite nth_skipn'. f_equal. lia.
Qed.
(* BytesToFp2 ORs the two little-endian integers into the words already there *)
Lemma BytesToFp2_ok : forall x input bl, 0 <= bl -> words (fst x) -> words (snd x) ->
  (Z.to_nat bl <= 8 * length (fst x))%nat -> (Z.to_nat bl <= 8 * length (snd x))%nat -> bytes input -> 2 * bl <= Z.of_nat (length input) ->
  exists y, BytesToFp2 x input bl = Ret y /\
    words (fst y) /\ length (fst y) = length (fst x) /\ val (fst y) = Z.lor (val (fst x)) (le_dec (firstn (Z.to_nat bl) input)) /\
    words (snd y) /\ length (snd y) = length (snd x) /\ val (snd y) = Z.lor (val (snd x)) (le_dec (firstn (Z.to_nat bl) (skipn (Z.to_nat bl) input))).
Proof.
  intros [a b] input bl H0 W1 W2 L1 L2 Hb LI. cbn [fst snd] in *. unfold BytesToFp2.
  replace (Z.of_nat (length input) <? 2 * bl) with false by (symmetry; apply Z.ltb_ge; lia).
  rewrite (fold_pair _ _ (fun a i => orByte a i (nth i input 0)) (fun b i => orByte b i (nth (i + Z.to_nat bl) input 0))).
  fold (orBytes a input (Z.to_nat bl)). rewrite orBytes_skip. eexists. split; [reflexivity|]. cbn [fst snd].
  destruct (orBytes_ok input (Z.to_nat bl) a W1 L1 Hb ltac:(lia)) as (E1 & E2 & E3).
  destruct (orBytes_ok (skipn (Z.to_nat bl) input) (Z.to_nat bl) b W2 L2 (Forall_skipn _ _ _ _ Hb)) as (E4 & E5 & E6).
  { rewrite skipn_length. lia. }
  tauto.
Qed.

Lemma nth_val : forall l j, words l -> (j < length l)%nat -> nth j l 0 = (val l / B ^ Z.of_nat j) mod B.
Proof.
  induction l as [|w l IH]; intros j W L; [cbn in L; lia|]. inversion W; subst. rewrite val_cons. destruct j.
  - change (Z.of_nat 0) with 0. rewrite Z.pow_0_r, Z.div_1_r. cbn [nth]. rewrite Z.add_comm, Z.mul_comm, Z.add_comm, Z.mod_add by (pose proof B_pos; lia).
    symmetry. apply Z.mod_small. exact H1.
  - cbn [nth length] in *. rewrite (IH j H2) by lia. rewrite Nat2Z.inj_succ, Z.pow_succ_r by lia.
    pose proof B_pos. assert (0 < B ^ Z.of_nat j) by (apply Z.pow_pos_nonneg; lia).
    rewrite <- Z.div_div by lia. f_equal. f_equal. replace (w + B * val l) with (w + val l * B) by ring.
    rewrite Z.div_add by lia. rewrite (Z.div_small w B) by exact H1. reflexivity.
Qed.
Lemma fpByte_ok : forall a i, words a -> (i / 8 < length a)%nat -> fpByte a i = (val a / 256 ^ Z.of_nat i) mod 256.
Proof.
  intros a i W L. unfold fpByte. rewrite (nth_val a _ W L). set (k := Z.of_nat (i mod 8)). assert (HK : 0 <= k < 8) by (unfold k; pose proof (Nat.mod_upper_bound i 8 ltac:(lia)); lia).
  rewrite Z.shiftr_div_pow2 by lia. rewrite (pow_split i). fold k. assert (0 < 2 ^ (8 * k)) by (apply Z.pow_pos_nonneg; lia).
  pose proof B_pos. assert (0 < B ^ Z.of_nat (i / 8)) by (apply Z.pow_pos_nonneg; lia).
  rewrite (Z.mul_comm (2 ^ (8 * k))). rewrite <- Z.div_div by lia. set (v := val a / B ^ Z.of_nat (i / 8)).
  replace (2 ^ 64) with (2 ^ (8 * k) * (2 ^ (56 - 8 * k) * 256)).
  2:{ change 256 with (2 ^ 8). rewrite <- !Z.pow_add_r by lia. f_equal. lia. }
  assert (0 < 2 ^ (56 - 8 * k)) by (apply Z.pow_pos_nonneg; lia).
  rewrite Z.rem_mul_r by lia.
  rewrite Z.add_comm, (Z.mul_comm (2 ^ (8 * k))), Z.div_add_l by lia. rewrite (Z.div_small (v mod _)) by (apply Z.mod_pos_bound; lia). rewrite Z.add_0_r.
  symmetry. rewrite (Z.mul_comm (2 ^ _) 256).
  rewrite Z.rem_mul_r by lia. rewrite (Z.mul_comm 256 ((_ / 256) mod _)), Z.mod_add by lia. rewrite Z.mod_mod by lia. reflexivity.
Qed.
Lemma fpToBytes_ok : forall a bl, words a -> (Z.to_nat bl <= 8 * length a)%nat -> fpToBytes a bl = le_enc (Z.to_nat bl) (val a).
Proof.
  intros a bl W L. unfold fpToBytes. apply list_eq_nth; [rewrite map_length, seq_length, le_enc_length; reflexivity|].
  intros i Hi. rewrite map_length, seq_length in Hi. rewrite le_enc_nth by exact Hi.
  rewrite (nth_indep _ 0 (fpByte a 0)) by (rewrite map_length, seq_length; exact Hi). rewrite map_nth, seq_nth by exact Hi.
  apply fpByte_ok; [exact W|]. apply Nat.div_lt_upper_bound; lia.
Qed.
(* Fp2ToBytes writes the two little-endian integers, and nothing behind them *)
Lemma Fp2ToBytes_ok : forall out x bl, words (fst x) -> words (snd x) ->
  (Z.to_nat bl <= 8 * length (fst x))%nat -> (Z.to_nat bl <= 8 * length (snd x))%nat -> 2 * bl <= Z.of_nat (length out) ->
  Fp2ToBytes out x bl = Ret (le_enc (Z.to_nat bl) (val (fst x)) ++ le_enc (Z.to_nat bl) (val (snd x)) ++ skipn (Z.to_nat (2 * bl)) out).
Proof.
  intros out x bl W1 W2 L1 L2 LO. unfold Fp2ToBytes. replace (Z.of_nat (length out) <? 2 * bl) with false by (symmetry; apply Z.ltb_ge; lia).
  rewrite !fpToBytes_ok by assumption. reflexivity.
Qed.
