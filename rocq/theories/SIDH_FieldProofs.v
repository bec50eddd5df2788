(* Correctness of the SIDH prime-field arithmetic over any package constants satisfying field_ok. *)
From Coq Require Import ZArith List Lia Bool Znumtheory.
From Verif Require Import Lib MP NT SIDH_Consts SIDH_Field.
Import ListNotations.
Open Scope Z_scope.

(* ---------- digit sums ---------- *)
Fixpoint bsum (f : nat -> Z) (n : nat) : Z :=
  match n with O => 0 | S k => bsum f k + f k * B ^ Z.of_nat k end.
Fixpoint nsum (f : nat -> Z) (n : nat) : Z :=
  match n with O => 0 | S k => nsum f k + f k end.
Definition conv (a b : nat -> Z) (k : nat) : Z := nsum (fun j => a j * b (k - j)%nat) (S k).

Lemma bsum_ext : forall f g n, (forall k, (k < n)%nat -> f k = g k) -> bsum f n = bsum g n.
Proof. induction n; intros H; [reflexivity|]. cbn [bsum]. rewrite IHn, (H n) by (intros; try apply H; lia). reflexivity. Qed.
Lemma nsum_ext : forall f g n, (forall k, (k < n)%nat -> f k = g k) -> nsum f n = nsum g n.
Proof. induction n; intros H; [reflexivity|]. cbn [nsum]. rewrite IHn, (H n) by (intros; try apply H; lia). reflexivity. Qed.
Lemma nsum_0 : forall f n, (forall k, (k < n)%nat -> f k = 0) -> nsum f n = 0.
Proof. induction n; intros H; [reflexivity|]. cbn [nsum]. rewrite IHn, (H n) by (intros; try apply H; lia). reflexivity. Qed.
Lemma bsum_0 : forall f n, (forall k, (k < n)%nat -> f k = 0) -> bsum f n = 0.
Proof. induction n; intros H; [reflexivity|]. cbn [bsum]. rewrite IHn, (H n) by (intros; try apply H; lia). ring. Qed.
Lemma bsum_add : forall f g n, bsum (fun k => f k + g k) n = bsum f n + bsum g n.
Proof. induction n; [reflexivity|]. cbn [bsum]. rewrite IHn. ring. Qed.
Lemma bsum_scale : forall c f n, bsum (fun k => c * f k) n = c * bsum f n.
Proof. induction n; [cbn; ring|]. cbn [bsum]. rewrite IHn. ring. Qed.
Lemma powB_S : forall n, B ^ Z.of_nat (S n) = B * B ^ Z.of_nat n.
Proof. intros. rewrite Nat2Z.inj_succ, Z.pow_succ_r by lia. reflexivity. Qed.
Lemma bsum_head : forall f n, bsum f (S n) = f 0%nat + B * bsum (fun k => f (S k)) n.
Proof.
  induction n. { cbn. ring. }
  change (bsum f (S (S n))) with (bsum f (S n) + f (S n) * B ^ Z.of_nat (S n)). rewrite IHn.
  cbn [bsum]. rewrite powB_S. ring.
Qed.
Lemma nsum_head : forall f n, nsum f (S n) = f 0%nat + nsum (fun k => f (S k)) n.
Proof.
  induction n. { cbn. ring. }
  change (nsum f (S (S n))) with (nsum f (S n) + f (S n)). rewrite IHn. cbn [nsum]. ring.
Qed.
Lemma bsum_more : forall f n m, (forall k, (n <= k)%nat -> f k = 0) -> (n <= m)%nat -> bsum f m = bsum f n.
Proof.
  intros f n m H. induction m; intros L.
  - assert (n = 0)%nat as -> by lia. reflexivity.
  - destruct (Nat.eq_dec n (S m)) as [->|]; [reflexivity|]. cbn [bsum]. rewrite (H m), IHm by lia. ring.
Qed.
Lemma bsum_app : forall f n m, bsum f (n + m) = bsum f n + B ^ Z.of_nat n * bsum (fun k => f (n + k)%nat) m.
Proof.
  induction m. { rewrite Nat.add_0_r. cbn. ring. }
  rewrite Nat.add_succ_r. cbn [bsum]. rewrite IHm, Nat2Z.inj_add, Z.pow_add_r by lia. ring.
Qed.
Lemma bsum_val : forall l, bsum (fun k => l.[k]) (length l) = val l.
Proof.
  induction l as [|a l IH]; [reflexivity|]. cbn [length]. rewrite bsum_head, val_cons. cbn [nth]. rewrite IH. reflexivity.
Qed.
Lemma nth_over : forall (l : list Z) k, (length l <= k)%nat -> l.[k] = 0.
Proof. intros. apply nth_overflow. assumption. Qed.

Lemma conv_prod : forall na a b nb N, (forall k, (na <= k)%nat -> a k = 0) -> (forall k, (nb <= k)%nat -> b k = 0) ->
  (na + nb <= N + 1)%nat -> bsum (conv a b) N = bsum a na * bsum b nb.
Proof.
  induction na; intros a b nb N Ha Hb L.
  - cbn [bsum]. rewrite bsum_0; [ring|]. intros k _. apply nsum_0. intros j _. rewrite Ha by lia. ring.
  - rewrite bsum_head.
    destruct N as [|N].
    { assert (nb = 0)%nat as -> by lia. cbn. ring. }
    rewrite Z.mul_add_distr_r, <- Z.mul_assoc, <- (IHna (fun k => a (S k)) b nb N).
    2:{ intros; apply Ha; lia. } 2: assumption. 2: lia.
    assert (E : bsum (conv a b) (S N) = bsum (fun k => a 0%nat * b k + match k with O => 0 | S k => conv (fun j => a (S j)) b k end) (S N)).
    { apply bsum_ext. intros k _. unfold conv. rewrite nsum_head, Nat.sub_0_r. destruct k; [cbn; ring|].
      apply f_equal. reflexivity. }
    rewrite E, bsum_add, bsum_scale, (bsum_more b nb (S N)) by (auto; lia).
    f_equal. rewrite bsum_head. cbv beta iota. rewrite Z.add_0_l. reflexivity.
Qed.

Lemma conv_val : forall x y N, (length x + length y <= N + 1)%nat ->
  bsum (conv (fun k => x.[k]) (fun k => y.[k])) N = val x * val y.
Proof.
  intros x y N L. rewrite (conv_prod (length x) _ _ (length y)); auto using nth_over. rewrite !bsum_val. reflexivity.
Qed.

(* ---------- the accumulator ---------- *)
Definition aval (s : Z * Z * Z) : Z := let '(v, u, t) := s in v + B * u + B * B * t.
Definition aok (m : Z) (s : Z * Z * Z) : Prop := let '(v, u, t) := s in is_w64 v /\ is_w64 u /\ 0 <= t <= m.

Lemma Add64_gen : forall x y c s c', is_w64 x -> is_w64 y -> 0 <= c <= 1 -> Add64 x y c = (s, c') ->
  s + B * c' = x + y + c /\ is_w64 s /\ 0 <= c' <= 1.
Proof. exact Add64_spec. Qed.

Lemma mac_ok : forall m s a b, aok m s -> m < B - 1 -> is_w64 a -> is_w64 b ->
  aok (m + 1) (mac s a b) /\ aval (mac s a b) = aval s + a * b.
Proof.
  intros m [[v u] t] a b (Hv & Hu & Ht) Hm Ha Hb. unfold mac.
  destruct (Mul64 a b) as [hi lo] eqn:E0. apply Mul64_spec in E0; auto. destruct E0 as (E0 & Hlo & Hhi).
  destruct (Add64 lo v 0) as [v' c] eqn:E1. apply Add64_spec in E1; auto; try lia. destruct E1 as (E1 & Hv' & Hc).
  assert (is_w64 hi) by (unfold is_w64; lia).
  destruct (Add64 hi u c) as [u' c'] eqn:E2. apply Add64_spec in E2; auto; try lia. destruct E2 as (E2 & Hu' & Hc').
  assert (Et : add64w t c' = t + c') by (apply Z.mod_small; lia).
  rewrite Et. split; [unfold aok, is_w64 in *; lia|]. unfold aval. clear - E0 E1 E2. lia.
Qed.
Lemma accw_ok : forall m s w, aok m s -> m < B - 1 -> is_w64 w ->
  aok (m + 1) (accw s w) /\ aval (accw s w) = aval s + w.
Proof.
  intros m [[v u] t] w (Hv & Hu & Ht) Hm Hw. unfold accw.
  destruct (Add64 v w 0) as [v' c] eqn:E1. apply Add64_spec in E1; auto; try lia. destruct E1 as (E1 & Hv' & Hc).
  assert (is_w64 0) by (unfold is_w64; lia).
  destruct (Add64 u 0 c) as [u' c'] eqn:E2. apply Add64_spec in E2; auto; try lia. destruct E2 as (E2 & Hu' & Hc').
  assert (Et : add64w t c' = t + c') by (apply Z.mod_small; lia).
  rewrite Et. split; [unfold aok, is_w64 in *; lia|]. unfold aval. clear - E1 E2. lia.
Qed.

Definition lsum (f : nat -> Z) (js : list nat) : Z := fold_right (fun j a => f j + a) 0 js.
Lemma lsum_ext : forall f g js, (forall j, In j js -> f j = g j) -> lsum f js = lsum g js.
Proof. induction js; intros H; [reflexivity|]. cbn. rewrite H by (left; auto). f_equal. apply IHjs. intros; apply H; right; auto. Qed.
Lemma lsum_seq : forall f lo m, lsum f (seq lo m) = nsum (fun j => f (lo + j)%nat) m.
Proof.
  intros f lo m. revert lo. induction m; intros; [reflexivity|].
  cbn [seq lsum fold_right]. rewrite nsum_head, Nat.add_0_r. f_equal.
  change (lsum f (seq (S lo) m) = nsum (fun k => f (lo + S k)%nat) m). rewrite IHm. apply nsum_ext. intros. f_equal. lia.
Qed.

Lemma col_ok : forall cond x y i js m s, aok m s -> m + Z.of_nat (length js) < B ->
  (forall j, is_w64 x.[j]) -> (forall j, is_w64 y.[j]) ->
  aok (m + Z.of_nat (length js)) (col cond x y i js s) /\
  aval (col cond x y i js s) = aval s + lsum (fun j => if cond j then x.[j] * y.[i - j] else 0) js.
Proof.
  intros cond x y i. unfold col. induction js as [|j js IH]; intros m s Hs Hm Hx Hy.
  { cbn. rewrite Z.add_0_r. split; [|ring]. replace (m + 0) with m by ring. assumption. }
  cbn [fold_left length lsum fold_right] in *. rewrite Nat2Z.inj_succ in *.
  destruct (cond j).
  - destruct (mac_ok m s x.[j] y.[i - j] Hs ltac:(lia) (Hx _) (Hy _)) as [O E].
    destruct (IH (m + 1) _ O ltac:(lia) Hx Hy) as [O' E'].
    split; [replace (m + Z.succ (Z.of_nat (length js))) with (m + 1 + Z.of_nat (length js)) by lia; exact O'|].
    rewrite E', E. unfold lsum. ring.
  - destruct (IH m s Hs ltac:(lia) Hx Hy) as [O' E'].
    split; [|rewrite E'; unfold lsum; ring].
    destruct (fold_left _ js s) as [[? ?] ?]. unfold aok, is_w64 in *. lia.
Qed.

Lemma words_nth : forall x j, words x -> is_w64 x.[j].
Proof.
  intros x j H. destruct (Nat.lt_ge_cases j (length x)).
  - unfold words in H. rewrite Forall_forall in H. apply H. apply nth_In. assumption.
  - rewrite nth_over by assumption. unfold is_w64. lia.
Qed.

(* a column of a full product: all j in [lo, hi) with both digits in range *)
Lemma nsum_split : forall f a b, nsum f (a + b) = nsum f a + nsum (fun j => f (a + j)%nat) b.
Proof. induction b. { rewrite Nat.add_0_r. cbn. ring. } rewrite Nat.add_succ_r. cbn [nsum]. rewrite IHb. ring. Qed.
Lemma conv_col : forall x y i lo m, (lo + m <= S i)%nat ->
  (forall j, (j < lo)%nat -> x.[j] * y.[i - j] = 0) -> (forall j, (lo + m <= j <= i)%nat -> x.[j] * y.[i - j] = 0) ->
  lsum (fun j => x.[j] * y.[i - j]) (seq lo m) = conv (fun k => x.[k]) (fun k => y.[k]) i.
Proof.
  intros x y i lo m L H1 H2. rewrite lsum_seq. unfold conv. replace (S i) with (lo + (m + (S i - lo - m)))%nat by lia.
  rewrite nsum_split, nsum_split, (nsum_0 _ lo) by auto.
  rewrite (nsum_0 (fun j => _) (S i - lo - m)); [ring|]. intros k Hk. apply H2. lia.
Qed.

Lemma words_app : forall a b, words a -> words b -> words (a ++ b).
Proof. intros. apply Forall_app. auto. Qed.
Lemma aok_shift : forall m v u t, m < B -> aok m (v, u, t) -> aok 0 (u, t, 0) /\ B * aval (u, t, 0) + v = aval (v, u, t).
Proof. intros m v u t M (H1 & H2 & H3). unfold aok, aval, is_w64 in *. repeat split; try lia. Qed.

(* ---------- multiplication ---------- *)
Lemma mul_step_ok : forall lo hi x y N, words x -> words y -> Z.of_nat N < B - 1 ->
  forall i z s, aok 0 s -> (hi i - lo i <= N)%nat -> words z -> length z = i ->
  val z + B ^ Z.of_nat i * aval s = bsum (conv (fun k => x.[k]) (fun k => y.[k])) i ->
  (lo i <= hi i <= S i)%nat ->
  (forall j, (j < lo i)%nat -> x.[j] * y.[i - j] = 0) ->
  (forall j, (hi i <= j <= i)%nat -> x.[j] * y.[i - j] = 0) ->
  let '(z', s') := mul_step lo hi x y (z, s) i in
  words z' /\ length z' = S i /\ aok 0 s' /\
  val z' + B ^ Z.of_nat (S i) * aval s' = bsum (conv (fun k => x.[k]) (fun k => y.[k])) (S i).
Proof.
  intros lo hi x y N Hx Hy HN i z s Hs HM Hz Lz E L H1 H2. unfold mul_step.
  pose proof (col_ok (fun _ => true) x y i (seq (lo i) (hi i - lo i)) 0 s Hs ltac:(rewrite seq_length; lia)
                (fun j => words_nth x j Hx) (fun j => words_nth y j Hy)) as [O A].
  destruct (col _ x y i _ s) as [[v u] t]. rewrite seq_length in O.
  change (lsum _ _) with (lsum (fun j => x.[j] * y.[i - j]) (seq (lo i) (hi i - lo i))) in A.
  assert (CC := conv_col x y i (lo i) (hi i - lo i) ltac:(lia) H1 ltac:(intros; apply H2; lia)). rewrite CC in A.
  assert (ML : 0 + Z.of_nat (hi i - lo i) < B) by lia. destruct (aok_shift _ _ _ _ ML O) as [O' S'].
  repeat split.
  - apply words_app; auto. constructor; [apply O|constructor].
  - rewrite app_length, Lz. cbn. lia.
  - apply O'.
  - apply O'.
  - apply O'.
  - apply O'.
  - apply O'.
  - apply O'.
  - rewrite val_app, Lz, powB_S. cbn [bsum]. rewrite <- E.
    change (val [v]) with (v + B * 0). rewrite <- S' in A. nia.
Qed.

Definition mul_inv (x y : list Z) (i : nat) (st : list Z * (Z * Z * Z)) : Prop :=
  let '(z, s) := st in
  words z /\ length z = i /\ aok 0 s /\
  val z + B ^ Z.of_nat i * aval s = bsum (conv (fun k => x.[k]) (fun k => y.[k])) i.
Definition col_cond (x y : list Z) (lo hi : nat -> nat) (N i : nat) : Prop :=
  (hi i - lo i <= N)%nat /\ (lo i <= hi i <= S i)%nat /\
  (forall j, (j < lo i)%nat -> x.[j] * y.[i - j] = 0) /\
  (forall j, (hi i <= j <= i)%nat -> x.[j] * y.[i - j] = 0).
Lemma mul_fold : forall lo hi x y N m a st, words x -> words y -> Z.of_nat N < B - 1 ->
  (forall i, (a <= i < a + m)%nat -> col_cond x y lo hi N i) ->
  mul_inv x y a st -> mul_inv x y (a + m) (fold_left (mul_step lo hi x y) (seq a m) st).
Proof.
  intros lo hi x y N m. induction m; intros a st Hx Hy HN HC HI.
  { rewrite Nat.add_0_r. assumption. }
  cbn [seq fold_left]. replace (a + S m)%nat with (S a + m)%nat by lia.
  apply IHm; auto. { intros; apply HC; lia. }
  destruct st as [z s]. destruct HI as (I1 & I2 & I3 & I4).
  destruct (HC a ltac:(lia)) as (C1 & C2 & C3 & C4).
  pose proof (mul_step_ok lo hi x y N Hx Hy HN a z s I3 C1 I1 I2 I4 C2 C3 C4) as M.
  destruct (mul_step lo hi x y (z, s) a) as [z' s']. exact M.
Qed.

Lemma mulPx_spec : forall F x y, words x -> words y -> length x = FpWords F -> length y = FpWords F ->
  (1 <= FpWords F)%nat -> Z.of_nat (FpWords F) < 2 ^ 32 ->
  words (mulPx F x y) /\ length (mulPx F x y) = (2 * FpWords F)%nat /\ val (mulPx F x y) = val x * val y.
Proof.
  intros F x y Hx Hy Lx Ly N1 N2. set (n := FpWords F) in *. unfold mulPx. fold n.
  assert (I0 : mul_inv x y 0 ([], (0, 0, 0))).
  { cbn. unfold is_w64. repeat split; try lia. constructor. }
  assert (HN : Z.of_nat n < B - 1) by lia.
  pose proof (mul_fold (fun _ => 0%nat) (fun i => (i + 1)%nat) x y n n 0 _ Hx Hy HN ltac:(
    intros i Hi; repeat split; try lia; intros; try lia) I0) as I1.
  rewrite Nat.add_0_l in I1.
  pose proof (mul_fold (fun i => (i - n + 1)%nat) (fun _ => n) x y n (n - 1) n _ Hx Hy HN ltac:(
    intros i Hi; repeat split; try lia; intros j Hj;
    [rewrite (nth_over y) by lia; ring | rewrite (nth_over x) by lia; ring]) I1) as I2.
  destruct (fold_left (mul_step (fun i => (i - n + 1)%nat) (fun _ => n) x y) (seq n (n - 1)) _) as [z [[v u] t]].
  destruct I2 as (Wz & Lz & (Hv & Hu & Ht) & E).
  rewrite (conv_val x y) in E by lia. assert (t = 0) by lia. subst t.
  assert (BX := val_bound x Hx). assert (BY := val_bound y Hy). assert (BZ := val_bound z Wz).
  rewrite Lx in BX. rewrite Ly in BY. rewrite Lz in BZ.
  set (P := B ^ Z.of_nat n) in *.
  assert (PP : P * P = B * B ^ Z.of_nat (n + (n - 1))).
  { unfold P. rewrite <- Z.pow_add_r by lia. rewrite <- (Z.pow_succ_r B) by lia. f_equal. lia. }
  set (Q := B ^ Z.of_nat (n + (n - 1))) in *.
  assert (Q1 : 0 < Q) by (apply Z.pow_pos_nonneg; lia).
  unfold aval in E. unfold is_w64 in Hv, Hu.
  assert (val x * val y < P * P) by nia.
  assert (U0 : u = 0).
  { destruct (Z.eq_dec u 0); [assumption|]. exfalso. assert (B <= v + B * u + B * B * 0) by lia.
    assert (Q * B <= Q * (v + B * u + B * B * 0)) by (apply Z.mul_le_mono_nonneg_l; lia). lia. }
  subst u. repeat split.
  - apply words_app; auto. constructor; [exact Hv|constructor].
  - rewrite app_length, Lz. cbn. lia.
  - rewrite val_app, Lz. change (val [v]) with (v + B * 0). fold Q. rewrite <- E. ring.
Qed.

(* ---------- Montgomery reduction ---------- *)
Lemma nth_upd : forall l i v j, (i < length l)%nat -> (upd l i v).[j] = if Nat.eqb j i then v else l.[j].
Proof.
  intros. destruct (Nat.eqb_spec j i) as [->|]; [apply upd_nth_same; assumption | apply upd_nth_other; auto].
Qed.
Lemma words_upd : forall l i v, words l -> is_w64 v -> words (upd l i v).
Proof.
  induction l as [|a l IH]; intros i v H Hv; [exact H|]. inversion H; subst.
  destruct i; cbn [upd]; constructor; auto. apply IH; auto.
Qed.
Lemma aok_shift_w : forall m s, m < B -> aok m s ->
  let '(v, u, t) := s in is_w64 v /\ aok 0 (u, t, 0) /\ v + B * aval (u, t, 0) = aval s.
Proof.
  intros m [[v u] t] M H. destruct (aok_shift m v u t M H) as [A E]. split; [apply H|]. split; [exact A|]. lia.
Qed.

Section Rdc.
  Variable F : fieldParams.
  Notation n := (FpWords F).
  Notation p1 := (fPp1 F).
  Hypothesis n1 : (1 <= n)%nat.
  Hypothesis n2 : Z.of_nat n < 2 ^ 32.
  Hypothesis W1 : words p1.
  Hypothesis L1 : length p1 = n.
  Hypothesis z1 : 1 <= fp1Zeros F.
  Hypothesis Z1 : forall j, Z.of_nat j < fp1Zeros F -> p1.[j] = 0.
  Variable x : list Z.
  Hypothesis Wx : words x.

  Definition cz (z : list Z) := conv (fun k => z.[k]) (fun k => p1.[k]).
  Lemma cz_upd : forall z i v k, (k <= i)%nat -> (i < length z)%nat -> cz (upd z i v) k = cz z k.
  Proof.
    intros z i v k K L. unfold cz, conv. apply nsum_ext. intros j Hj. rewrite nth_upd by assumption.
    destruct (Nat.eqb_spec j i) as [->|]; [|reflexivity]. replace (k - i)%nat with 0%nat by lia.
    rewrite (Z1 0) by (cbn; lia). ring.
  Qed.
  Definition inv1 (i : nat) (st : list Z * (Z * Z * Z)) : Prop :=
    let '(z, s) := st in
    words z /\ length z = n /\ aok 0 s /\
    bsum (fun k => z.[k]) i + B ^ Z.of_nat i * aval s = bsum (fun k => cz z k + x.[k]) i.

  Lemma rdc_step1_ok : forall i st, (i < n)%nat -> inv1 i st -> inv1 (S i) (rdc_step1 F x st i).
  Proof.
    intros i [z s] Hi (Wz & Lz & Hs & E). unfold rdc_step1.
    pose proof (col_ok (fun j => Z.of_nat j <? Z.of_nat i - fp1Zeros F + 1) z p1 i (seq 0 i) 0 s Hs
      ltac:(rewrite seq_length; lia) (fun j => words_nth z j Wz) (fun j => words_nth p1 j W1)) as [O A].
    rewrite seq_length in O.
    rewrite (lsum_ext _ (fun j => z.[j] * p1.[i - j])) in A.
    2:{ intros j Hj. apply in_seq in Hj. destruct (Z.ltb_spec (Z.of_nat j) (Z.of_nat i - fp1Zeros F + 1)); [reflexivity|].
        rewrite (Z1 (i - j)%nat) by lia. ring. }
    rewrite (conv_col z p1 i 0 i) in A; [|lia|intros; lia|].
    2:{ intros j Hj. assert (j = i) by lia. subst j. rewrite Nat.sub_diag, (Z1 0) by (cbn; lia). ring. }
    fold (cz z i) in A.
    set (s1 := col _ _ _ _ _ _) in *.
    destruct (accw_ok _ s1 x.[i] O ltac:(lia) (words_nth x i Wx)) as [O2 A2].
    destruct (accw s1 x.[i]) as [[v u] t].
    destruct (aok_shift_w _ _ ltac:(clear - n2 Hi; instantiate (1 := 0 + Z.of_nat i + 1); lia) O2) as (Hv & O3 & S3).
    repeat split; try apply O3.
    - apply words_upd; auto.
    - rewrite upd_length. assumption.
    - cbn [bsum]. rewrite nth_upd, Nat.eqb_refl by lia.
      rewrite (bsum_ext _ (fun k => z.[k]) i).
      2:{ intros k Hk. rewrite nth_upd by lia. destruct (Nat.eqb_spec k i); [lia|reflexivity]. }
      rewrite (bsum_ext (fun k => cz (upd z i v) k + x.[k]) (fun k => cz z k + x.[k]) i).
      2:{ intros k Hk. rewrite cz_upd by lia. reflexivity. }
      rewrite cz_upd by lia. rewrite <- E, powB_S. rewrite A2, A in S3.
      replace (cz z i + x.[i]) with (v + B * aval (u, t, 0) - aval s) by lia. ring.
  Qed.

  Variable q : list Z.
  Hypothesis Lq : length q = n.
  Definition inv2 (k : nat) (st : list Z * (Z * Z * Z) * Z) : Prop :=
    let '(z, s, count) := st in
    words z /\ length z = n /\ aok 0 s /\ count = Z.max 0 (fp1Zeros F - Z.of_nat k) /\
    (forall j, (k <= j)%nat -> z.[j] = q.[j]) /\
    val q + B ^ Z.of_nat n * bsum (fun k => z.[k]) k + B ^ Z.of_nat (n + k) * aval s =
    bsum (fun k => cz q k + x.[k]) (n + k).

  Lemma rdc_step2_ok : forall k st, (k < n - 1)%nat -> inv2 k st -> inv2 (S k) (rdc_step2 F x st (n + k)).
  Proof.
    intros k [[z s] count] Hk (Wz & Lz & Hs & Hc & Hz & E). unfold rdc_step2.
    replace (n + k - n)%nat with k by lia.
    set (cnt := if 0 <? count then count - 1 else count).
    assert (Hcnt : cnt = Z.max 0 (fp1Zeros F - Z.of_nat (S k))).
    { unfold cnt. destruct (Z.ltb_spec 0 count); lia. }
    set (m := (n - (k + 1))%nat).
    pose proof (col_ok (fun j => Z.of_nat j <? Z.of_nat n - cnt) z p1 (n + k) (seq (k + 1) m) 0 s Hs
      ltac:(rewrite seq_length; lia) (fun j => words_nth z j Wz) (fun j => words_nth p1 j W1)) as [O A].
    rewrite seq_length in O.
    rewrite (lsum_ext _ (fun j => q.[j] * p1.[n + k - j])) in A.
    2:{ intros j Hj. apply in_seq in Hj. rewrite Hz by lia.
        destruct (Z.ltb_spec (Z.of_nat j) (Z.of_nat n - cnt)); [reflexivity|].
        rewrite (Z1 (n + k - j)%nat) by lia. ring. }
    rewrite (conv_col q p1 (n + k) (k + 1) m) in A; [|lia| |].
    2:{ intros j Hj. rewrite (nth_over p1) by lia. ring. }
    2:{ intros j Hj. rewrite (nth_over q) by lia. ring. }
    fold (cz q (n + k)) in A.
    set (s1 := col _ _ _ _ _ _) in *.
    destruct (accw_ok _ s1 x.[n + k] O ltac:(lia) (words_nth x (n + k) Wx)) as [O2 A2].
    destruct (accw s1 x.[n + k]) as [[v u] t].
    destruct (aok_shift_w _ _ ltac:(clear - n2 Hk; instantiate (1 := 0 + Z.of_nat m + 1); lia) O2) as (Hv & O3 & S3).
    repeat split; try apply O3.
    - apply words_upd; auto.
    - rewrite upd_length. assumption.
    - exact Hcnt.
    - intros j Hj. rewrite nth_upd by lia. destruct (Nat.eqb_spec j k); [lia|]. apply Hz. lia.
    - rewrite Nat.add_succ_r. cbn [bsum]. rewrite <- E, nth_upd, Nat.eqb_refl by lia.
      rewrite (bsum_ext (fun k0 => (upd z k v).[k0]) (fun k => z.[k]) k).
      2:{ intros j Hj. rewrite nth_upd by lia. destruct (Nat.eqb_spec j k); [lia|reflexivity]. }
      rewrite A2, A in S3. replace (cz q (n + k) + x.[n + k]) with (v + B * aval (u, t, 0) - aval s) by lia.
      rewrite powB_S, Nat2Z.inj_add, Z.pow_add_r by lia. ring.
  Qed.
End Rdc.

(* ---------- requirements on the package constants ---------- *)
Record field_ok (F : fieldParams) (p : Z) : Prop := {
  fo_n1 : (1 <= FpWords F)%nat;
  fo_n2 : Z.of_nat (FpWords F) < 2 ^ 32;
  fo_P : words (fP F) /\ length (fP F) = FpWords F /\ val (fP F) = p;
  fo_Px2 : words (fPx2 F) /\ length (fPx2 F) = FpWords F /\ val (fPx2 F) = 2 * p;
  fo_Pp1 : words (fPp1 F) /\ length (fPp1 F) = FpWords F /\ val (fPp1 F) = p + 1;
  fo_R2 : words (fR2 F) /\ length (fR2 F) = FpWords F /\ val (fR2 F) = B ^ Z.of_nat (FpWords F) * B ^ Z.of_nat (FpWords F) mod p;
  fo_z1 : 1 <= fp1Zeros F;
  fo_Z1 : forall j, Z.of_nat j < fp1Zeros F -> (fPp1 F).[j] = 0;
  fo_R : 16 * p <= B ^ Z.of_nat (FpWords F);
  fo_prime : prime p;
  fo_34 : p mod 4 = 3
}.

Lemma rdc_arith : forall R p X q o, 0 < R -> 0 < p -> 0 <= q < R -> 0 <= X < p * R -> R * o = X + q * p -> 0 <= o < 2 * p.
Proof. intros. nia. Qed.

Section Fp.
  Variable F : fieldParams.
  Variable p : Z.
  Hypothesis OK : field_ok F p.
  Notation n := (FpWords F).
  Notation R := (B ^ Z.of_nat n).

  Lemma p_pos : 3 <= p.
  Proof. pose proof (fo_34 _ _ OK). pose proof (prime_ge_2 p (fo_prime _ _ OK)). destruct (Z.eq_dec p 2) as [->|]; [discriminate H|lia]. Qed.
  Lemma R_pos : 0 < R. Proof. apply Z.pow_pos_nonneg; lia. Qed.

  Lemma R_coprime : rel_prime R p.
  Proof.
    apply rel_prime_sym. apply prime_rel_prime; [exact (fo_prime _ _ OK)|]. intros D.
    assert (forall m, (p | 2 ^ Z.of_nat m) -> False).
    { induction m; intros Dm.
      - apply Z.divide_1_r_nonneg in Dm; pose proof p_pos; lia.
      - rewrite Nat2Z.inj_succ, Z.pow_succ_r in Dm by lia. apply (prime_mult p (fo_prime _ _ OK)) in Dm.
        destruct Dm as [Dm|Dm]; [|auto]. apply Z.divide_pos_le in Dm; pose proof p_pos; lia. }
    apply (H (64 * n)%nat). rewrite Nat2Z.inj_mul, Z.pow_mul_r by lia. exact D.
  Qed.

  Theorem rdcP_spec : forall z0 x, words z0 -> length z0 = n -> words x -> length x = (2 * n)%nat -> val x < p * R ->
    words (rdcP F z0 x) /\ length (rdcP F z0 x) = n /\ val (rdcP F z0 x) < 2 * p /\
    exists q, 0 <= q < R /\ R * val (rdcP F z0 x) = val x + q * p.
  Proof.
    intros z0 x Wz0 Lz0 Wx Lx Hx. pose proof (fo_n1 _ _ OK) as n1. pose proof (fo_n2 _ _ OK) as n2.
    destruct (fo_Pp1 _ _ OK) as (W1 & L1 & V1). pose proof (fo_z1 _ _ OK) as z1. pose proof (fo_Z1 _ _ OK) as Z1.
    pose proof (fo_R _ _ OK) as HR. pose proof p_pos as Pp. pose proof R_pos as Rp.
    unfold rdcP.
    assert (I1 : forall m, (m <= n)%nat -> inv1 F x m (fold_left (rdc_step1 F x) (seq 0 m) (z0, (0, 0, 0)))).
    { induction m; intros Hm.
      - cbn. unfold is_w64. repeat split; auto; lia.
      - rewrite seq_S, fold_left_app. cbn [fold_left]. rewrite Nat.add_0_l. apply rdc_step1_ok; auto. apply IHm. lia. }
    specialize (I1 n ltac:(lia)).
    destruct (fold_left (rdc_step1 F x) (seq 0 n) (z0, (0, 0, 0))) as [q s1].
    destruct I1 as (Wq & Lq & Hs1 & E1).
    assert (I2 : forall m, (m <= n - 1)%nat -> inv2 F x q m (fold_left (rdc_step2 F x) (seq n m) (q, s1, fp1Zeros F))).
    { induction m; intros Hm.
      - cbn [fold_left seq]. split; [exact Wq|]. split; [exact Lq|]. split; [exact Hs1|]. split; [lia|]. split; [reflexivity|].
        rewrite Nat.add_0_r, <- E1, <- (bsum_val q), Lq. cbn [bsum]. ring.
      - rewrite seq_S, fold_left_app. cbn [fold_left]. apply rdc_step2_ok; auto; try lia. apply IHm. lia. }
    specialize (I2 (n - 1)%nat ltac:(lia)).
    destruct (fold_left (rdc_step2 F x) (seq n (n - 1)) (q, s1, fp1Zeros F)) as [[z [[v u] t]] cnt].
    destruct I2 as (Wz & Lz & (Hv & Hu & Ht) & _ & _ & E2).
    assert (t = 0) by lia. subst t.
    assert (EX : bsum (fun k => cz F q k + x.[k]) (n + (n - 1)) = val q * (p + 1) + (val x - x.[2 * n - 1] * B ^ Z.of_nat (n + (n - 1)))).
    { rewrite bsum_add. f_equal.
      - unfold cz. rewrite conv_val by lia. rewrite V1. reflexivity.
      - rewrite <- (bsum_val x), Lx. replace (2 * n)%nat with (S (n + (n - 1))) by lia. cbn [bsum].
        replace (S (n + (n - 1)) - 1)%nat with (n + (n - 1))%nat by lia. ring. }
    rewrite EX in E2. clear EX E1.
    set (w := x.[2 * n - 1]) in *. assert (Hw : is_w64 w) by (apply words_nth; assumption).
    assert (PR : B ^ Z.of_nat (n + (n - 1)) = R * B ^ Z.of_nat (n - 1)) by (rewrite Nat2Z.inj_add, Z.pow_add_r by lia; reflexivity).
    assert (RB : R = B * B ^ Z.of_nat (n - 1)) by (rewrite <- powB_S; f_equal; lia).
    assert (BQ := val_bound q Wq). rewrite Lq in BQ. assert (BX := val_bound x Wx).
    set (T := B ^ Z.of_nat (n - 1)) in *. assert (T0 : 0 < T) by (apply Z.pow_pos_nonneg; lia).
    set (Sz := bsum (fun k => z.[k]) (n - 1)) in *.
    assert (HSz : 0 <= Sz).
    { unfold Sz. clear - Wz. generalize (n - 1)%nat as m. induction m; cbn [bsum]; [lia|].
      assert (0 <= z.[m]) by apply (words_nth z m Wz). assert (0 <= B ^ Z.of_nat m) by (apply Z.pow_nonneg; lia). nia. }
    set (o := Sz + T * (aval (v, u, 0) + w)).
    assert (EO : R * o = val x + val q * p) by (unfold o; rewrite PR in E2; lia).
    assert (BO : 0 <= o < 2 * p) by (apply (rdc_arith R p (val x) (val q)); auto; lia).
    assert (TOP : aval (v, u, 0) + w < B).
    { unfold o in BO. destruct (Z.lt_ge_cases (aval (v, u, 0) + w) B) as [|G]; [assumption|]. exfalso.
      assert (T * B <= T * (aval (v, u, 0) + w)) by (apply Z.mul_le_mono_nonneg_l; lia). lia. }
    unfold is_w64 in *.
    assert (U0 : u = 0) by (unfold aval in TOP; lia). subst u.
    assert (AV : aval (v, 0, 0) = v) by (unfold aval; ring). rewrite AV in *.
    assert (EA : Add64 v w 0 = (v + w, 0)).
    { unfold Add64, wrap64. rewrite Z.add_0_r, Z.mod_small, Z.div_small by lia. reflexivity. }
    rewrite EA.
    assert (VAL : val (upd z (n - 1) (v + w)) = o).
    { rewrite <- bsum_val, upd_length, Lz.
      transitivity (bsum (fun k => (upd z (n - 1) (v + w)).[k]) (S (n - 1))); [f_equal; lia|]. cbn [bsum].
      rewrite nth_upd, Nat.eqb_refl by lia. rewrite (bsum_ext _ (fun k => z.[k]) (n - 1)).
      2:{ intros k Hk. rewrite nth_upd by lia. destruct (Nat.eqb_spec k (n - 1)); [lia|reflexivity]. }
      fold Sz. fold T. unfold o. rewrite ?AV. ring. }
    split; [apply words_upd; auto; unfold is_w64; lia|]. split; [rewrite upd_length; exact Lz|].
    rewrite VAL. split; [lia|]. exists (val q). split; [lia|exact EO].
  Qed.

  (* elements of the field: FpWords words, value below 2p *)
  Definition fpok (x : list Z) : Prop := words x /\ length x = n /\ val x < 2 * p.
  Definition dblok (x : list Z) : Prop := words x /\ length x = (2 * n)%nat.

  Lemma fpok_zero : fpok (zeroFp F).
  Proof. unfold zeroFp. split; [apply words_repeat_0|]. split; [apply repeat_length|]. rewrite val_repeat_0. pose proof p_pos. lia. Qed.
  Lemma fpok_nonneg : forall x, fpok x -> 0 <= val x < 2 * p.
  Proof. intros x (W & L & V). pose proof (val_bound x W). lia. Qed.
  Lemma R_16p : 16 * p <= R. Proof. exact (fo_R _ _ OK). Qed.

  Lemma masked_spec : forall l b, words l -> 0 <= b <= 1 ->
    words (masked l b) /\ length (masked l b) = length l /\ val (masked l b) = b * val l.
  Proof.
    intros l b W Hb. unfold masked. destruct (mask_cases b Hb) as [[-> E]|[-> E]]; rewrite E.
    - rewrite map_land_0. split; [apply words_repeat_0|]. rewrite repeat_length, val_repeat_0. auto.
    - rewrite map_land_ones by assumption. split; [assumption|]. split; [reflexivity|ring].
  Qed.

  Theorem addP_spec : forall x y, fpok x -> fpok y ->
    fpok (addP F x y) /\ val (addP F x y) = (if val x + val y <? 2 * p then val x + val y else val x + val y - 2 * p).
  Proof.
    intros x y (Wx & Lx & Vx) (Wy & Ly & Vy). unfold addP. destruct (fo_Px2 _ _ OK) as (W2 & L2 & V2).
    pose proof R_16p as HR. pose proof p_pos.
    pose proof (val_bound x Wx) as Bx. pose proof (val_bound y Wy) as By.
    destruct (addc x y 0) as [z c] eqn:E0. apply addc_spec in E0; auto; try lia. destruct E0 as (E0 & Wz & Lz & Hc).
    rewrite Lx in *. pose proof (val_bound z Wz) as Bz. rewrite Lz in Bz.
    assert (c = 0) by nia. subst c.
    destruct (subb z (fPx2 F) 0) as [z' b] eqn:E1. apply subb_spec in E1; auto; try lia. destruct E1 as (E1 & Wz' & Lz' & Hb).
    rewrite Lz in *. pose proof (val_bound z' Wz') as Bz'. rewrite Lz' in Bz'.
    destruct (masked_spec (fPx2 F) b W2 Hb) as (Wm & Lm & Vm).
    destruct (addc z' (masked (fPx2 F) b) 0) as [z'' c] eqn:E2. apply addc_spec in E2; auto; try lia. destruct E2 as (E2 & Wz'' & Lz'' & Hc').
    rewrite Lz' in *. rewrite Vm, V2 in *. pose proof (val_bound z'' Wz'') as Bz''. rewrite Lz'' in Bz''.
    assert (b = 0 \/ b = 1) as [-> | ->] by lia.
    - assert (c = 0) by nia. subst c. destruct (Z.ltb_spec (val x + val y) (2 * p)); [lia|]. repeat split; auto; lia.
    - assert (c = 1) by nia. subst c. destruct (Z.ltb_spec (val x + val y) (2 * p)); [|lia]. repeat split; auto; lia.
  Qed.

  Theorem subP_spec : forall x y, fpok x -> fpok y ->
    fpok (subP F x y) /\ val (subP F x y) = (if val x - val y <? 0 then val x - val y + 2 * p else val x - val y).
  Proof.
    intros x y (Wx & Lx & Vx) (Wy & Ly & Vy). unfold subP. destruct (fo_Px2 _ _ OK) as (W2 & L2 & V2).
    pose proof R_16p as HR. pose proof p_pos.
    pose proof (val_bound x Wx) as Bx. pose proof (val_bound y Wy) as By.
    destruct (subb x y 0) as [z' b] eqn:E1. apply subb_spec in E1; auto; try lia. destruct E1 as (E1 & Wz' & Lz' & Hb).
    rewrite Lx, Ly in *. pose proof (val_bound z' Wz') as Bz'. rewrite Lz' in Bz'.
    destruct (masked_spec (fPx2 F) b W2 Hb) as (Wm & Lm & Vm).
    destruct (addc z' (masked (fPx2 F) b) 0) as [z'' c] eqn:E2. apply addc_spec in E2; auto; try lia. destruct E2 as (E2 & Wz'' & Lz'' & Hc).
    rewrite Lz' in *. rewrite Vm, V2 in *. pose proof (val_bound z'' Wz'') as Bz''. rewrite Lz'' in Bz''.
    assert (b = 0 \/ b = 1) as [-> | ->] by lia.
    - assert (c = 0) by nia. subst c. destruct (Z.ltb_spec (val x - val y) 0); [lia|]. repeat split; auto; lia.
    - assert (c = 1) by nia. subst c. destruct (Z.ltb_spec (val x - val y) 0); [|lia]. repeat split; auto; lia.
  Qed.

  Theorem modP_spec : forall x, fpok x ->
    words (modP F x) /\ length (modP F x) = n /\ val (modP F x) = val x mod p.
  Proof.
    intros x (Wx & Lx & Vx). unfold modP. destruct (fo_P _ _ OK) as (W2 & L2 & V2).
    pose proof R_16p as HR. pose proof p_pos.
    pose proof (val_bound x Wx) as Bx.
    destruct (subb x (fP F) 0) as [z' b] eqn:E1. apply subb_spec in E1; auto; try lia. destruct E1 as (E1 & Wz' & Lz' & Hb).
    rewrite Lx in *. pose proof (val_bound z' Wz') as Bz'. rewrite Lz' in Bz'.
    destruct (masked_spec (fP F) b W2 Hb) as (Wm & Lm & Vm).
    destruct (addc z' (masked (fP F) b) 0) as [z'' c] eqn:E2. apply addc_spec in E2; auto; try lia. destruct E2 as (E2 & Wz'' & Lz'' & Hc).
    cbn [fst]. rewrite Lz' in *. rewrite Vm, V2 in *. pose proof (val_bound z'' Wz'') as Bz''. rewrite Lz'' in Bz''.
    split; [assumption|]. split; [assumption|].
    assert (b = 0 \/ b = 1) as [-> | ->] by lia.
    - assert (c = 0) by nia. subst c. apply Z.mod_unique with (q := 1); lia.
    - assert (c = 1) by nia. subst c. apply Z.mod_unique with (q := 0); lia.
  Qed.

  Theorem mulPx_ok : forall x y, fpok x -> fpok y -> dblok (mulPx F x y) /\ val (mulPx F x y) = val x * val y.
  Proof.
    intros x y (Wx & Lx & Vx) (Wy & Ly & Vy).
    destruct (mulPx_spec F x y Wx Wy Lx Ly (fo_n1 _ _ OK) (fo_n2 _ _ OK)) as (A & C & D). repeat split; assumption.
  Qed.
  Lemma RR : B ^ Z.of_nat (2 * n) = R * R.
  Proof. rewrite <- Z.pow_add_r by lia. f_equal. lia. Qed.

  Theorem adlP_spec : forall x y, dblok x -> dblok y -> val x + val y < R * R ->
    dblok (adlP x y) /\ val (adlP x y) = val x + val y.
  Proof.
    intros x y (Wx & Lx) (Wy & Ly) H. unfold adlP.
    destruct (addc x y 0) as [z c] eqn:E0. apply addc_spec in E0; auto; try lia. destruct E0 as (E0 & Wz & Lz & Hc).
    rewrite Lx, RR in *. pose proof (val_bound z Wz) as Bz. pose proof (val_bound x Wx). pose proof (val_bound y Wy).
    assert (c = 0) by nia. subst c. cbn [fst]. split; [split; assumption|]. lia.
  Qed.

  Theorem sulP_spec : forall x y, dblok x -> dblok y -> val y <= p * R ->
    dblok (sulP F x y) /\ val (sulP F x y) = (if val x - val y <? 0 then val x - val y + p * R else val x - val y).
  Proof.
    intros x y (Wx & Lx) (Wy & Ly) H. unfold sulP. destruct (fo_P _ _ OK) as (W2 & L2 & V2).
    pose proof R_pos as Rp. pose proof p_pos.
    destruct (subb x y 0) as [z b] eqn:E1. apply subb_spec in E1; auto; try lia. destruct E1 as (E1 & Wz & Lz & Hb).
    rewrite Lx, RR in *. pose proof (val_bound x Wx) as Bx. pose proof (val_bound y Wy) as By.
    pose proof (val_bound z Wz) as Bz. rewrite Lx in Bx. rewrite Ly in By. rewrite Lz in Bz. rewrite RR in *.
    assert (SP : z = firstn n z ++ skipn n z) by (symmetry; apply firstn_skipn).
    assert (Llo : length (firstn n z) = n) by (rewrite firstn_length; lia).
    assert (Lhi : length (skipn n z) = n) by (rewrite skipn_length; lia).
    assert (Wlo : words (firstn n z)) by (apply Forall_firstn; assumption).
    assert (Whi : words (skipn n z)) by (apply Forall_skipn; assumption).
    assert (VZ : val z = val (firstn n z) + R * val (skipn n z)) by (rewrite SP at 1; rewrite val_app, Llo; reflexivity).
    destruct (masked_spec (fP F) b W2 Hb) as (Wm & Lm & Vm).
    destruct (addc (skipn n z) (masked (fP F) b) 0) as [h c] eqn:E2. apply addc_spec in E2; auto; try lia.
    destruct E2 as (E2 & Wh & Lh & Hc). cbn [fst]. rewrite Lhi in *. rewrite Vm, V2 in E2.
    pose proof (val_bound _ Wlo) as Blo. pose proof (val_bound _ Whi) as Bhi. pose proof (val_bound h Wh) as Bh.
    rewrite Llo in Blo. rewrite Lhi in Bhi. rewrite Lh in Bh.
    split. { split; [apply words_app; assumption|]. rewrite app_length. lia. }
    rewrite val_app, Llo. set (lo := val (firstn n z)) in *. set (hi := val (skipn n z)) in *.
    assert (b = 0 \/ b = 1) as [-> | ->] by lia.
    - assert (c = 0) by nia. subst c. destruct (Z.ltb_spec (val x - val y) 0); nia.
    - assert (X1 : val x - val y < 0) by nia.
      destruct (Z.ltb_spec (val x - val y) 0); [|lia].
      assert (c = 1).
      { destruct (Z.eq_dec c 1); [assumption|]. exfalso. assert (c = 0) by lia. subst c.
        assert (val h = hi + p) by lia. assert (hi + p < R) by lia.
        assert (lo + R * hi = val x - val y + R * R) by lia. assert (R * (hi + p) + R <= R * R) by nia. nia. }
      subst c. nia.
  Qed.

  (* Montgomery product *)
  Lemma rdc_ok : forall x, dblok x -> val x < p * R ->
    fpok (rdc F x) /\ (R * val (rdc F x)) mod p = val x mod p.
  Proof.
    intros x (Wx & Lx) Vx. destruct fpok_zero as (Wz & Lz & _).
    destruct (rdcP_spec (zeroFp F) x Wz Lz Wx Lx Vx) as (A & C & D & q & Hq & E). fold (rdc F x) in *.
    split; [repeat split; assumption|]. rewrite E. apply Z_mod_plus_full.
  Qed.
  (* the previous contents of the destination do not matter *)
  Lemma rdcP_dead : forall z0 x, words z0 -> length z0 = n -> dblok x -> val x < p * R -> rdcP F z0 x = rdc F x.
  Proof.
    intros z0 x Wz0 Lz0 (Wx & Lx) Vx. destruct fpok_zero as (Wz & Lz & _).
    destruct (rdcP_spec (zeroFp F) x Wz Lz Wx Lx Vx) as (A & C & D & q & Hq & E). fold (rdc F x) in *.
    destruct (rdcP_spec z0 x Wz0 Lz0 Wx Lx Vx) as (A' & C' & D' & q' & Hq' & E').
    apply val_inj; auto; [congruence|]. 
    assert (G : q = q').
    { pose proof p_pos. pose proof R_pos. assert (MM : (R * (val (rdcP F z0 x) - val (rdc F x))) = (q' - q) * p) by lia.
      assert (DV : (R | q' - q)).
      { apply Gauss with p; [|exact R_coprime]. exists (val (rdcP F z0 x) - val (rdc F x)). lia. }
      destruct DV as [d Hd]. assert (d = 0) by nia. subst d. lia. }
    subst q'. pose proof R_pos. nia.
  Qed.
End Fp.
