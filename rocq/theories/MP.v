(* Multi-precision arithmetic on 64-bit limbs: the semantics of Go's math/bits.Add64, Sub64
   and Mul64 (documented behaviour of the standard library), limb vectors as little-endian
   lists, and carry/borrow/multiply chains.  Nothing here is specific to /repo. *)
From Coq Require Import ZArith List Lia Bool Znumtheory.
From Verif Require Import Lib.
Import ListNotations.
Open Scope Z_scope.

(* B = 2^64; kept folded so that lia sees one constant *)
Notation B := (2 ^ 64).

Notation "x .[ i ]" := (nth i x 0) (at level 2, left associativity, format "x .[ i ]").

(* ---------- math/bits ---------- *)
(* sum, carryOut = bits.Add64(x, y, carry) *)
Definition Add64 (x y c : Z) : Z * Z := (wrap64 (x + y + c), (x + y + c) / B).
(* diff, borrowOut = bits.Sub64(x, y, borrow) *)
Definition Sub64 (x y b : Z) : Z * Z :=
  (wrap64 (x - y - b), if x - y - b <? 0 then 1 else 0).
(* hi, lo = bits.Mul64(x, y) *)
Definition Mul64 (x y : Z) : Z * Z := ((x * y) / B, (x * y) mod B).
(* uint64 operators *)
Definition sub64w (x y : Z) : Z := wrap64 (x - y).
Definition mul64w (x y : Z) : Z := wrap64 (x * y).
Definition not64 (x : Z) : Z := B - 1 - x.
Definition shl64 (x n : Z) : Z := wrap64 (Z.shiftl x n).

(* ---------- limb vectors ---------- *)
Fixpoint val (l : list Z) : Z :=
  match l with
  | [] => 0
  | x :: t => x + B * val t
  end.
Definition words (l : list Z) : Prop := Forall is_w64 l.

(* the limbs of a number *)
Fixpoint limbs (n : nat) (x : Z) : list Z :=
  match n with
  | O => []
  | S n' => x mod B :: limbs n' (x / B)
  end.

(* ---------- chains ---------- *)
Fixpoint addc (x y : list Z) (c : Z) : list Z * Z :=
  match x, y with
  | a :: x', b :: y' =>
      let '(s, c1) := Add64 a b c in
      let '(r, c2) := addc x' y' c1 in (s :: r, c2)
  | _, _ => ([], c)
  end.
Fixpoint subb (x y : list Z) (c : Z) : list Z * Z :=
  match x, y with
  | a :: x', b :: y' =>
      let '(s, c1) := Sub64 a b c in
      let '(r, c2) := subb x' y' c1 in (s :: r, c2)
  | _, _ => ([], c)
  end.

(* ---------- lemmas ---------- *)
Lemma B_pos : 0 < B. Proof. reflexivity. Qed.

Lemma wrap64_w : forall x, is_w64 (wrap64 x).
Proof. intros. unfold is_w64, wrap64. apply Z.mod_pos_bound. reflexivity. Qed.
Lemma wrap64_id : forall x, is_w64 x -> wrap64 x = x.
Proof. intros. apply Z.mod_small. assumption. Qed.

Lemma Add64_spec : forall x y c s c', is_w64 x -> is_w64 y -> 0 <= c <= 1 ->
  Add64 x y c = (s, c') ->
  s + B * c' = x + y + c /\ is_w64 s /\ 0 <= c' <= 1.
Proof.
  unfold Add64, is_w64, wrap64. intros x y c s c' Hx Hy Hc E. injection E as <- <-.
  pose proof (Z.div_mod (x + y + c) B ltac:(lia)).
  pose proof (Z.mod_pos_bound (x + y + c) B B_pos).
  assert (0 <= (x + y + c) / B) by (apply Z.div_pos; lia).
  assert ((x + y + c) / B < 2) by (apply Z.div_lt_upper_bound; lia).
  repeat split; lia.
Qed.

Lemma Sub64_spec : forall x y c s c', is_w64 x -> is_w64 y -> 0 <= c <= 1 ->
  Sub64 x y c = (s, c') ->
  s - B * c' = x - y - c /\ is_w64 s /\ 0 <= c' <= 1.
Proof.
  unfold Sub64, is_w64, wrap64. intros x y c s c' Hx Hy Hc E. injection E as <- <-.
  pose proof (Z.div_mod (x - y - c) B ltac:(lia)).
  pose proof (Z.mod_pos_bound (x - y - c) B B_pos).
  destruct (Z.ltb_spec (x - y - c) 0).
  - assert ((x - y - c) / B = -1).
    { symmetry. apply Z.div_unique with (r := x - y - c + B); lia. }
    lia.
  - rewrite Z.mod_small in *; lia.
Qed.

Lemma Mul64_spec : forall x y h l, is_w64 x -> is_w64 y -> Mul64 x y = (h, l) ->
  l + B * h = x * y /\ is_w64 l /\ 0 <= h <= B - 2.
Proof.
  unfold Mul64, is_w64. intros x y h l Hx Hy E. injection E as <- <-.
  pose proof (Z.div_mod (x * y) B ltac:(lia)).
  pose proof (Z.mod_pos_bound (x * y) B B_pos).
  assert (x * y <= (B - 1) * (B - 1)) by (apply Z.mul_le_mono_nonneg; lia).
  assert (0 <= (x * y) / B) by (apply Z.div_pos; lia).
  assert ((x * y) / B < B - 1) by (apply Z.div_lt_upper_bound; lia).
  repeat split; lia.
Qed.

Lemma val_app : forall a b, val (a ++ b) = val a + B ^ Z.of_nat (length a) * val b.
Proof.
  induction a; intros b. { simpl. destruct (val b); reflexivity. }
  change (val ((a :: a0) ++ b)) with (a + B * val (a0 ++ b)).
  change (val (a :: a0)) with (a + B * val a0).
  rewrite IHa. cbn [length].
  rewrite Nat2Z.inj_succ, Z.pow_succ_r by lia. ring.
Qed.

Lemma val_cons : forall a l, val (a :: l) = a + B * val l.
Proof. reflexivity. Qed.

Lemma val_bound : forall l, words l -> 0 <= val l < B ^ Z.of_nat (length l).
Proof.
  induction 1. { simpl. lia. }
  rewrite val_cons. cbn [length]. rewrite Nat2Z.inj_succ, Z.pow_succ_r by lia.
  unfold is_w64 in H. nia.
Qed.

Lemma val_inj : forall a b, words a -> words b -> length a = length b -> val a = val b -> a = b.
Proof.
  induction a; intros [|y b] Ha Hb L E; try discriminate; auto.
  inversion Ha; inversion Hb; subst. rewrite !val_cons in E. unfold is_w64 in *.
  assert (a = y /\ val a0 = val b).
  { pose proof (val_bound a0 ltac:(assumption)). pose proof (val_bound b ltac:(assumption)). lia. }
  destruct H as [-> Hv]. f_equal. apply IHa; auto.
Qed.

Lemma limbs_length : forall n x, length (limbs n x) = n.
Proof. induction n; intros; simpl; auto. Qed.
Lemma limbs_words : forall n x, words (limbs n x).
Proof.
  induction n; intros; constructor; auto.
  - unfold is_w64. apply Z.mod_pos_bound. reflexivity.
  - apply IHn.
Qed.
Lemma limbs_val : forall n x, val (limbs n x) = x mod B ^ Z.of_nat n.
Proof.
  induction n; intros. { simpl. rewrite Z.mod_1_r. reflexivity. }
  change (val (limbs (S n) x)) with (x mod B + B * val (limbs n (x / B))).
  rewrite IHn, Nat2Z.inj_succ, Z.pow_succ_r by lia.
  rewrite (Z.rem_mul_r x B); [reflexivity | lia | apply Z.pow_pos_nonneg; lia].
Qed.
Lemma limbs_of_val : forall l, words l -> limbs (length l) (val l) = l.
Proof.
  intros. apply val_inj; auto using limbs_words.
  - apply limbs_length.
  - rewrite limbs_val. apply Z.mod_small. apply val_bound; auto.
Qed.

Lemma words_length_ind : forall (l : list Z) n, length l = S n ->
  exists x t, l = x :: t /\ length t = n.
Proof. intros [|x t] n H; try discriminate. exists x, t. auto. Qed.

Lemma addc_spec : forall x y c s c', words x -> words y -> length x = length y ->
  0 <= c <= 1 -> addc x y c = (s, c') ->
  val s + B ^ Z.of_nat (length x) * c' = val x + val y + c /\
  words s /\ length s = length x /\ 0 <= c' <= 1.
Proof.
  induction x as [|a x IH]; intros [|b y] c s c' Hx Hy L Hc E; try discriminate.
  - injection E as <- <-. simpl. repeat split; auto; try lia; try constructor.
    destruct c as [|p|p]; reflexivity.
  - cbn [addc] in E. destruct (Add64 a b c) as [s0 c1] eqn:E0.
    destruct (addc x y c1) as [r c2] eqn:E1. injection E as <- <-.
    inversion Hx; inversion Hy; subst. injection L as L.
    apply Add64_spec in E0; auto. destruct E0 as (A1 & A2 & A3).
    apply IH in E1; auto. destruct E1 as (B1 & B2 & B3 & B4).
    rewrite !val_cons. cbn [length]. rewrite Nat2Z.inj_succ, Z.pow_succ_r by lia.
    repeat split; auto; try lia; try (constructor; auto).
Qed.

Lemma subb_spec : forall x y c s c', words x -> words y -> length x = length y ->
  0 <= c <= 1 -> subb x y c = (s, c') ->
  val s - B ^ Z.of_nat (length x) * c' = val x - val y - c /\
  words s /\ length s = length x /\ 0 <= c' <= 1.
Proof.
  induction x as [|a x IH]; intros [|b y] c s c' Hx Hy L Hc E; try discriminate.
  - injection E as <- <-. simpl. repeat split; auto; try lia; try constructor.
    destruct c as [|p|p]; reflexivity.
  - cbn [subb] in E. destruct (Sub64 a b c) as [s0 c1] eqn:E0.
    destruct (subb x y c1) as [r c2] eqn:E1. injection E as <- <-.
    inversion Hx; inversion Hy; subst. injection L as L.
    apply Sub64_spec in E0; auto. destruct E0 as (A1 & A2 & A3).
    apply IH in E1; auto. destruct E1 as (B1 & B2 & B3 & B4).
    rewrite !val_cons. cbn [length]. rewrite Nat2Z.inj_succ, Z.pow_succ_r by lia.
    repeat split; auto; try lia; try (constructor; auto).
Qed.

(* bit masks: -b for a borrow/carry b in {0,1} *)
Lemma mask_cases : forall b, 0 <= b <= 1 -> (b = 0 /\ sub64w 0 b = 0) \/ (b = 1 /\ sub64w 0 b = B - 1).
Proof. intros. assert (b = 0 \/ b = 1) as [-> | ->] by lia; [left|right]; split; reflexivity. Qed.

Lemma land_ones64 : forall x, is_w64 x -> Z.land x (B - 1) = x.
Proof.
  intros x H. change (B - 1) with (Z.ones 64). rewrite Z.land_ones by lia.
  apply Z.mod_small. exact H.
Qed.

Lemma map_land_0 : forall l, map (fun x => Z.land x 0) l = repeat 0 (length l).
Proof. induction l; simpl; auto. rewrite Z.land_0_r. f_equal. assumption. Qed.
Lemma map_land_ones : forall l, words l -> map (fun x => Z.land x (B - 1)) l = l.
Proof. induction 1; cbn [map]; auto. rewrite land_ones64 by assumption. f_equal. assumption. Qed.
Lemma val_repeat_0 : forall n, val (repeat 0 n) = 0.
Proof. induction n. reflexivity. cbn [repeat]. rewrite val_cons, IHn. reflexivity. Qed.
Lemma words_repeat_0 : forall n, words (repeat 0 n).
Proof. induction n; constructor; auto. unfold is_w64. lia. Qed.
