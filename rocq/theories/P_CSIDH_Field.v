(* Properties C24-C30: the CSIDH-512 prime field.
   Vocabulary: val reads a little-endian limb list as an integer; fp_ok says the list has eight
   64-bit limbs; fp_red says moreover val < p.  Statements are about integers modulo p. *)
From Coq Require Import ZArith List Lia Bool Znumtheory.
From Verif Require Import Lib MP NT Prime63 PrimeCerts CSIDH_Field CSIDH_FieldProofs CSIDH_FieldProofs2 CSIDH_Alias.
Import ListNotations.
Open Scope Z_scope.

(* ---------- C24: add, sub, mul ---------- *)
Theorem C24_field_ops : forall x y, fp_red x -> fp_red y ->
  (fp_red (addRdc x y) /\ val (addRdc x y) = (val x + val y) mod P) /\
  (fp_red (subRdc x y) /\ val (subRdc x y) = (val x - val y) mod P) /\
  (fp_red (mulRdc x y) /\ (val (mulRdc x y) * 2 ^ 512) mod P = (val x * val y) mod P).
Proof.
  intros x y Hx Hy. split; [|split].
  - split; [apply addRdc_red; assumption | apply addRdc_spec; [apply Hx|apply Hy|apply Hx|apply Hy]].
  - split; [apply subRdc_red; assumption | apply subRdc_spec; [apply Hx|apply Hy|apply Hx|apply Hy]].
  - apply mulRdc_spec; [apply Hx | exact Hy].
Qed.
Print Assumptions C24_field_ops.

(* mulRdc even accepts an unreduced first operand *)
Theorem C24_mul_unreduced : forall x y, fp_ok x -> fp_red y ->
  fp_red (mulRdc x y) /\ (val (mulRdc x y) * 2 ^ 512) mod P = (val x * val y) mod P.
Proof. exact mulRdc_spec. Qed.
Print Assumptions C24_mul_unreduced.

(* the same for in-place calls: whichever of the three pointers coincide, the destination holds
   the functional result afterwards and no other object has changed *)
Theorem C24_inplace : forall r x y m, fp_red (obj m x) -> fp_red (obj m y) ->
  stored m r (addRdc (obj m x) (obj m y)) (addRdc_mem r x y m) /\
  stored m r (subRdc (obj m x) (obj m y)) (subRdc_mem r x y m) /\
  stored m r (mulRdc (obj m x) (obj m y)) (mulRdc_mem r x y m) /\
  forall k, stored m r (mul512 (obj m x) k) (mul512_mem r x k m).
Proof.
  intros r x y m Hx Hy. split; [|split; [|split]].
  - apply addRdc_alias.
  - apply subRdc_alias.
  - apply mulRdc_alias; [apply Hx | apply Hy |]. pose proof (proj2 Hy). lia.
  - intros k. apply mul512_alias.
Qed.
Print Assumptions C24_inplace.

Example ex_C24 :
  val (addRdc (limbs 8 (P - 5)) (limbs 8 12)) = 7 /\
  val (subRdc (limbs 8 5) (limbs 8 12)) = P - 7 /\
  mulRdc two two = four.
Proof. vm_compute. repeat split; reflexivity. Qed.
(* an in-place doubling: r = x = y *)
Example ex_C24_inplace :
  obj (addRdc_mem 3 3 3 (fun l i => nth i two 0)) 3 = four.
Proof. vm_compute. reflexivity. Qed.
(* the hypotheses matter: on unreduced inputs addRdc does not reduce *)
Example ex_C24_unreduced : val (addRdc (limbs 8 P) (limbs 8 P)) = P.
Proof. vm_compute. reflexivity. Qed.

(* ---------- C25: the stale carry ---------- *)
(* mulGeneric with the carry cleared before the last round *)
Definition mulGeneric_clean (x y : list Z) : list Z :=
  let '(s, _) := fold_left (fun sc i => mul_body y (fst sc) (nth i x 0))
                           (seq 0 7) (repeat 0 8, 0) in
  mul_last y s (nth 7 x 0) 0.

Lemma fold_inv : forall (A E : Type) (f : A -> E -> A) (I : A -> Prop) l a,
  I a -> (forall a e, I a -> I (f a e)) -> I (fold_left f l a).
Proof. induction l; intros; cbn [fold_left]; auto. Qed.

Theorem C25_stale_carry : forall x y, fp_ok x -> fp_ok y -> val y <= P ->
  mulGeneric x y = mulGeneric_clean x y.
Proof.
  intros x y Hx Hy By. unfold mulGeneric, mulGeneric_clean.
  replace (numWords - 1)%nat with 7%nat by reflexivity.
  pose proof P_lt as Plt. pose proof (fp_ok_bound y Hy) as Yb.
  assert (H : let sc := fold_left (fun sc i => mul_body y (fst sc) (nth i x 0)) (seq 0 7) (repeat 0 8, 0) in
              fp_ok (fst sc) /\ val (fst sc) < P + val y /\ 0 <= snd sc <= 1).
  { apply (fold_inv _ _ _ (fun sc => fp_ok (fst sc) /\ val (fst sc) < P + val y /\ 0 <= snd sc <= 1)).
    - cbn [fst snd]. split; [split; [apply words_repeat_0 | reflexivity]|]. rewrite val_repeat_0. lia.
    - intros [s c] i (H1 & H2 & H3). cbn [fst snd] in H1, H2, H3.
      destruct (mul_body_ok y s (nth i x 0) Hy By H1 H2 (words_nth x i (proj1 Hx))) as (s' & c' & E & G1 & G2 & G3 & _).
      cbn [fst]. rewrite E. exact (conj G1 (conj G2 G3)). }
  revert H. generalize (fold_left (fun sc i => mul_body y (fst sc) (nth i x 0)) (seq 0 7) (repeat 0 8, 0)).
  intros [s c] (H1 & H2 & H3). cbn [fst snd] in H1, H2, H3.
  apply mul_last_carry; try assumption. apply words_nth. apply Hx.
Qed.
Print Assumptions C25_stale_carry.

(* the carry really can be 1 when the last round starts, and it does change the first limb sum *)
Example ex_C25 :
  snd (fold_left (fun sc i => mul_body (limbs 8 (P - 1)) (fst sc) (nth i (limbs 8 (P - 7)) 0))
                 (seq 0 7) (repeat 0 8, 0)) = 1.
Proof. vm_compute. reflexivity. Qed.

(* ---------- C26: helpers ---------- *)
Theorem C26_mul512 : forall x k, fp_ok x -> is_w64 k ->
  fp_ok (mul512 x k) /\ val (mul512 x k) = (val x * k) mod 2 ^ 512.
Proof. exact mul512_spec. Qed.
Print Assumptions C26_mul512.

Theorem C26_mul576 : forall x k, fp_ok x -> is_w64 k ->
  words (mul576 x k) /\ length (mul576 x k) = 9%nat /\ val (mul576 x k) = val x * k.
Proof. exact mul576_spec. Qed.
Print Assumptions C26_mul576.

Theorem C26_compare : forall x y, fp_ok x -> fp_ok y ->
  isLess x y = (val x <? val y) /\ equal x y = (val x =? val y) /\ isZero x = (val x =? 0) /\
  (equal x y = true <-> x = y).
Proof.
  intros x y Hx Hy. split; [apply isLess_ok; assumption|]. split; [apply equal_ok; assumption|].
  split; [apply isZero_ok; assumption|]. rewrite equal_ok by assumption. rewrite Z.eqb_eq. split.
  - apply val_inj; [apply Hx | apply Hy | rewrite (proj2 Hx), (proj2 Hy); reflexivity].
  - congruence.
Qed.
Print Assumptions C26_compare.

Theorem C26_select : forall a b, is_w64 a -> is_w64 b ->
  ctPick64 (2 ^ 64 - 1) a b = a /\ ctPick64 0 a b = b /\
  ctIsNonZero64 a = (if a =? 0 then 0 else 1).
Proof.
  intros a b Ha Hb. split; [apply ctPick64_1; exact Ha|]. split; [apply ctPick64_0; exact Hb|].
  apply ctIsNonZero64_ok. exact Ha.
Qed.
Print Assumptions C26_select.

Theorem C26_cswap : forall x y, fp_ok x -> fp_ok y ->
  cswap512 x y 0 = (x, y) /\ cswap512 x y 1 = (y, x).
Proof.
  intros x y Hx Hy. assert (L : length x = length y) by (rewrite (proj2 Hx), (proj2 Hy); reflexivity).
  split.
  - rewrite (cswap512_ok x y 0 (proj1 Hx) (proj1 Hy) L ltac:(lia)). reflexivity.
  - rewrite (cswap512_ok x y 1 (proj1 Hx) (proj1 Hy) L ltac:(lia)). reflexivity.
Qed.
Print Assumptions C26_cswap.

(* plain subtraction with its borrow *)
Theorem C26_sub512 : forall x y, fp_ok x -> fp_ok y ->
  fp_ok (fst (sub512 x y)) /\
  val (fst (sub512 x y)) = (val x - val y) mod 2 ^ 512 /\
  snd (sub512 x y) = if val x <? val y then 1 else 0.
Proof. exact sub512_spec. Qed.
Print Assumptions C26_sub512.

Example ex_C26 :
  mul512 (limbs 8 (2 ^ 511)) 6 = limbs 8 0 /\
  val (mul576 (limbs 8 (2 ^ 512 - 1)) (2 ^ 64 - 1)) = (2 ^ 512 - 1) * (2 ^ 64 - 1) /\
  isLess (limbs 8 (2 ^ 64)) (limbs 8 (2 ^ 64)) = false /\
  isLess (limbs 8 (2 ^ 64 - 1)) (limbs 8 (2 ^ 64)) = true /\
  isZero (limbs 8 (2 ^ 448)) = false /\ cswap512 one two 1 = (two, one) /\
  sub512 (limbs 8 0) (limbs 8 1) = (limbs 8 (2 ^ 512 - 1), 1).
Proof. vm_compute. repeat split; reflexivity. Qed.

(* ---------- C27: exponentiation ---------- *)
(* mrep x a: x is the reduced limb vector of a * 2^512 mod p *)
Theorem C27_modexp : forall b a e, mrep b a -> fp_ok e ->
  fp_red (modExpRdc512 b e) /\ val (modExpRdc512 b e) = (a ^ val e * 2 ^ 512) mod P.
Proof. exact modExpRdc512_ok. Qed.
Print Assumptions C27_modexp.

Theorem C27_modexp64 : forall b a e, mrep b a -> is_w64 e ->
  fp_red (modExpRdc64 b e) /\ val (modExpRdc64 b e) = (a ^ e * 2 ^ 512) mod P.
Proof. exact modExpRdc64_ok. Qed.
Print Assumptions C27_modexp64.

(* every reduced element is of that form, so the theorem covers every reduced base *)
Theorem C27_total : forall b, fp_red b -> exists a, 0 <= a < P /\ mrep b a.
Proof. intros b H. exists (fv b). split; [apply fv_range | apply mrep_fv, H]. Qed.
Print Assumptions C27_total.

Example ex_C27 : mrep two 2 /\ val (modExpRdc64 two 10) = (1024 * 2 ^ 512) mod P.
Proof.
  assert (H : mrep two 2).
  { split; [|vm_compute; reflexivity].
    split; [|vm_compute; reflexivity]. split; [|reflexivity]. unfold two. wlit. }
  split; [exact H|].
  apply (C27_modexp64 two 2 10 H). unfold is_w64. lia.
Qed.

(* ---------- C28: constants ---------- *)
Definition prodZ (l : list Z) : Z := fold_right Z.mul 1 l.

Theorem C28_constants :
  length primes = 74%nat /\ NoDup primes /\ Forall (fun l => prime l /\ Z.odd l = true) primes /\
  P = 4 * prodZ primes - 1 /\
  mrep one 1 /\ mrep two 2 /\ mrep twoNeg (-2) /\ mrep four 4 /\
  (val fourSqrtP) ^ 2 <= 16 * P < (val fourSqrtP + 1) ^ 2 /\
  (nth 0 pNegInv 0 * P) mod 2 ^ 64 = 2 ^ 64 - 1 /\
  val pMin1 = P - 2 /\ val pMin1By2 = (P - 1) / 2 /\
  2 ^ 510 < P < 2 ^ 511.
Proof.
  assert (R : forall l a, length l = 8%nat -> forallb (fun w => (0 <=? w) && (w <? 2 ^ 64)) l = true ->
              val l = (a * 2 ^ 512) mod P -> mrep l a).
  { intros l a L F V. split; [|exact V]. split; [split; [|exact L]|].
    - apply Forall_forall. intros w Hw. rewrite forallb_forall in F. specialize (F w Hw). unfold is_w64. lia.
    - rewrite V. apply Z.mod_pos_bound, P_pos. }
  split; [reflexivity|]. split.
  { assert (D : forall l : list Z, (fix d l := match l with [] => true | x :: t => negb (existsb (Z.eqb x) t) && d t end) l = true -> NoDup l).
    { induction l as [|x t IH]; intros H; [constructor|]. apply andb_prop in H. destruct H as [H1 H2].
      constructor; [|apply IH; exact H2]. intros Hin.
      assert (T : existsb (Z.eqb x) t = true) by (apply existsb_exists; exists x; split; [exact Hin | apply Z.eqb_refl]).
      rewrite T in H1. discriminate. }
    apply D. vm_compute. reflexivity. }
  split.
  { assert (F : forallb (fun l => small_prime l && Z.odd l) primes = true) by (vm_compute; reflexivity).
    apply Forall_forall. intros l Hl. rewrite forallb_forall in F. specialize (F l Hl).
    apply andb_prop in F. destruct F as [F1 F2]. split; [apply small_prime_ok; exact F1 | exact F2]. }
  split; [vm_compute; reflexivity|].
  split; [apply R; vm_compute; reflexivity|]. split; [apply R; vm_compute; reflexivity|].
  split; [apply R; vm_compute; reflexivity|]. split; [apply R; vm_compute; reflexivity|].
  split; [split; [apply Z.leb_le | apply Z.ltb_lt]; vm_compute; reflexivity|].
  split; [vm_compute; reflexivity|]. split; [vm_compute; reflexivity|]. split; [vm_compute; reflexivity|].
  split; apply Z.ltb_lt; vm_compute; reflexivity.
Qed.
Print Assumptions C28_constants.

(* ---------- C29: primality ---------- *)
Theorem C29_csidh_prime : prime (4 * prodZ primes - 1) /\ prime (val p).
Proof.
  assert (E : 4 * prodZ primes - 1 = P) by (vm_compute; reflexivity). rewrite E.
  split; exact P_prime.
Qed.
Print Assumptions C29_csidh_prime.

Theorem C29_sidh_primes :
  prime (2 ^ 216 * 3 ^ 137 - 1) /\ prime (2 ^ 250 * 3 ^ 159 - 1) /\ prime (2 ^ 372 * 3 ^ 239 - 1).
Proof. exact (conj p434_prime (conj p503_prime p751_prime)). Qed.
Print Assumptions C29_sidh_primes.

(* ---------- C30: inversion and quadratic residues ---------- *)
Theorem C30_inverse : forall b a, mrep b a ->
  exists a', mrep (modExpRdc512 b pMin1) a' /\
    (a mod P <> 0 -> (a' * a) mod P = 1) /\ (a mod P = 0 -> a' mod P = 0).
Proof. exact inverse_ok. Qed.
Print Assumptions C30_inverse.

Theorem C30_quadres : forall v a, mrep v a ->
  (isNonQuadRes v = 0 \/ isNonQuadRes v = 1) /\
  (isNonQuadRes v = 0 <-> a mod P <> 0 /\ exists b, (b * b) mod P = a mod P).
Proof. intros v a H. split; [apply isNonQuadRes_01; apply H | apply isNonQuadRes_ok; exact H]. Qed.
Print Assumptions C30_quadres.

(* zero counts as a non-residue; 4 is a square and -1 is not *)
Lemma fp_zero_rep : mrep (limbs 8 0) 0.
Proof. split; [split; [split; [apply limbs_words | reflexivity]|]|]; vm_compute; reflexivity. Qed.
Example ex_C30_zero : isNonQuadRes (limbs 8 0) = 1.
Proof.
  destruct (C30_quadres _ _ fp_zero_rep) as [[H|H] Q]; [|exact H].
  apply Q in H. destruct H as [H _]. exfalso. apply H. reflexivity.
Qed.
Example ex_C30_four : isNonQuadRes four = 0.
Proof.
  apply (C30_quadres four 4). { apply C28_constants. }
  split; [vm_compute; discriminate|]. exists 2. reflexivity.
Qed.
Example ex_C30_inv4 : exists a, mrep (modExpRdc512 four pMin1) a /\ (a * 4) mod P = 1.
Proof.
  destruct (C30_inverse four 4 ltac:(apply C28_constants)) as (a & Ha & H1 & _).
  exists a. split; [exact Ha|]. apply H1. vm_compute. discriminate.
Qed.
