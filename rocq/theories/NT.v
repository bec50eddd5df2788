(* Elementary number theory: binomial theorem in a commutative ring, Fermat's little theorem,
   Euler's criterion for p = 3 mod 4, and an "N+1" primality criterion in the Gaussian integers.
   Nothing here is specific to /repo. *)
From Coq Require Import ZArith List Lia Bool Znumtheory Ring Ring_theory.
Import ListNotations.
Open Scope Z_scope.

(* ---------- binomial coefficients ---------- *)
Fixpoint binom (n k : nat) : Z :=
  match n, k with
  | _, O => 1
  | O, S _ => 0
  | S n', S k' => binom n' k' + binom n' (S k')
  end.

Lemma binom_n_0 : forall n, binom n 0 = 1.
Proof. destruct n; reflexivity. Qed.
Lemma binom_gt : forall n k, (n < k)%nat -> binom n k = 0.
Proof.
  induction n; intros [|k] H; try lia; [reflexivity|].
  cbn [binom]. rewrite !IHn by lia. reflexivity.
Qed.
Lemma binom_n_n : forall n, binom n n = 1.
Proof. induction n; [reflexivity|]. cbn [binom]. rewrite IHn, binom_gt by lia. reflexivity. Qed.
Lemma binom_absorb : forall n k, Z.of_nat (S k) * binom (S n) (S k) = Z.of_nat (S n) * binom n k.
Proof.
  induction n; intros k.
  - destruct k; cbn [binom]; [reflexivity|]. ring.
  - destruct k as [|k].
    + pose proof (IHn 0%nat) as H. rewrite binom_n_0 in *.
      change (binom (S (S n)) 1) with (binom (S n) 0 + binom (S n) 1). rewrite binom_n_0. lia.
    + pose proof (IHn k) as H1. pose proof (IHn (S k)) as H2.
      change (binom (S (S n)) (S (S k))) with (binom (S n) (S k) + binom (S n) (S (S k))).
      change (binom (S n) (S k)) with (binom n k + binom n (S k)) in *.
      set (x := binom n k) in *. set (y := binom n (S k)) in *. set (z := binom (S n) (S (S k))) in *.
      rewrite !Nat2Z.inj_succ in *. lia.
Qed.
Lemma prime_divides_binom : forall n k, prime (Z.of_nat n) -> (0 < k < n)%nat -> (Z.of_nat n | binom n k).
Proof.
  intros n k Hp Hk. destruct n as [|n]; [lia|]. destruct k as [|k]; [lia|].
  assert (D : (Z.of_nat (S n) | Z.of_nat (S k) * binom (S n) (S k))).
  { rewrite binom_absorb. apply Z.divide_factor_l. }
  apply Gauss with (2 := rel_prime_sym _ _ (rel_prime_le_prime (Z.of_nat (S k)) _ Hp ltac:(lia))) in D.
  exact D.
Qed.

Section Ring.
  Variable R : Type.
  Variables (rO rI : R) (radd rmul rsub : R -> R -> R) (ropp : R -> R).
  Hypothesis Rth : ring_theory rO rI radd rmul rsub ropp eq.
  Add Ring Rr : Rth.
  Declare Scope r_scope.
  Notation "0" := rO : r_scope. Notation "1" := rI : r_scope.
  Infix "+" := radd : r_scope. Infix "*" := rmul : r_scope.
  Delimit Scope r_scope with r.

  Fixpoint rpow (x : R) (n : nat) : R :=
    match n with O => rI | S n' => (x * rpow x n')%r end.

  (* n * x *)
  Fixpoint smul (n : nat) (x : R) : R :=
    match n with O => rO | S n' => (x + smul n' x)%r end.

  Lemma rpow_add : forall x m n, rpow x (m + n) = (rpow x m * rpow x n)%r.
  Proof. induction m; intros; cbn [rpow Nat.add]; [ring|]. rewrite IHm. ring. Qed.
  Lemma rpow_mul : forall x m n, rpow x (m * n) = rpow (rpow x m) n.
  Proof.
    induction n; cbn [rpow]; [rewrite Nat.mul_0_r; reflexivity|].
    rewrite Nat.mul_succ_r, Nat.add_comm, rpow_add, IHn. reflexivity.
  Qed.
  Lemma rpow_mul_base : forall x y n, rpow (x * y)%r n = (rpow x n * rpow y n)%r.
  Proof. induction n; cbn [rpow]; [ring|]. rewrite IHn. ring. Qed.
  Lemma rpow_1 : forall n, rpow rI n = rI.
  Proof. induction n; cbn [rpow]; [reflexivity|]. rewrite IHn. ring. Qed.

  Lemma smul_add : forall m n x, smul (m + n) x = (smul m x + smul n x)%r.
  Proof. induction m; intros; cbn [smul Nat.add]; [ring|]. rewrite IHm. ring. Qed.
  Lemma smul_mul : forall m n x, smul (m * n) x = smul m (smul n x).
  Proof. induction m; intros; cbn [smul Nat.mul]; [reflexivity|]. rewrite smul_add, IHm. reflexivity. Qed.
  Lemma smul_radd : forall n x y, smul n (x + y)%r = (smul n x + smul n y)%r.
  Proof. induction n; intros; cbn [smul]; [ring|]. rewrite IHn. ring. Qed.
  Lemma smul_rmul : forall n x y, smul n (x * y)%r = (x * smul n y)%r.
  Proof. induction n; intros; cbn [smul]; [ring|]. rewrite IHn. ring. Qed.
  Lemma smul_0 : forall n, smul n rO = rO.
  Proof. induction n; cbn [smul]; [reflexivity|]. rewrite IHn. ring. Qed.

  Fixpoint rsum (f : nat -> R) (n : nat) : R :=
    match n with O => rO | S n' => (rsum f n' + f n')%r end.

  Lemma rsum_ext : forall f g n, (forall k, (k < n)%nat -> f k = g k) -> rsum f n = rsum g n.
  Proof. induction n; intros; cbn [rsum]; [reflexivity|]. rewrite IHn by (intros; apply H; lia). rewrite H by lia. reflexivity. Qed.
  Lemma rsum_add : forall f g n, rsum (fun k => (f k + g k)%r) n = (rsum f n + rsum g n)%r.
  Proof. induction n; cbn [rsum]; [ring|]. rewrite IHn. ring. Qed.
  Lemma rsum_mul : forall f x n, rsum (fun k => (x * f k)%r) n = (x * rsum f n)%r.
  Proof. induction n; cbn [rsum]; [ring|]. rewrite IHn. ring. Qed.
  Lemma rsum_shift : forall f n, rsum f (S n) = (f O + rsum (fun k => f (S k)) n)%r.
  Proof.
    induction n; [cbn [rsum]; ring|].
    change (rsum f (S (S n))) with (rsum f (S n) + f (S n))%r. rewrite IHn. cbn [rsum]. ring.
  Qed.

  Definition bterm (x y : R) (n k : nat) : R :=
    (smul (Z.to_nat (binom n k)) (rpow x (n - k) * rpow y k))%r.

  Lemma binom_nonneg : forall n k, 0 <= binom n k.
  Proof. induction n; intros [|k]; cbn [binom]; try lia. pose proof (IHn k). pose proof (IHn (S k)). lia. Qed.

  Lemma binomial : forall x y n, rpow (x + y)%r n = rsum (bterm x y n) (S n).
  Proof.
    induction n. { unfold rsum, bterm. change (Z.to_nat (binom 0 0)) with 1%nat. cbn [smul rpow Nat.sub]. ring. }
    cbn [rpow]. rewrite IHn.
    replace ((x + y) * rsum (bterm x y n) (S n))%r
      with (x * rsum (bterm x y n) (S n) + y * rsum (bterm x y n) (S n))%r by ring.
    rewrite (rsum_shift (bterm x y (S n))).
    assert (H0 : bterm x y (S n) 0 = rpow x (S n)).
    { unfold bterm. rewrite binom_n_0. change (Z.to_nat 1) with 1%nat. rewrite Nat.sub_0_r. cbn [smul rpow]. ring. }
    rewrite H0.
    rewrite (rsum_ext (fun k => bterm x y (S n) (S k)) (fun k => (y * bterm x y n k + x * (if (k <? n)%nat then bterm x y n (S k) else rO))%r)).
    - rewrite rsum_add, !rsum_mul. rewrite (rsum_shift (bterm x y n) n) at 1.
      cbn [rsum]. rewrite Nat.ltb_irrefl.
      rewrite (rsum_ext (fun k => if (k <? n)%nat then bterm x y n (S k) else rO) (fun k => bterm x y n (S k))).
      + assert (H1 : bterm x y n 0 = rpow x n).
        { unfold bterm. rewrite binom_n_0. change (Z.to_nat 1) with 1%nat. rewrite Nat.sub_0_r. cbn [smul rpow]. ring. }
        rewrite H1. cbn [rpow]. ring.
      + intros k Hk. destruct (Nat.ltb_spec k n); [reflexivity|lia].
    - intros k Hk. unfold bterm. cbn [binom].
      pose proof (binom_nonneg n k). pose proof (binom_nonneg n (S k)).
      rewrite Z2Nat.inj_add, smul_add by assumption.
      change (S n - S k)%nat with (n - k)%nat.
      destruct (Nat.ltb_spec k n).
      + replace (n - k)%nat with (S (n - S k)) by lia. cbn [rpow].
        rewrite <- !smul_rmul. f_equal; f_equal; ring.
      + assert (k = n) by lia. subst k. rewrite (binom_gt n (S n)) by lia. change (Z.to_nat 0) with 0%nat.
        cbn [smul rpow]. rewrite <- smul_rmul.
        replace (rpow x (n - n) * (y * rpow y n))%r with (y * (rpow x (n - n) * rpow y n))%r by ring. ring.
  Qed.

  (* (x+y)^n = x^n + y^n + n*r for prime n *)
  Lemma freshman : forall n x y, prime (Z.of_nat n) ->
    exists r, rpow (x + y)%r n = (rpow x n + rpow y n + smul n r)%r.
  Proof.
    intros n x y Hp. rewrite binomial. rewrite rsum_shift.
    assert (1 < Z.of_nat n) by (apply prime_ge_2 in Hp; lia).
    destruct n as [|n]; [lia|].
    cbn [rsum].
    assert (E : exists r, rsum (fun k => bterm x y (S n) (S k)) n = smul (S n) r).
    { assert (G : forall m, (m <= n)%nat -> exists r, rsum (fun k => bterm x y (S n) (S k)) m = smul (S n) r).
      { induction m; intros Hm.
        - exists rO. cbn [rsum]. rewrite smul_0. reflexivity.
        - destruct IHm as [r Hr]; [lia|]. cbn [rsum]. rewrite Hr.
          destruct (prime_divides_binom (S n) (S m) Hp ltac:(lia)) as [q Hq].
          unfold bterm. rewrite Hq. pose proof (binom_nonneg (S n) (S m)).
          rewrite Z.mul_comm, Z2Nat.inj_mul by nia. rewrite Nat2Z.id, smul_mul.
          rewrite <- smul_radd. eexists. reflexivity. }
      apply (G n). lia. }
    destruct E as [r Hr]. rewrite Hr. exists r. unfold bterm. rewrite binom_n_0, binom_n_n.
    change (Z.to_nat 1) with 1%nat. rewrite Nat.sub_diag, Nat.sub_0_r. cbn [smul rpow]. ring.
  Qed.
End Ring.

(* ---------- Fermat, Euler ---------- *)
Notation zpow := (rpow Z 1 Z.mul).

Lemma zpow_pow : forall a n, zpow a n = a ^ Z.of_nat n.
Proof.
  induction n; [reflexivity|]. cbn [rpow]. rewrite IHn, Nat2Z.inj_succ, Z.pow_succ_r by lia. reflexivity.
Qed.
Lemma smul_Z : forall n x, smul Z 0 Z.add n x = Z.of_nat n * x.
Proof. induction n; intros; [reflexivity|]. cbn [smul]. rewrite IHn, Nat2Z.inj_succ. ring. Qed.

Lemma pow_mod : forall a n m, 0 < m -> 0 <= n -> (a mod m) ^ n mod m = a ^ n mod m.
Proof.
  intros a n m Hm Hn. pattern n. apply natlike_ind; [reflexivity| |assumption].
  intros x Hx IH. rewrite !Z.pow_succ_r by assumption.
  rewrite Z.mul_mod, IH, <- (Z.mul_mod _ (a ^ x)) by lia.
  rewrite (Z.mul_mod (a mod m)), Z.mod_mod, <- Z.mul_mod by lia. reflexivity.
Qed.

Lemma fermat_nat : forall n a, prime (Z.of_nat n) -> 0 <= a -> (a ^ Z.of_nat n) mod Z.of_nat n = a mod Z.of_nat n.
Proof.
  intros n a Hp Ha. pose proof (prime_ge_2 _ Hp). pattern a. apply natlike_ind; [| |assumption].
  - rewrite Z.pow_0_l by lia. reflexivity.
  - intros x Hx IH. unfold Z.succ.
    destruct (freshman Z 0 1 Z.add Z.mul Z.sub Z.opp InitialRing.Zth n x 1 Hp) as [r Hr].
    rewrite smul_Z, !zpow_pow, Z.pow_1_l in Hr by lia. rewrite Hr.
    rewrite (Z.mul_comm (Z.of_nat n)), Z_mod_plus_full.
    rewrite <- Z.add_mod_idemp_l, IH, Z.add_mod_idemp_l by lia. reflexivity.
Qed.

Lemma fermat : forall p a, prime p -> a ^ p mod p = a mod p.
Proof.
  intros p a Hp. pose proof (prime_ge_2 _ Hp).
  rewrite <- pow_mod by lia. pose proof (Z.mod_pos_bound a p ltac:(lia)).
  pose proof (fermat_nat (Z.to_nat p) (a mod p)) as F. rewrite Z2Nat.id in F by lia.
  rewrite F by (assumption || lia). apply Z.mod_mod. lia.
Qed.

Lemma mod_divide : forall a b p, 0 < p -> a mod p = b mod p <-> (p | a - b).
Proof.
  intros.
  split; intros E.
  - exists (a / p - b / p). pose proof (Z.div_mod a p). pose proof (Z.div_mod b p). nia.
  - destruct E as [k E]. replace a with (b + k * p) by lia. apply Z_mod_plus_full.
Qed.

Lemma fermat1 : forall p a, prime p -> a mod p <> 0 -> a ^ (p - 1) mod p = 1.
Proof.
  intros p a Hp Ha. pose proof (prime_ge_2 _ Hp). pose proof (fermat p a Hp) as F.
  apply mod_divide in F; [|lia].
  replace (a ^ p - a) with (a * (a ^ (p - 1) - 1)) in F.
  - apply prime_mult in F; [|assumption]. destruct F as [F|F].
    + exfalso. apply Ha. apply Z.mod_divide; [lia|assumption].
    + apply mod_divide in F; [|lia]. rewrite F. apply Z.mod_small. lia.
  - replace p with (Z.succ (p - 1)) at 2 by lia. rewrite Z.pow_succ_r by lia. ring.
Qed.

Lemma inverse_pow : forall p a, prime p -> 2 < p -> a mod p <> 0 -> (a ^ (p - 2) * a) mod p = 1.
Proof.
  intros p a Hp H2 Ha. rewrite <- (fermat1 p a Hp Ha). f_equal.
  replace (p - 1) with (Z.succ (p - 2)) by lia. rewrite Z.pow_succ_r by lia. ring.
Qed.

(* Euler's criterion for primes that are 3 mod 4 *)
Lemma euler_34 : forall p a, prime p -> p mod 4 = 3 ->
  (a ^ ((p - 1) / 2) mod p = 1 <-> (a mod p <> 0 /\ exists b, (b * b) mod p = a mod p)).
Proof.
  intros p a Hp H4. pose proof (prime_ge_2 _ Hp).
  pose proof (Z.div_mod p 4 ltac:(lia)) as D. rewrite H4 in D. set (k := p / 4) in *.
  assert (E2 : (p - 1) / 2 = 2 * k + 1) by (symmetry; apply Z.div_unique with (r := 0); lia).
  assert (0 <= k) by (apply Z.div_pos; lia).
  rewrite E2. split.
  - intros E. split.
    + intros Z0. rewrite <- pow_mod in E by lia. rewrite Z0, Z.pow_0_l in E by lia.
      rewrite Z.mod_0_l in E by lia. discriminate.
    + exists (a ^ (k + 1)). rewrite <- Z.pow_add_r by lia.
      replace (k + 1 + (k + 1)) with (Z.succ (2 * k + 1)) by lia.
      rewrite Z.pow_succ_r by lia. rewrite <- Z.mul_mod_idemp_r, E, Z.mul_1_r by lia. reflexivity.
  - intros [Ha [b Hb]]. rewrite <- pow_mod by lia. rewrite <- Hb. rewrite pow_mod by lia.
    rewrite <- Z.pow_2_r, <- Z.pow_mul_r by lia.
    replace (2 * (2 * k + 1)) with (p - 1) by lia. apply fermat1; [assumption|].
    intros Zb. apply Ha. rewrite <- Hb. rewrite Z.mul_mod, Zb by lia. reflexivity.
Qed.

(* ---------- Gaussian integers ---------- *)
Definition G : Type := (Z * Z)%type.
Definition g0 : G := (0, 0).
Definition g1 : G := (1, 0).
Definition gadd (x y : G) : G := (fst x + fst y, snd x + snd y).
Definition gsub (x y : G) : G := (fst x - fst y, snd x - snd y).
Definition gopp (x : G) : G := (- fst x, - snd x).
Definition gmul (x y : G) : G := (fst x * fst y - snd x * snd y, fst x * snd y + snd x * fst y).
Lemma Gth : ring_theory g0 g1 gadd gmul gsub gopp eq.
Proof.
  constructor; intros; repeat match goal with x : G |- _ => destruct x end;
  unfold g0, g1, gadd, gmul, gsub, gopp; cbn [fst snd]; f_equal; ring.
Qed.
Notation gpow := (rpow G g1 gmul).
Definition gcong (q : Z) (x y : G) : Prop := (q | fst x - fst y) /\ (q | snd x - snd y).

Lemma gcong_refl : forall q x, gcong q x x.
Proof. intros. split; rewrite Z.sub_diag; apply Z.divide_0_r. Qed.
Lemma gcong_sym : forall q x y, gcong q x y -> gcong q y x.
Proof.
  intros q x y [[a A] [b B]]. split; [exists (- a) | exists (- b)]; lia.
Qed.
Lemma gcong_trans : forall q x y z, gcong q x y -> gcong q y z -> gcong q x z.
Proof.
  intros q x y z [[a A] [b B]] [[c C] [d D]]. split; [exists (a + c) | exists (b + d)]; lia.
Qed.
Lemma gcong_mul : forall q x x' y y', gcong q x x' -> gcong q y y' -> gcong q (gmul x y) (gmul x' y').
Proof.
  intros q [x1 x2] [x1' x2'] [y1 y2] [y1' y2'] [[a A] [b B]] [[c C] [d D]].
  unfold gcong, gmul in *. cbn [fst snd] in *. split.
  - exists (a * y1 + x1' * c - b * y2 - x2' * d). nia.
  - exists (a * y2 + x1' * d + b * y1 + x2' * c). nia.
Qed.
Lemma gcong_pow : forall q x y n, gcong q x y -> gcong q (gpow x n) (gpow y n).
Proof. induction n; intros; cbn [rpow]; [apply gcong_refl|]. apply gcong_mul; auto. Qed.
Lemma gcong_divide : forall q N x y, (q | N) -> gcong N x y -> gcong q x y.
Proof. intros q N x y H [A A']. split; eapply Z.divide_trans; eauto. Qed.

Lemma smul_G : forall n x, smul G g0 gadd n x = (Z.of_nat n * fst x, Z.of_nat n * snd x).
Proof.
  induction n; intros [a b]; [reflexivity|]. cbn [smul]. rewrite IHn. unfold gadd. cbn [fst snd].
  rewrite Nat2Z.inj_succ. f_equal; ring.
Qed.

Lemma gpow_real : forall u n, gpow (u, 0) n = (zpow u n, 0).
Proof. induction n; [reflexivity|]. cbn [rpow]. rewrite IHn. unfold gmul. cbn [fst snd]. f_equal; ring. Qed.

Lemma gpow_imag : forall v m, exists e, (e = 1 \/ e = -1) /\ gpow (0, v) (2 * m + 1) = (0, e * zpow v (2 * m + 1)).
Proof.
  induction m.
  - exists 1. split; [left; reflexivity|]. change (2 * 0 + 1)%nat with 1%nat. cbn [rpow].
    unfold gmul, g1. cbn [fst snd]. f_equal; ring.
  - destruct IHm as (e & He & E). exists (- e). split; [lia|].
    replace (2 * S m + 1)%nat with (S (S (2 * m + 1))) by lia.
    change (gpow (0, v) (S (S (2 * m + 1)))) with (gmul (0, v) (gmul (0, v) (gpow (0, v) (2 * m + 1)))).
    change (zpow v (S (S (2 * m + 1)))) with (v * (v * zpow v (2 * m + 1))).
    rewrite E. unfold gmul. cbn [fst snd]. f_equal; ring.
Qed.

(* Frobenius: a^q is a or its conjugate *)
Lemma gauss_frobenius : forall n u v, prime (Z.of_nat n) -> Nat.Odd n ->
  gcong (Z.of_nat n) (gpow (u, v) n) (u, v) \/ gcong (Z.of_nat n) (gpow (u, v) n) (u, - v).
Proof.
  intros n u v Hp [m Hm]. pose proof (prime_ge_2 _ Hp).
  destruct (freshman G g0 g1 gadd gmul gsub gopp Gth n (u, 0) (0, v) Hp) as [r Hr].
  assert (E : gadd (u, 0) (0, v) = (u, v)) by (unfold gadd; cbn [fst snd]; f_equal; ring).
  rewrite E in Hr. rewrite Hr. rewrite gpow_real.
  destruct (gpow_imag v m) as (e & He & Ei). rewrite <- Hm in Ei. rewrite Ei, smul_G, !zpow_pow.
  pose proof (proj1 (mod_divide (u ^ Z.of_nat n) u (Z.of_nat n) ltac:(lia)) (fermat (Z.of_nat n) u Hp)) as [k1 K1].
  pose proof (proj1 (mod_divide (v ^ Z.of_nat n) v (Z.of_nat n) ltac:(lia)) (fermat (Z.of_nat n) v Hp)) as [k2 K2].
  destruct r as [r1 r2]. unfold gcong, gadd. cbn [fst snd].
  destruct He as [-> | ->]; [left | right]; split.
  - exists (k1 + r1). lia.
  - exists (k2 + r2). lia.
  - exists (k1 + r1). lia.
  - exists (- k2 + r2). lia.
Qed.

Lemma gcong_one_sub : forall q a m n, gcong q (gpow a m) g1 -> gcong q (gpow a (m + n)) g1 -> gcong q (gpow a n) g1.
Proof.
  intros q a m n H1 H2. rewrite (rpow_add G g0 g1 gadd gmul gsub gopp Gth) in H2.
  eapply gcong_trans; [|exact H2]. apply gcong_sym.
  replace (gpow a n) with (gmul g1 (gpow a n)) at 2 by apply (Rmul_1_l Gth).
  apply gcong_mul; [exact H1|apply gcong_refl].
Qed.

Lemma gcong_one_mul : forall q a m k, gcong q (gpow a m) g1 -> gcong q (gpow a (m * k)) g1.
Proof.
  intros. rewrite (rpow_mul G g0 g1 gadd gmul gsub gopp Gth).
  eapply gcong_trans; [apply gcong_pow; exact H|]. rewrite (rpow_1 G g0 g1 gadd gmul gsub gopp Gth).
  apply gcong_refl.
Qed.

Lemma gcong_one_gcd : forall q a m n, gcong q (gpow a m) g1 -> gcong q (gpow a n) g1 ->
  gcong q (gpow a (Nat.gcd m n)) g1.
Proof.
  intros q a m. induction m as [m IH] using lt_wf_ind. intros n Hm Hn.
  destruct m as [|m]; [exact Hn|].
  change (Nat.gcd (S m) n) with (Nat.gcd (n mod (S m)) (S m)).
  apply IH; [apply Nat.mod_upper_bound; lia| |exact Hm].
  apply gcong_one_sub with (m := (S m * (n / S m))%nat).
  - apply gcong_one_mul. exact Hm.
  - rewrite <- Nat.div_mod by lia. exact Hn.
Qed.

Lemma nat_divide_Z : forall a b, Nat.divide a b <-> (Z.of_nat a | Z.of_nat b).
Proof.
  intros a b. split.
  - intros [c ->]. exists (Z.of_nat c). apply Nat2Z.inj_mul.
  - intros [c C]. destruct (Nat.eq_dec a 0) as [->|N].
    + assert (b = 0)%nat by lia. subst. exists 0%nat. reflexivity.
    + exists (Z.to_nat c). apply Nat2Z.inj. rewrite Nat2Z.inj_mul, Z2Nat.id by nia. exact C.
Qed.

(* the l-part of N+1 divides every exponent killing a *)
Lemma lpart_divides : forall q a M l le m, prime (Z.of_nat l) ->
  Nat.divide le M -> (exists e, le = l ^ e)%nat ->
  gcong q (gpow a M) g1 -> ~ gcong q (gpow a (M / l)) g1 -> gcong q (gpow a m) g1 ->
  Nat.divide le m.
Proof.
  intros q a M l le m Hl Hle He HM Hn Hm.
  pose proof (gcong_one_gcd q a m M Hm HM) as Hg.
  destruct (Nat.gcd_divide_r m M) as [k Hk]. destruct (Nat.gcd_divide_l m M) as [j Hj].
  set (g := Nat.gcd m M) in *.
  pose proof (prime_ge_2 _ Hl).
  destruct (Nat.eq_dec (k mod l) 0) as [Z0|NZ].
  - exfalso. apply Hn. apply Nat.mod_divides in Z0; [|lia]. destruct Z0 as [k' K'].
    replace (M / l)%nat with (g * k')%nat; [apply gcong_one_mul; exact Hg|].
    apply Nat.div_unique_exact; [lia|]. rewrite Hk, K'. nia.
  - assert (Hg' : Nat.divide le g).
    { apply nat_divide_Z. destruct He as [e ->].
      assert (R : rel_prime (Z.of_nat l) (Z.of_nat k)).
      { apply prime_rel_prime; [assumption|]. intros [c C]. apply NZ.
        apply Nat.mod_divides; [lia|]. exists (Z.to_nat c).
        assert (0 <= c) by nia. apply Nat2Z.inj. rewrite Nat2Z.inj_mul, Z2Nat.id by assumption. lia. }
      assert (R2 : rel_prime (Z.of_nat (l ^ e)) (Z.of_nat k)).
      { rewrite Nat2Z.inj_pow. clear - R. induction e.
        - apply rel_prime_1.
        - rewrite Nat2Z.inj_succ, Z.pow_succ_r by lia. apply rel_prime_sym, rel_prime_mult; apply rel_prime_sym; assumption. }
      apply Gauss with (2 := R2). rewrite <- Nat2Z.inj_mul, <- Hk. apply nat_divide_Z. exact Hle. }
    destruct Hg' as [c C]. exists (j * c)%nat. rewrite Hj, C. nia.
Qed.

Lemma exists_prime_divisor : forall n, 1 < n -> exists q, prime q /\ (q | n).
Proof.
  intros n H. assert (Hn : 0 <= n) by lia. revert H. pattern n. apply Z_lt_induction; [|exact Hn].
  clear n Hn. intros n IH H. destruct (prime_dec n) as [P|NP].
  - exists n. split; [assumption|apply Z.divide_refl].
  - destruct (not_prime_divide n H NP) as (d & Hd & D).
    destruct (IH d ltac:(lia) ltac:(lia)) as (q & Hq & Q). exists q. split; [assumption|].
    eapply Z.divide_trans; eauto.
Qed.

Lemma prime_by_divisors : forall N m, 1 < N -> N < m * m -> 0 < m ->
  (forall q, prime q -> (q | N) -> m <= q) -> prime N.
Proof.
  intros N m HN Hm Hp H. destruct (prime_dec N) as [P|NP]; [assumption|exfalso].
  destruct (not_prime_divide N HN NP) as (d & Hd & [c D]).
  assert (1 < c) by nia.
  destruct (exists_prime_divisor d ltac:(lia)) as (q & Hq & Q).
  destruct (exists_prime_divisor c ltac:(lia)) as (r & Hr & R).
  assert (m <= q) by (apply H; [assumption|]; eapply Z.divide_trans; [exact Q|]; exists c; lia).
  assert (m <= r) by (apply H; [assumption|]; eapply Z.divide_trans; [exact R|]; exists d; lia).
  apply Z.divide_pos_le in Q; [|lia]. apply Z.divide_pos_le in R; [|lia]. nia.
Qed.

Fixpoint zprod (l : list Z) : Z := match l with [] => 1 | x :: t => x * zprod t end.

Lemma zprod_rel_prime : forall L x, (forall y, In y L -> rel_prime x y) -> rel_prime x (zprod L).
Proof.
  induction L; intros x H; cbn [zprod].
  - apply rel_prime_sym, rel_prime_1.
  - apply rel_prime_mult; [apply H; left; reflexivity|]. apply IHL. intros. apply H. right. assumption.
Qed.

Lemma zprod_divides : forall L m, ForallOrdPairs rel_prime L -> (forall x, In x L -> (x | m)) -> (zprod L | m).
Proof.
  induction 1 as [|x L Hx HL IH]; intros H; cbn [zprod]; [apply Z.divide_1_l|].
  destruct (H x ltac:(left; reflexivity)) as [c C].
  assert (D : (zprod L | x * c)).
  { rewrite Z.mul_comm, <- C. apply IH. intros; apply H; right; assumption. }
  apply Gauss in D.
  - destruct D as [k K]. exists k. rewrite C, K. ring.
  - apply rel_prime_sym, zprod_rel_prime. intros y Hy. rewrite Forall_forall in Hx. apply Hx. exact Hy.
Qed.

(* a certificate item: a prime l, a power le of it dividing N+1, and an inverse modulo N of
   (real part of a^((N+1)/l)) - 1 *)
Definition item_ok (N : Z) (a : G) (it : Z * Z) : Prop :=
  let '(l, le) := it in
  prime l /\ (exists e, 0 <= e /\ le = l ^ e) /\ (le | N + 1) /\
  exists w, (N | (fst (gpow a (Z.to_nat ((N + 1) / l))) - 1) * w - 1).

Theorem nplus1_prime : forall N u v L, 1 < N -> N mod 2 = 1 ->
  (N | u * u + v * v - 1) ->
  gcong N (gpow (u, v) (Z.to_nat (N + 1))) g1 ->
  Forall (item_ok N (u, v)) L ->
  ForallOrdPairs rel_prime (map snd L) ->
  1 < zprod (map snd L) - 1 -> N < (zprod (map snd L) - 1) * (zprod (map snd L) - 1) ->
  prime N.
Proof.
  intros N u v L HN Hodd Hnorm Hord Hit Hcop HF HF2.
  set (F := zprod (map snd L)) in *.
  apply prime_by_divisors with (m := F - 1); [assumption|assumption|lia|].
  intros q Hq Qd. pose proof (prime_ge_2 _ Hq) as Q2.
  set (n := Z.to_nat q). assert (Hn : Z.of_nat n = q) by (apply Z2Nat.id; lia).
  assert (Qodd : q mod 2 = 1).
  { destruct Qd as [c ->]. rewrite Z.mul_mod in Hodd by lia.
    pose proof (Z.mod_pos_bound q 2 ltac:(lia)). destruct (Z.eq_dec (q mod 2) 0) as [E|E]; [|lia].
    rewrite E, Z.mul_0_r in Hodd. discriminate. }
  assert (Hno : Nat.Odd n).
  { exists (Z.to_nat (q / 2)). pose proof (Z.div_mod q 2). lia. }
  assert (Q3 : 3 <= q) by (pose proof (Z.div_mod q 2); lia).
  assert (Hnq : (q | u * u + v * v - 1)) by (apply Z.divide_trans with (m := N); assumption).
  assert (Hnorm1 : gcong q (gmul (u, v) (u, - v)) g1).
  { unfold gcong, gmul, g1. cbn [fst snd]. split.
    - replace (u * u - v * - v - 1) with (u * u + v * v - 1) by ring. exact Hnq.
    - replace (u * - v + v * u - 0) with 0 by ring. apply Z.divide_0_r. }
  assert (Hm : exists m, (m = q - 1 \/ m = q + 1) /\ gcong q (gpow (u, v) (Z.to_nat m)) g1).
  { destruct (gauss_frobenius n u v ltac:(rewrite Hn; assumption) Hno) as [H|H]; rewrite Hn in H.
    - exists (q - 1). split; [left; reflexivity|].
      assert (En : n = S (Z.to_nat (q - 1))) by lia. rewrite En in H. cbn [rpow] in H.
      pose proof (gcong_mul q _ _ (u, - v) (u, - v) H (gcong_refl _ _)) as H1.
      pose proof (gcong_trans _ _ _ _ H1 Hnorm1) as H2.
      eapply gcong_trans; [|exact H2]. apply gcong_sym.
      replace (gmul (gmul (u, v) (gpow (u, v) (Z.to_nat (q - 1)))) (u, - v))
        with (gmul (gmul (u, v) (u, - v)) (gpow (u, v) (Z.to_nat (q - 1)))).
      + replace (gpow (u, v) (Z.to_nat (q - 1))) with (gmul g1 (gpow (u, v) (Z.to_nat (q - 1)))) at 2 by apply (Rmul_1_l Gth).
        apply gcong_mul; [exact Hnorm1|apply gcong_refl].
      + destruct (gpow (u, v) (Z.to_nat (q - 1))) as [a b]. unfold gmul. cbn [fst snd]. f_equal; ring.
    - exists (q + 1). split; [right; reflexivity|].
      replace (Z.to_nat (q + 1)) with (S n) by lia. cbn [rpow].
      eapply gcong_trans; [|exact Hnorm1]. apply gcong_mul; [apply gcong_refl|exact H]. }
  destruct Hm as (m & Hm & Km).
  assert (D : (F | m)).
  { apply zprod_divides; [exact Hcop|]. intros x Hx. apply in_map_iff in Hx.
    destruct Hx as ([l le] & <- & Hin). cbn [snd]. rewrite Forall_forall in Hit. specialize (Hit _ Hin).
    destruct Hit as (Hl & (e & He & Ele) & Hd & w & Hw). pose proof (prime_ge_2 _ Hl).
    assert (0 < le) by (rewrite Ele; apply Z.pow_pos_nonneg; lia).
    assert (Hdv : Nat.divide (Z.to_nat le) (Z.to_nat m)).
    { apply lpart_divides with (q := q) (a := (u, v)) (M := Z.to_nat (N + 1)) (l := Z.to_nat l).
      - rewrite Z2Nat.id by lia. exact Hl.
      - apply nat_divide_Z. rewrite !Z2Nat.id by lia. exact Hd.
      - exists (Z.to_nat e). rewrite Ele. apply Nat2Z.inj. rewrite Nat2Z.inj_pow, !Z2Nat.id by lia. reflexivity.
      - apply gcong_divide with (N := N); assumption.
      - replace (Z.to_nat (N + 1) / Z.to_nat l)%nat with (Z.to_nat ((N + 1) / l)).
        + intros [C _]. cbn [fst g1] in C.
          assert (Hqw : (q | (fst (gpow (u, v) (Z.to_nat ((N + 1) / l))) - 1) * w - 1)) by (apply Z.divide_trans with (m := N); assumption).
          assert (Hq1 : (q | 1)).
          { replace 1 with ((fst (gpow (u, v) (Z.to_nat ((N + 1) / l))) - 1) * w
                            - ((fst (gpow (u, v) (Z.to_nat ((N + 1) / l))) - 1) * w - 1)) by ring.
            apply Z.divide_sub_r; [apply Z.divide_mul_l; exact C|exact Hqw]. }
          apply Z.divide_1_r_nonneg in Hq1; lia.
        + apply Nat2Z.inj. rewrite Z2Nat.id by (apply Z.div_pos; lia).
          rewrite Nat2Z.inj_div, !Z2Nat.id by lia. reflexivity.
      - exact Km. }
    apply nat_divide_Z in Hdv. rewrite !Z2Nat.id in Hdv by lia. exact Hdv. }
  apply Z.divide_pos_le in D; lia.
Qed.
