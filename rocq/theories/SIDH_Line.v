(* The x-line of a Montgomery curve over any field of characteristic not 2, 3, in homogeneous
   coordinates (X : Z): doubling, tripling, differential addition, the 3- and 4-isogenies of
   dh/sidh as maps between x-lines, and the square of a 3- and a 4-isogeny, which is what makes
   the two parties of the key exchange end on the same curve.  Nothing here mentions the Go code. *)
From Coq Require Import ZArith List Lia Bool Field.
From Verif Require Import FieldAlg MontCurve.

Section Line.
  Variable F : fld.
  Add Field Ff : (k_th F).
  Local Infix "+" := kadd. Local Infix "*" := kmul. Local Infix "-" := ksub. Local Infix "/" := kdiv.
  Local Notation "- x" := (kopp x). Local Notation "0" := k0. Local Notation "1" := k1.
  Local Notation "2" := (1 + 1). Local Notation "3" := (1 + 1 + 1). Local Notation "4" := ((1 + 1) * (1 + 1)).
  Local Notation "6" := ((1 + 1) * (1 + 1 + 1)).
  Hypothesis two_nz : 2 <> 0 :> F.
  Hypothesis three_nz : 3 <> 0 :> F.

  Ltac nz1 := repeat apply k_mul_nz; try assumption.
  Ltac fnz := repeat apply conj; nz1.

  (* ---------- points of the line ---------- *)
  Definition pt : Type := (F * F)%type.
  Definition nz (p : pt) : Prop := ~ (fst p = 0 /\ snd p = 0).
  Definition eqv (p q : pt) : Prop := exists k, k <> 0 /\ fst p = k * fst q /\ snd p = k * snd q.
  Definition aff (p : pt) : F := fst p / snd p.

  Lemma eqv_refl : forall p, eqv p p.
  Proof. intros p. exists 1. split; [apply k_one_nz|]. split; ring. Qed.
  Lemma eqv_sym : forall p q, eqv p q -> eqv q p.
  Proof.
    intros p q (k & K & E1 & E2). exists (kinv k). split; [apply k_inv_nz; exact K|].
    rewrite E1, E2. split; field; exact K.
  Qed.
  Lemma eqv_trans : forall p q r, eqv p q -> eqv q r -> eqv p r.
  Proof.
    intros p q r (k & K & E1 & E2) (l & L & E3 & E4). exists (k * l). split; [nz1|].
    rewrite E1, E2, E3, E4. split; ring.
  Qed.
  Lemma eqv_nz : forall p q, eqv p q -> nz p -> nz q.
  Proof. intros p q (k & K & E1 & E2) N [H1 H2]. apply N. rewrite E1, E2, H1, H2. split; ring. Qed.
  Lemma eqv_fst0 : forall p q, eqv p q -> fst p = 0 -> fst q = 0.
  Proof. intros p q (k & K & E1 & E2) H. rewrite H in E1. symmetry in E1. destruct (k_integral F _ _ E1); [contradiction|assumption]. Qed.
  Lemma eqv_snd0 : forall p q, eqv p q -> snd p = 0 -> snd q = 0.
  Proof. intros p q (k & K & E1 & E2) H. rewrite H in E2. symmetry in E2. destruct (k_integral F _ _ E2); [contradiction|assumption]. Qed.
  Lemma aff_eqv : forall p, snd p <> 0 -> eqv p (aff p, 1).
  Proof. intros [X Z] H. cbn [fst snd] in *. exists Z. split; [exact H|]. unfold aff. cbn [fst snd]. split; [field; exact H|ring]. Qed.
  Lemma eqv_aff : forall p q, eqv p q -> aff p = aff q.
  Proof.
    intros [X Z] [X' Z'] (k & K & E1 & E2). unfold aff. cbn [fst snd] in *. subst.
    destruct (k_dec Z' 0) as [->|N].
    - assert (G : forall x : F, x / 0 = 0). { intros x. rewrite (Field_theory.Fdiv_def (k_th F)), k_inv0. ring. }
      replace (k * 0) with (0 : F) by ring. rewrite !G. reflexivity.
    - field. split; assumption.
  Qed.
  Lemma aff_1 : forall x : F, aff (x, 1) = x.
  Proof. intros x. unfold aff. cbn [fst snd]. field. apply k_one_nz. Qed.
  Lemma eqv_aff1 : forall p x, eqv p (x, 1) -> aff p = x.
  Proof. intros p x H. rewrite (eqv_aff _ _ H). apply aff_1. Qed.
  Lemma eqv_aff_snd : forall p x, eqv p (x, 1) -> snd p <> 0.
  Proof. intros p x (k & K & _ & E) H. cbn [snd] in E. apply K. rewrite <- H, E. ring. Qed.
  Lemma nz_1 : forall x : F, nz (x, 1).
  Proof. intros x [_ H]. exact (k_one_nz F H). Qed.
  Lemma inf_eqv : forall p q, nz p -> nz q -> snd p = 0 -> snd q = 0 -> eqv p q.
  Proof.
    intros [X Z] [X' Z'] N N' H H'. cbn [snd] in *. subst.
    assert (A : X <> 0) by (intros ->; apply N; split; reflexivity). assert (B : X' <> 0) by (intros ->; apply N'; split; reflexivity).
    exists (X / X'). split.
    - intros E. apply A. transitivity (X / X' * X'); [field; exact B|]. rewrite E. ring.
    - cbn [fst snd]. split; field; exact B.
  Qed.
  Lemma zero_eqv : forall p q, nz p -> nz q -> fst p = 0 -> fst q = 0 -> eqv p q.
  Proof.
    intros [X Z] [X' Z'] N N' H H'. cbn [fst] in *. subst.
    assert (A : Z <> 0) by (intros ->; apply N; split; reflexivity). assert (B : Z' <> 0) by (intros ->; apply N'; split; reflexivity).
    exists (Z / Z'). split.
    - intros E. apply A. transitivity (Z / Z' * Z'); [field; exact B|]. rewrite E. ring.
    - cbn [fst snd]. split; field; exact B.
  Qed.
  Lemma cross_eqv : forall p q, nz p -> nz q -> fst p * snd q = fst q * snd p -> eqv p q.
  Proof.
    intros [X Z] [X' Z'] N N' E. cbn [fst snd] in *. destruct (k_dec Z' 0) as [->|B].
    - apply inf_eqv; try assumption; [|reflexivity]. cbn [snd].
      destruct (k_integral F X' Z) as [h|h]; [rewrite <- E; ring| |exact h]. exfalso. apply N'. split; [exact h|reflexivity].
    - assert (A : Z <> 0). { intros ->. apply N. split; [|reflexivity]. destruct (k_integral F X Z') as [h|h]; [rewrite E; cbn [fst snd]; ring|exact h|contradiction]. }
      exists (Z / Z'). split.
      + intros G. apply A. transitivity (Z / Z' * Z'); [field; exact B|]. rewrite G. ring.
      + cbn [fst snd]. split; [|field; exact B]. apply (k_cancel F Z'); [exact B|]. transitivity (X * Z'); [ring|]. rewrite E. field. exact B.
  Qed.

  (* ---------- the maps ---------- *)
  Definition dbl (a : F) (p : pt) : pt := (dblX F (fst p) (snd p), dblZ F a (fst p) (snd p)).
  Definition tpl (a : F) (p : pt) : pt := let '(X, Z) := p in
    let N := X * X * (X * X) - 6 * (X * X) * (Z * Z) - 4 * a * X * (Z * Z * Z) - 3 * (Z * Z * (Z * Z)) in
    let D := 3 * (X * X * (X * X)) + 4 * a * (X * X * X) * Z + 6 * (X * X) * (Z * Z) - Z * Z * (Z * Z) in
    (X * (N * N), Z * (D * D)).
  Definition dadd (p q d : pt) : pt :=
    (addX F (fst p) (snd p) (fst q) (snd q) (snd d), addZ F (fst p) (snd p) (fst q) (snd q) (fst d)).
  (* 3-isogeny with kernel x-coordinate t, 4-isogeny with kernel generator x-coordinate s *)
  Definition iso3 (t : F) (p : pt) : pt := let '(X, Z) := p in
    (X * ((X * t - Z) * (X * t - Z)), Z * ((X - t * Z) * (X - t * Z))).
  Definition cod3 (a t : F) : F := t * (a * t - 6 * (t * t) + 6).
  Definition iso4 (s : F) (p : pt) : pt := let '(X, Z) := p in
    (X * ((X * s - Z) * (X * s - Z)) * (2 * s * Z - (s * s + 1) * X),
     Z * ((X - s * Z) * (X - s * Z)) * (2 * s * X - (s * s + 1) * Z)).
  Definition cod4 (s : F) : F := 4 * (s * s * (s * s)) - 2.
  (* t is the x-coordinate of a point of order 3; s of one of order 4 whose double is not (0,0) *)
  Definition psi3 (a t : F) : F := 3 * (t * t * (t * t)) + 4 * a * (t * t * t) + 6 * (t * t) - 1.
  Definition q4 (a s : F) : F := s * s * (s * s) + 2 * a * (s * s * s) + 6 * (s * s) + 2 * a * s + 1.
  Definition nonsing (a : F) : Prop := a * a <> 4.

  (* x(P), x(Q), x(D) with P + Q + D = 0 for some choice of signs *)
  Definition fU (p q : pt) : F := fst p * fst q - snd p * snd q.
  Definition fV (p q : pt) : F := fst p * snd q - snd p * fst q.
  Definition fM (a : F) (p q : pt) : F :=
    (fst p * snd q + snd p * fst q) * (fst p * fst q + snd p * snd q) + 2 * a * (fst p * fst q) * (snd p * snd q).
  Definition rel (a : F) (p q d : pt) : Prop :=
    fV p q * fV p q * (fst d * fst d) + fU p q * fU p q * (snd d * snd d) = 2 * fM a p q * (fst d * snd d).

  Lemma dadd_UV : forall p q d, dadd p q d = (snd d * (fU p q * fU p q), fst d * (fV p q * fV p q)).
  Proof. reflexivity. Qed.

  (* ---------- maps respect scaling ---------- *)
  Lemma dbl_eqv : forall a p q, eqv p q -> eqv (dbl a p) (dbl a q).
  Proof.
    intros a [X Z] [X' Z'] (k & K & E1 & E2). cbn [fst snd] in *. subst. exists (k * k * (k * k)). split; [nz1|].
    unfold dbl, dblX, dblZ. cbn [fst snd]. split; ring.
  Qed.
  Lemma tpl_eqv : forall a p q, eqv p q -> eqv (tpl a p) (tpl a q).
  Proof.
    intros a [X Z] [X' Z'] (k & K & E1 & E2). cbn [fst snd] in *. subst. exists (k * k * k * (k * k * k) * (k * k * k)). split; [nz1|].
    unfold tpl. cbn [fst snd]. split; ring.
  Qed.
  Lemma iso3_eqv : forall t p q, eqv p q -> eqv (iso3 t p) (iso3 t q).
  Proof.
    intros a [X Z] [X' Z'] (k & K & E1 & E2). cbn [fst snd] in *. subst. exists (k * k * k). split; [nz1|].
    unfold iso3. cbn [fst snd]. split; ring.
  Qed.
  Lemma iso4_eqv : forall t p q, eqv p q -> eqv (iso4 t p) (iso4 t q).
  Proof.
    intros a [X Z] [X' Z'] (k & K & E1 & E2). cbn [fst snd] in *. subst. exists (k * k * (k * k)). split; [nz1|].
    unfold iso4. cbn [fst snd]. split; ring.
  Qed.
  Lemma dadd_eqv : forall p q d p' q' d', eqv p p' -> eqv q q' -> eqv d d' -> eqv (dadd p q d) (dadd p' q' d').
  Proof.
    intros [X1 Z1] [X2 Z2] [X3 Z3] [X1' Z1'] [X2' Z2'] [X3' Z3'] (k & K & E1 & E2) (l & L & E3 & E4) (m & M & E5 & E6).
    cbn [fst snd] in *. subst. exists (k * k * (l * l) * m). split; [nz1|]. unfold dadd, addX, addZ. cbn [fst snd]. split; ring.
  Qed.
  Lemma rel_eqv : forall a p q d p' q' d', eqv p p' -> eqv q q' -> eqv d d' -> rel a p q d -> rel a p' q' d'.
  Proof.
    intros a [X1 Z1] [X2 Z2] [X3 Z3] [X1' Z1'] [X2' Z2'] [X3' Z3'] (k & K & E1 & E2) (l & L & E3 & E4) (m & M & E5 & E6).
    unfold rel, fU, fV, fM. cbn [fst snd] in *. subst. intros H.
    apply (k_cancel F (k * k * (l * l) * (m * m))); [nz1|]. transitivity (fV (k * X1', k * Z1') (l * X2', l * Z2') * fV (k * X1', k * Z1') (l * X2', l * Z2') * (m * X3' * (m * X3')) + fU (k * X1', k * Z1') (l * X2', l * Z2') * fU (k * X1', k * Z1') (l * X2', l * Z2') * (m * Z3' * (m * Z3'))).
    - unfold fU, fV. cbn [fst snd]. ring.
    - unfold fU, fV. cbn [fst snd]. rewrite H. ring.
  Qed.

  (* ---------- special points ---------- *)
  Lemma nonsing_pm : forall a x, nonsing a -> x * x = 1 -> x * x + a * x + 1 <> 0.
  Proof.
    intros a x N E H. apply N.
    assert (A : a * x = - (2)). { transitivity (x * x + a * x + 1 - x * x - 1); [ring|]. rewrite H, E. ring. }
    transitivity (a * a * (x * x)); [rewrite E; ring|]. transitivity ((a * x) * (a * x)); [ring|]. rewrite A. ring.
  Qed.
  Lemma psi3_a : forall a t, psi3 a t = 0 -> t <> 0 /\ a = (1 - 6 * (t * t) - 3 * (t * t * (t * t))) / (4 * (t * t * t)).
  Proof.
    intros a t H. assert (N : t <> 0).
    { intros ->. unfold psi3 in H. apply (k_one_nz F). transitivity (- (3 * (0 * 0 * (0 * 0)) + 4 * a * (0 * 0 * 0) + 6 * (0 * 0) - 1 : F)); [ring|]. rewrite H. ring. }
    split; [exact N|]. assert (E : 4 * (t * t * t) * a = (1 - 6 * (t * t) - 3 * (t * t * (t * t)))).
    { transitivity (psi3 a t + (1 - 6 * (t * t) - 3 * (t * t * (t * t)))); [unfold psi3; ring|]. rewrite H. ring. }
    rewrite <- E. field. fnz.
  Qed.
  Lemma psi3_t : forall a t, nonsing a -> psi3 a t = 0 -> t <> 0 /\ t * t <> 1.
  Proof.
    intros a t NS H. split; [apply (psi3_a a t H)|]. intros E. apply NS.
    assert (G : 4 * a * t = - (4 * 2)).
    { transitivity (psi3 a t - (3 * (t * t * (t * t)) + 6 * (t * t) - 1) + 4 * a * t * (1 - t * t)); [unfold psi3; ring|]. rewrite H, E. ring. }
    apply (k_cancel F (4 * 4)); [nz1|]. transitivity ((4 * a * t) * (4 * a * t) + (4 * 4 * (a * a)) * (1 - t * t)); [ring|]. rewrite G, E. ring.
  Qed.
  Lemma q4_s : forall a s, nonsing a -> q4 a s = 0 -> s <> 0 /\ s * s + 1 <> 0 /\ s * s - 1 <> 0.
  Proof.
    intros a s NS H. unfold q4 in H. repeat apply conj.
    - intros ->. apply (k_one_nz F). rewrite <- H. ring.
    - intros E. assert (S : s * s = - (1)) by (transitivity (s * s + 1 - 1); [ring|rewrite E; ring]).
      assert (G : 4 = 0 :> F). { transitivity (- (s * s * (s * s) + 2 * a * (s * s * s) + 6 * (s * s) + 2 * a * s + 1) + (s * s) * (s * s) + 2 * a * s * (s * s + 1) + 6 * (s * s) + 1 + 4); [ring|]. rewrite H, E, S. ring. }
      revert G. nz1.
    - intros E. apply NS. assert (S : s * s = 1) by (apply k_sub_eq; exact E).
      assert (G : 4 * a * s = - (4 * 2)).
      { transitivity (s * s * (s * s) + 2 * a * (s * s * s) + 6 * (s * s) + 2 * a * s + 1 - (s * s) * (s * s) - 6 * (s * s) - 1 - 2 * a * s * (s * s - 1)); [ring|]. rewrite H, E, S. ring. }
      apply (k_cancel F (4 * 4)); [nz1|]. transitivity ((4 * a * s) * (4 * a * s) + (4 * 4 * (a * a)) * (1 - s * s)); [ring|]. rewrite G, S. ring.
  Qed.
  Lemma q4_a : forall a s, nonsing a -> q4 a s = 0 -> a = - (s * s * (s * s) + 6 * (s * s) + 1) / (2 * s * (s * s + 1)).
  Proof.
    intros a s NS H. destruct (q4_s a s NS H) as (N1 & N2 & _).
    assert (E : 2 * s * (s * s + 1) * a = - (s * s * (s * s) + 6 * (s * s) + 1)).
    { transitivity (q4 a s - (s * s * (s * s) + 6 * (s * s) + 1)); [unfold q4; ring|]. rewrite H. ring. }
    rewrite <- E. field. fnz.
  Qed.

  (* ---------- maps do not vanish ---------- *)
  Lemma dbl_nz : forall a p, nonsing a -> nz p -> nz (dbl a p).
  Proof.
    intros a [X Z] NS N [H1 H2]. unfold dbl, dblX, dblZ in *. cbn [fst snd] in *.
    apply (k_sqr_0 F) in H1.
    assert (E : X * X = Z * Z) by (apply k_sub_eq; exact H1).
    assert (NX : X <> 0). { intros ->. apply N. split; [reflexivity|]. cbn [snd]. apply (k_sqr_0 F). rewrite <- E. ring. }
    assert (NZ : Z <> 0). { intros ->. apply NX. apply (k_sqr_0 F). rewrite E. ring. }
    revert H2. apply k_mul_nz; [nz1|]. intros G.
    apply (nonsing_pm a (X / Z) NS).
    - transitivity (X * X / (Z * Z)); [field; exact NZ|]. rewrite E. field. exact NZ.
    - transitivity ((X * X + a * X * Z + Z * Z) / (Z * Z)); [field; exact NZ|]. rewrite G. field. exact NZ.
  Qed.
  Lemma tpl_nz : forall a p, nonsing a -> nz p -> nz (tpl a p).
  Proof.
    intros a [X Z] NS N [H1 H2]. unfold tpl in *. cbn [fst snd] in *.
    destruct (k_dec X 0) as [->|NX].
    { assert (NZ : Z <> 0) by (intros ->; apply N; split; reflexivity). revert H2.
      match goal with |- ?g = 0 -> False => replace g with (Z * Z * Z * (Z * Z * Z) * (Z * Z * Z)) by ring end. nz1. }
    destruct (k_dec Z 0) as [->|NZ].
    { revert H1. match goal with |- ?g = 0 -> False => replace g with (X * X * X * (X * X * X) * (X * X * X)) by ring end. nz1. }
    destruct (k_integral F _ _ H1) as [h|h1]; [contradiction|]. apply (k_sqr_0 F) in h1.
    destruct (k_integral F _ _ H2) as [h|h2]; [contradiction|]. apply (k_sqr_0 F) in h2.
    set (x := X / Z). assert (Nx : x <> 0). { intros E. apply NX. transitivity (x * Z); [unfold x; field; exact NZ|]. rewrite E. ring. }
    assert (P : psi3 a x = 0). { unfold psi3, x. transitivity ((3 * (X * X * (X * X)) + 4 * a * (X * X * X) * Z + 6 * (X * X) * (Z * Z) - Z * Z * (Z * Z)) / (Z * Z * (Z * Z))); [field; exact NZ|]. rewrite h2. field. exact NZ. }
    destruct (psi3_t a x NS P) as [_ N1]. destruct (psi3_a a x P) as [_ A].
    assert (Q : x * x * (x * x) - 6 * (x * x) - 4 * a * x - 3 = 0).
    { unfold x. transitivity ((X * X * (X * X) - 6 * (X * X) * (Z * Z) - 4 * a * X * (Z * Z * Z) - 3 * (Z * Z * (Z * Z))) / (Z * Z * (Z * Z))); [field; exact NZ|]. rewrite h1. field. exact NZ. }
    rewrite A in Q.
    assert (C : (x * x - 1) * (x * x - 1) * (x * x - 1) = 0).
    { transitivity (x * x * (x * x * (x * x) - 6 * (x * x) - 4 * ((1 - 6 * (x * x) - 3 * (x * x * (x * x))) / (4 * (x * x * x))) * x - 3)); [field; fnz|]. rewrite Q. ring. }
    revert C. assert (D : x * x - 1 <> 0) by (apply k_sub_nz; exact N1). nz1.
  Qed.
  Lemma iso3_nz : forall t p, t <> 0 -> t * t <> 1 -> nz p -> nz (iso3 t p).
  Proof.
    intros t [X Z] N0 N1 N [H1 H2]. unfold iso3 in *. cbn [fst snd] in *.
    destruct (k_integral F _ _ H1) as [->|h1].
    { destruct (k_integral F _ _ H2) as [->|h2]; [apply N; split; reflexivity|]. apply (k_sqr_0 F) in h2.
      apply N. split; [reflexivity|]. cbn [snd]. apply (k_cancel F t); [exact N0|]. transitivity (- (0 - t * Z)); [ring|]. rewrite h2. ring. }
    apply (k_sqr_0 F) in h1. apply k_sub_eq in h1. subst Z.
    assert (NX : X <> 0) by (intros ->; apply N; cbn [fst snd]; split; ring).
    destruct (k_integral F _ _ H2) as [h2|h2].
    { apply NX. apply (k_cancel F t); [exact N0|]. rewrite (Rmul_comm (F_R (k_th F))). rewrite h2. ring. }
    apply (k_sqr_0 F) in h2. apply N1. apply (k_cancel F X); [exact NX|]. transitivity (X - (X - t * (X * t))); [ring|]. rewrite h2. ring.
  Qed.
  Lemma iso4_nz : forall s p, s <> 0 -> s * s + 1 <> 0 -> s * s - 1 <> 0 -> nz p -> nz (iso4 s p).
  Proof.
    intros s [X Z] N0 N1 N2 N [H1 H2]. unfold iso4 in *. cbn [fst snd] in *.
    destruct (k_dec X 0) as [->|NX].
    { assert (NZ : Z <> 0) by (intros ->; apply N; split; reflexivity). revert H2.
      match goal with |- ?g = 0 -> False => replace g with (- (Z * Z * Z * Z * (s * s) * (s * s + 1))) by ring end. intros E.
      assert (G : Z * Z * Z * Z * (s * s) * (s * s + 1) = 0). { match goal with |- ?g = 0 => transitivity (- - g); [ring|] end. rewrite E. ring. }
      revert G. nz1. }
    destruct (k_dec Z 0) as [->|NZ].
    { revert H1. match goal with |- ?g = 0 -> False => replace g with (- (X * X * X * X * (s * s) * (s * s + 1))) by ring end. intros E.
      assert (G : X * X * X * X * (s * s) * (s * s + 1) = 0). { match goal with |- ?g = 0 => transitivity (- - g); [ring|] end. rewrite E. ring. }
      revert G. nz1. }
    assert (A : X * s - Z = 0 \/ 2 * s * Z - (s * s + 1) * X = 0).
    { destruct (k_integral F _ _ H1) as [h|h]; [|right; exact h]. destruct (k_integral F _ _ h) as [h'|h']; [contradiction|]. left. apply (k_sqr_0 F). exact h'. }
    assert (B : X - s * Z = 0 \/ 2 * s * X - (s * s + 1) * Z = 0).
    { destruct (k_integral F _ _ H2) as [h|h]; [|right; exact h]. destruct (k_integral F _ _ h) as [h'|h']; [contradiction|]. left. apply (k_sqr_0 F). exact h'. }
    destruct A as [A|A], B as [B|B].
    - assert (G : X * (s * s - 1) = 0). { transitivity (s * (X * s - Z) - (X - s * Z)); [ring|]. rewrite A, B. ring. } revert G. nz1.
    - assert (G : X * s * (s * s - 1) = 0). { transitivity ((s * s + 1) * (X * s - Z) - (2 * s * X - (s * s + 1) * Z)); [ring|]. rewrite A, B. ring. } revert G. nz1.
    - assert (G : Z * s * (s * s - 1) = 0). { transitivity (- ((s * s + 1) * (X - s * Z) + (2 * s * Z - (s * s + 1) * X))); [ring|]. rewrite A, B. ring. } revert G. nz1.
    - assert (G : Z * ((s * s - 1) * (s * s - 1)) = 0). { transitivity (- ((2 * s) * (2 * s * Z - (s * s + 1) * X) + (s * s + 1) * (2 * s * X - (s * s + 1) * Z))); [ring|]. rewrite A, B. ring. } revert G. nz1.
  Qed.
  Lemma cod3_nonsing : forall a t, nonsing a -> psi3 a t = 0 -> nonsing (cod3 a t).
  Proof.
    intros a t NS H E. apply NS. destruct (psi3_a a t H) as [N A]. unfold cod3 in E. rewrite A in *.
    assert (Q : (1 - 3 * t) * ((1 - 3 * t) * (1 - 3 * t)) * (1 + t) * ((1 + 3 * t) * ((1 + 3 * t) * (1 + 3 * t)) * (1 - t)) = 0).
    { match type of E with ?c * ?c = _ => transitivity ((c * c - 4) * (4 * t) * (4 * t)) end; [field; fnz|]. rewrite E. ring. }
    assert (L : (1 + t) * (1 - 3 * t) * ((1 - t) * (1 + 3 * t)) = 0).
    { destruct (k_integral F _ _ Q) as [h|h]; destruct (k_integral F _ _ h) as [h'|h']; try (rewrite h'; ring);
        (destruct (k_integral F _ _ h') as [h2|h2]; [rewrite h2; ring|]); apply (k_sqr_0 F) in h2; rewrite h2; ring. }
    match goal with |- ?c * ?c = _ => transitivity (4 + (1 + t) * (1 + t) * ((1 - t) * (1 - t)) * ((1 + t) * (1 - 3 * t) * ((1 - t) * (1 + 3 * t))) / (4 * (t * t * t) * (4 * (t * t * t)))) end; [field; fnz|].
    rewrite L. field. fnz.
  Qed.
  Lemma cod4_nonsing : forall a s, nonsing a -> q4 a s = 0 -> nonsing (cod4 s).
  Proof.
    intros a s NS H E. destruct (q4_s a s NS H) as (N0 & N1 & N2). unfold cod4 in E.
    assert (G : 4 * 4 * (s * s * (s * s)) * ((s * s + 1) * (s * s - 1)) = 0).
    { transitivity ((4 * (s * s * (s * s)) - 2) * (4 * (s * s * (s * s)) - 2) - 4); [ring|]. rewrite E. ring. }
    revert G. nz1.
  Qed.

  (* ---------- homomorphisms of x-lines ---------- *)
  (* what a map of x-lines induced by a group homomorphism E_a -> E_a' has to satisfy *)
  Record xhom (a a' : F) (h : pt -> pt) : Prop := {
    xh_dom : nonsing a;
    xh_cod : nonsing a';
    xh_nz : forall p, nz p -> nz (h p);
    xh_eqv : forall p q, eqv p q -> eqv (h p) (h q);
    xh_inf : forall p, snd p = 0 -> snd (h p) = 0;
    xh_zero : forall p, fst p = 0 -> fst (h p) = 0;
    xh_dbl : forall p, eqv (dbl a' (h p)) (h (dbl a p));
    xh_rel : forall p q d, nz d -> rel a p q d -> rel a' (h p) (h q) (h d);
    xh_add : forall p q d, rel a p q d -> fst (h d) <> 0 -> snd (h d) <> 0 -> eqv (dadd (h p) (h q) (h d)) (h (dadd p q d))
  }.

  Lemma xhom_id : forall a, nonsing a -> xhom a a (fun p => p).
  Proof. intros a H. split; auto using eqv_refl. Qed.
  Lemma xhom_comp : forall a a' a'' h h', xhom a a' h -> xhom a' a'' h' -> xhom a a'' (fun p => h' (h p)).
  Proof.
    intros a a' a'' h h' H H'. split.
    - apply H.
    - apply H'.
    - intros p N. apply (xh_nz _ _ _ H'), (xh_nz _ _ _ H), N.
    - intros p q E. apply (xh_eqv _ _ _ H'), (xh_eqv _ _ _ H), E.
    - intros p E. apply (xh_inf _ _ _ H'), (xh_inf _ _ _ H), E.
    - intros p E. apply (xh_zero _ _ _ H'), (xh_zero _ _ _ H), E.
    - intros p. eapply eqv_trans; [apply (xh_dbl _ _ _ H')|]. apply (xh_eqv _ _ _ H'), (xh_dbl _ _ _ H).
    - intros p q d N R. apply (xh_rel _ _ _ H'); [apply (xh_nz _ _ _ H), N|]. apply (xh_rel _ _ _ H); assumption.
    - intros p q d R N1 N2.
      assert (A1 : fst (h d) <> 0) by (intros E; apply N1, (xh_zero _ _ _ H'), E).
      assert (A2 : snd (h d) <> 0) by (intros E; apply N2, (xh_inf _ _ _ H'), E).
      assert (D1 : snd d <> 0) by (intros E; apply A2, (xh_inf _ _ _ H), E).
      eapply eqv_trans; [apply (xh_add _ _ _ H'); [|assumption|assumption]|].
      + apply (xh_rel _ _ _ H); [|assumption]. intros [_ E]. contradiction.
      + apply (xh_eqv _ _ _ H'). apply (xh_add _ _ _ H); assumption.
  Qed.

  (* tripling is a differential addition *)
  Lemma tpl_dadd : forall a X Z, dadd (dbl a (X, Z)) (X, Z) (X, Z) = (X * Z * fst (tpl a (X, Z)), X * Z * snd (tpl a (X, Z))).
  Proof. intros a X Z. unfold dadd, addX, addZ, dbl, dblX, dblZ, tpl. cbn [fst snd]. f_equal; ring. Qed.
  Lemma rel_dbl : forall a p, rel a (dbl a p) p p.
  Proof. intros a [X Z]. unfold rel, fU, fV, fM, dbl, dblX, dblZ. cbn [fst snd]. ring. Qed.
  Lemma rel_tpl : forall a p, rel a (dbl a p) p (tpl a p).
  Proof. intros a [X Z]. unfold rel, fU, fV, fM, dbl, dblX, dblZ, tpl. cbn [fst snd]. ring. Qed.
  Lemma rel_same : forall a p, rel a p p (dbl a p).
  Proof. intros a [X Z]. unfold rel, fU, fV, fM, dbl, dblX, dblZ. cbn [fst snd]. ring. Qed.
  Lemma xh_tpl : forall a a' h, xhom a a' h -> forall p, nz p -> eqv (tpl a' (h p)) (h (tpl a p)).
  Proof.
    intros a a' h H p N. pose proof (xh_dom _ _ _ H) as NS. pose proof (xh_cod _ _ _ H) as NS'.
    pose proof (xh_nz _ _ _ H p N) as N'. pose proof (tpl_nz a p NS N) as NT. pose proof (tpl_nz a' (h p) NS' N') as NT'.
    assert (R : rel a' (dbl a' (h p)) (h p) (h (tpl a p))).
    { eapply rel_eqv; [apply eqv_sym, (xh_dbl _ _ _ H)|apply eqv_refl|apply eqv_refl|]. apply (xh_rel _ _ _ H); [exact NT|apply rel_tpl]. }
    pose proof (xh_nz _ _ _ H _ NT) as NH.
    destruct (k_dec (snd (h p)) 0) as [e|e]; [|destruct (k_dec (fst (h p)) 0) as [f|f]].
    - apply inf_eqv; try assumption.
      + destruct (h p) as [X Z]. cbn [snd] in e. subst Z. unfold tpl. cbn [snd]. ring.
      + destruct (h p) as [X Z]. cbn [snd] in e. subst Z. destruct (h (tpl a p)) as [X' Z']. cbn [snd].
        unfold rel, fU, fV, fM, dbl, dblX, dblZ in R. cbn [fst snd] in R.
        assert (NX : X <> 0) by (intros ->; apply N'; split; reflexivity).
        apply (k_sqr_0 F). apply (k_cancel F (X * X * X * X * X * (X * X * X * X * X))); [nz1|].
        match type of R with ?l = ?r => transitivity l; [ring|rewrite R; ring] end.
    - apply zero_eqv; try assumption.
      + destruct (h p) as [X Z]. cbn [fst] in f. subst X. unfold tpl. cbn [fst]. ring.
      + destruct (h p) as [X Z]. cbn [fst] in f. subst X. destruct (h (tpl a p)) as [X' Z']. cbn [fst].
        unfold rel, fU, fV, fM, dbl, dblX, dblZ in R. cbn [fst snd] in R, e.
        apply (k_sqr_0 F). apply (k_cancel F (Z * Z * Z * Z * Z * (Z * Z * Z * Z * Z))); [nz1|].
        match type of R with ?l = ?r => transitivity l; [ring|rewrite R; ring] end.
    - pose proof (xh_add _ _ _ H (dbl a p) p p (rel_dbl a p) f e) as A.
      assert (f' : fst p <> 0) by (intros E; apply f, (xh_zero _ _ _ H), E).
      assert (e' : snd p <> 0) by (intros E; apply e, (xh_inf _ _ _ H), E).
      assert (S : forall c (q : pt), c <> 0 -> eqv (c * fst q, c * snd q) q).
      { intros c q C. exists c. split; [exact C|]. split; reflexivity. }
      eapply eqv_trans; [|eapply eqv_trans; [eapply eqv_trans; [|exact A]|]].
      + apply eqv_sym, (S (fst (h p) * snd (h p))). nz1.
      + eapply eqv_trans; [|apply dadd_eqv; [apply (xh_dbl _ _ _ H)|apply eqv_refl|apply eqv_refl]].
        destruct (h p) as [X Z]. rewrite tpl_dadd. apply eqv_refl.
      + apply (xh_eqv _ _ _ H). destruct p as [X Z]. rewrite tpl_dadd. apply S. cbn [fst snd] in *. nz1.
  Qed.

  (* a way to show the addition law of xhom: h(d) and h(d'), d' = dadd p q d, are the two roots *)
  Lemma roots : forall a' (p q d d1 : pt) k, k <> 0 -> fst d <> 0 -> snd d <> 0 ->
    k * (fU p q * fU p q) = fst d * fst d1 -> k * (fV p q * fV p q) = snd d * snd d1 ->
    k * (2 * fM a' p q) = fst d * snd d1 + fst d1 * snd d ->
    rel a' p q d /\ eqv (dadd p q d) d1.
  Proof.
    intros a' p q d d1 k K N1 N2 E1 E2 E3. split.
    - unfold rel. apply (k_cancel F k); [exact K|].
      transitivity (k * (fV p q * fV p q) * (fst d * fst d) + k * (fU p q * fU p q) * (snd d * snd d)); [ring|].
      rewrite E1, E2. transitivity (k * (2 * fM a' p q) * (fst d * snd d)); [rewrite E3|]; ring.
    - rewrite dadd_UV. exists (fst d * snd d / k). cbn [fst snd]. split.
      + intros E. assert (G : fst d * snd d = 0). { transitivity (fst d * snd d / k * k); [field; exact K|]. rewrite E. ring. } revert G. nz1.
      + split; apply (k_cancel F k); try exact K.
        * transitivity (snd d * (k * (fU p q * fU p q))); [ring|]. rewrite E1. field. exact K.
        * transitivity (fst d * (k * (fV p q * fV p q))); [ring|]. rewrite E2. field. exact K.
  Qed.

  (* ---------- the 3-isogeny ---------- *)
  Section Iso3.
    Variables (a t : F).
    Hypothesis NS : nonsing a.
    Hypothesis T : psi3 a t = 0.
    Definition fD (p q : pt) : F := t * t * (fU p q * fU p q) + fV p q * fV p q - 2 * t * fM a p q.
    Definition fDs (p q : pt) : F := fU p q * fU p q - 2 * t * fM a p q + t * t * (fV p q * fV p q).
    Lemma U3 : forall p q, fU (iso3 t p) (iso3 t q) = t * t * fU p q * fD p q.
    Proof. intros [X1 Z1] [X2 Z2]. destruct (psi3_a a t T) as [N A]. unfold fD, fU, fV, fM, iso3. cbn [fst snd]. rewrite A. field. fnz. Qed.
    Lemma V3 : forall p q, fV (iso3 t p) (iso3 t q) = t * t * fV p q * fDs p q.
    Proof. intros [X1 Z1] [X2 Z2]. destruct (psi3_a a t T) as [N A]. unfold fDs, fU, fV, fM, iso3. cbn [fst snd]. rewrite A. field. fnz. Qed.
    Lemma M3 : forall p q, let u := fU p q * fU p q in let v := fV p q * fV p q in let m := fM a p q in
      fM (cod3 a t) (iso3 t p) (iso3 t q) = t * t * (t * t) * (t * t * ((u + v) * (u + v)) * m + t * t * (t * t) * (4 * (m * m * m) - 3 * (m * u * v)) + m * u * v
        - 2 * (t * t * t) * (u + v) * (2 * (m * m) - u * v) - 2 * t * (u + v) * (u * v) + 2 * (t * t) * (m * u * v)).
    Proof. intros [X1 Z1] [X2 Z2]. destruct (psi3_a a t T) as [N A]. cbv zeta. unfold cod3, fU, fV, fM, iso3. cbn [fst snd]. rewrite A. field. fnz. Qed.
    Lemma dbl3 : forall p, eqv (dbl (cod3 a t) (iso3 t p)) (iso3 t (dbl a p)).
    Proof.
      intros [X Z]. destruct (psi3_a a t T) as [N A]. exists (t * t * (t * t) * (t * t)). split; [nz1|].
      unfold dbl, dblX, dblZ, iso3, cod3. cbn [fst snd]. rewrite A. split; field; fnz.
    Qed.

    Lemma rel3_deg : forall p q d, fst d = 0 \/ snd d = 0 -> nz d -> rel a p q d -> rel (cod3 a t) (iso3 t p) (iso3 t q) (iso3 t d).
    Proof.
      intros p q [XD ZD] C N R. unfold rel in *. rewrite U3, V3. cbn [fst snd iso3] in *. destruct C as [->| ->].
      - assert (NZ : ZD <> 0) by (intros ->; apply N; split; reflexivity).
        assert (U0 : fU p q = 0). { apply (k_sqr_0 F). apply (k_cancel F (ZD * ZD)); [nz1|]. match type of R with ?l = ?r => transitivity l; [ring|rewrite R; ring] end. }
        rewrite U0. ring.
      - assert (NX : XD <> 0) by (intros ->; apply N; split; reflexivity).
        assert (V0 : fV p q = 0). { apply (k_sqr_0 F). apply (k_cancel F (XD * XD)); [nz1|]. match type of R with ?l = ?r => transitivity l; [ring|rewrite R; ring] end. }
        rewrite V0. ring.
    Qed.
    Lemma roots3 : forall p q d, fst d <> 0 -> snd d <> 0 -> rel a p q d -> exists k, k <> 0 /\
      k * (fU (iso3 t p) (iso3 t q) * fU (iso3 t p) (iso3 t q)) = fst (iso3 t d) * fst (iso3 t (dadd p q d)) /\
      k * (fV (iso3 t p) (iso3 t q) * fV (iso3 t p) (iso3 t q)) = snd (iso3 t d) * snd (iso3 t (dadd p q d)) /\
      k * (2 * fM (cod3 a t) (iso3 t p) (iso3 t q)) = fst (iso3 t d) * snd (iso3 t (dadd p q d)) + fst (iso3 t (dadd p q d)) * snd (iso3 t d).
    Proof.
      intros p q [XD ZD] NX NZ R. cbn [fst snd] in *. destruct (psi3_t a t NS T) as [N0 _].
      set (k := XD * ZD * (XD * ZD) * (XD * ZD) / (t * t * (t * t))).
      exists k. split; [intros E; assert (G : XD * ZD * (XD * ZD) * (XD * ZD) = 0); [transitivity (k * (t * t * (t * t))); [unfold k; field; exact N0|rewrite E; ring]|revert G; nz1]|].
      rewrite M3, U3, V3, dadd_UV. unfold rel in R. unfold fD, fDs, iso3. cbn [fst snd] in *.
      set (u := fU p q) in *. set (v := fV p q) in *. set (m := fM a p q) in *. clearbody u v m.
      assert (E : m = (v * v * (XD * XD) + u * u * (ZD * ZD)) / (2 * (XD * ZD))) by (rewrite R; field; fnz).
      rewrite E. unfold k. repeat apply conj; field; fnz.
    Qed.
    Lemma nz_parts3 : forall d, fst (iso3 t d) <> 0 -> snd (iso3 t d) <> 0 -> fst d <> 0 /\ snd d <> 0.
    Proof. intros [X Z] H1 H2. cbn [fst snd iso3] in *. split; intros ->; [apply H1|apply H2]; ring. Qed.
    Theorem xhom3 : xhom a (cod3 a t) (iso3 t).
    Proof.
      destruct (psi3_t a t NS T) as [N0 N1]. split.
      - exact NS.
      - apply cod3_nonsing; assumption.
      - intros p. apply iso3_nz; assumption.
      - apply iso3_eqv.
      - intros [X Z] E. cbn [snd iso3] in *. rewrite E. ring.
      - intros [X Z] E. cbn [fst iso3] in *. rewrite E. ring.
      - apply dbl3.
      - intros p q d N R.
        destruct (k_dec (fst d) 0) as [e|e]; [apply rel3_deg; auto|]. destruct (k_dec (snd d) 0) as [f|f]; [apply rel3_deg; auto|].
        destruct (roots3 p q d e f R) as (k & K & E1 & E2 & E3).
        unfold rel. apply (k_cancel F k); [exact K|].
        set (P := iso3 t p) in *. set (Q := iso3 t q) in *. set (D := iso3 t d) in *. set (D1 := iso3 t (dadd p q d)) in *.
        transitivity (k * (fV P Q * fV P Q) * (fst D * fst D) + k * (fU P Q * fU P Q) * (snd D * snd D)); [ring|].
        rewrite E1, E2. transitivity (k * (2 * fM (cod3 a t) P Q) * (fst D * snd D)); [rewrite E3|]; ring.
      - intros p q d R H1 H2. destruct (nz_parts3 d H1 H2) as [e f].
        destruct (roots3 p q d e f R) as (k & K & E1 & E2 & E3). eapply roots; eassumption.
    Qed.
  End Iso3.

  (* ---------- the 4-isogeny ---------- *)
  Section Iso4.
    Variables (a s : F).
    Hypothesis NS : nonsing a.
    Hypothesis S : q4 a s = 0.
    (* translation by the point of order 2 *)
    Definition fW (p q : pt) : F := 2 * s * (fst p * fst q + snd p * snd q) - (s * s + 1) * (fst p * snd q + snd p * fst q).
    Definition fW' (p q : pt) : F := 2 * s * (fst p * snd q + snd p * fst q) - (s * s + 1) * (fst p * fst q + snd p * snd q).
    Lemma W4 : forall p q, fW p q * fW p q = 4 * (s * s) * (fU p q * fU p q) - 4 * s * (s * s + 1) * fM a p q + (s * s + 1) * (s * s + 1) * (fV p q * fV p q).
    Proof. intros [X1 Z1] [X2 Z2]. destruct (q4_s a s NS S) as (N0 & N1 & _). rewrite (q4_a a s NS S). unfold fW, fU, fV, fM. cbn [fst snd]. field. fnz. Qed.
    Lemma W4' : forall p q, fW' p q * fW' p q = 4 * (s * s) * (fV p q * fV p q) - 4 * s * (s * s + 1) * fM a p q + (s * s + 1) * (s * s + 1) * (fU p q * fU p q).
    Proof. intros [X1 Z1] [X2 Z2]. destruct (q4_s a s NS S) as (N0 & N1 & _). rewrite (q4_a a s NS S). unfold fW', fU, fV, fM. cbn [fst snd]. field. fnz. Qed.
    Lemma U4 : forall p q, fU (iso4 s p) (iso4 s q) = - (s * s * (s * s + 1)) * fU p q * fW' p q * fD a s p q.
    Proof. intros [X1 Z1] [X2 Z2]. destruct (q4_s a s NS S) as (N0 & N1 & _). rewrite (q4_a a s NS S). unfold fW', fD, fU, fV, fM, iso4. cbn [fst snd]. field. fnz. Qed.
    Lemma V4 : forall p q, fV (iso4 s p) (iso4 s q) = - (s * s * (s * s + 1)) * fV p q * fW p q * fDs a s p q.
    Proof. intros [X1 Z1] [X2 Z2]. destruct (q4_s a s NS S) as (N0 & N1 & _). rewrite (q4_a a s NS S). unfold fW, fDs, fU, fV, fM, iso4. cbn [fst snd]. field. fnz. Qed.
    (* N(x1) D(x2) + N(x2) D(x1) for the numerator and denominator of the isogeny, in terms of
       u = U^2, v = V^2 and m = M, where x1 x2 = u / v and x1 + x2 = 2 m / v *)
    Definition msum (u v m : F) : F :=
      let e := s * s + 1 in
      let n1 := 2 * s in let n2 := - (4 * (s * s) + e) in let n3 := 2 * (s * s * s) + 2 * e * s in let n4 := - (e * (s * s)) in
      let p0 := 2 in let p1 := 2 * m in let p2 := 4 * (m * m) - 2 * (u * v) in
      let p3 := 2 * 4 * (m * m * m) - 6 * (m * u * v) in let p4 := 4 * 4 * (m * m * (m * m)) - 4 * 4 * (m * m) * (u * v) + 2 * (u * v * (u * v)) in
      (* pairs i of the numerator n_i, j of the denominator n_(4-j) *)
      n1 * n4 * (v * v * v * p1) + n1 * n3 * (u * (v * v * v) * p0) + n1 * n2 * (u * (v * v) * p1) + n1 * n1 * (u * v * p2) +
      n2 * n4 * (v * v * p2) + n2 * n3 * (u * (v * v) * p1) + n2 * n2 * (u * u * (v * v) * p0) + n2 * n1 * (u * u * v * p1) +
      n3 * n4 * (v * p3) + n3 * n3 * (u * v * p2) + n3 * n2 * (u * u * v * p1) + n3 * n1 * (u * u * u * v * p0) +
      n4 * n4 * p4 + n4 * n3 * (u * p3) + n4 * n2 * (u * u * p2) + n4 * n1 * (u * u * u * p1).
    Lemma M4 : forall p q, 2 * fM (cod4 s) (iso4 s p) (iso4 s q) = s * s * (s * s) * ((s * s + 1) * (s * s + 1)) * msum (fU p q * fU p q) (fV p q * fV p q) (fM a p q).
    Proof. intros [X1 Z1] [X2 Z2]. destruct (q4_s a s NS S) as (N0 & N1 & _). rewrite (q4_a a s NS S). unfold msum, cod4, fU, fV, fM, iso4. cbv zeta. cbn [fst snd]. field. fnz. Qed.
    Lemma dbl4 : forall p, eqv (dbl (cod4 s) (iso4 s p)) (iso4 s (dbl a p)).
    Proof.
      intros [X Z]. destruct (q4_s a s NS S) as (N & N1 & _). rewrite (q4_a a s NS S).
      exists (- (s * s * (s * s) * (s * s) * (s * s + 1) * (s * s + 1) * (s * s + 1))).
      split; [intros E; assert (G : s * s * (s * s) * (s * s) * (s * s + 1) * (s * s + 1) * (s * s + 1) = 0); [match goal with |- ?g = _ => transitivity (- - g); [ring|rewrite E; ring] end|revert G; nz1]|].
      unfold dbl, dblX, dblZ, iso4, cod4. cbn [fst snd]. split; field; fnz.
    Qed.

    Lemma UU4 : forall p q, fU (iso4 s p) (iso4 s q) * fU (iso4 s p) (iso4 s q) =
      s * s * (s * s) * ((s * s + 1) * (s * s + 1)) * (fU p q * fU p q) * (fW' p q * fW' p q) * (fD a s p q * fD a s p q).
    Proof. intros p q. rewrite U4. ring. Qed.
    Lemma VV4 : forall p q, fV (iso4 s p) (iso4 s q) * fV (iso4 s p) (iso4 s q) =
      s * s * (s * s) * ((s * s + 1) * (s * s + 1)) * (fV p q * fV p q) * (fW p q * fW p q) * (fDs a s p q * fDs a s p q).
    Proof. intros p q. rewrite V4. ring. Qed.
    Lemma rel4_deg : forall p q d, fst d = 0 \/ snd d = 0 -> nz d -> rel a p q d -> rel (cod4 s) (iso4 s p) (iso4 s q) (iso4 s d).
    Proof.
      intros p q [XD ZD] C N R. unfold rel in *. rewrite UU4, VV4. cbn [fst snd iso4] in *. destruct C as [->| ->].
      - assert (NZ : ZD <> 0) by (intros ->; apply N; split; reflexivity).
        assert (U0 : fU p q = 0). { apply (k_sqr_0 F). apply (k_cancel F (ZD * ZD)); [nz1|]. match type of R with ?l = ?r => transitivity l; [ring|rewrite R; ring] end. }
        rewrite U0. ring.
      - assert (NX : XD <> 0) by (intros ->; apply N; split; reflexivity).
        assert (V0 : fV p q = 0). { apply (k_sqr_0 F). apply (k_cancel F (XD * XD)); [nz1|]. match type of R with ?l = ?r => transitivity l; [ring|rewrite R; ring] end. }
        rewrite V0. ring.
    Qed.
    Lemma roots4 : forall p q d, fst d <> 0 -> snd d <> 0 -> rel a p q d -> exists k, k <> 0 /\
      k * (fU (iso4 s p) (iso4 s q) * fU (iso4 s p) (iso4 s q)) = fst (iso4 s d) * fst (iso4 s (dadd p q d)) /\
      k * (fV (iso4 s p) (iso4 s q) * fV (iso4 s p) (iso4 s q)) = snd (iso4 s d) * snd (iso4 s (dadd p q d)) /\
      k * (2 * fM (cod4 s) (iso4 s p) (iso4 s q)) = fst (iso4 s d) * snd (iso4 s (dadd p q d)) + fst (iso4 s (dadd p q d)) * snd (iso4 s d).
    Proof.
      intros p q [XD ZD] NX NZ R. cbn [fst snd] in *. destruct (q4_s a s NS S) as (N0 & N1 & _).
      set (k := XD * ZD * (XD * ZD) * (XD * ZD * (XD * ZD)) / (s * s * (s * s) * ((s * s + 1) * (s * s + 1)))).
      exists k. split; [intros E; assert (G : XD * ZD * (XD * ZD) * (XD * ZD * (XD * ZD)) = 0); [transitivity (k * (s * s * (s * s) * ((s * s + 1) * (s * s + 1)))); [unfold k; field; fnz|rewrite E; ring]|revert G; nz1]|].
      rewrite M4, UU4, VV4, W4, W4', dadd_UV. unfold rel in R. unfold fD, fDs, iso4. cbn [fst snd] in *.
      set (u := fU p q) in *. set (v := fV p q) in *. set (m := fM a p q) in *. clearbody u v m.
      assert (E : m = (v * v * (XD * XD) + u * u * (ZD * ZD)) / (2 * (XD * ZD))) by (rewrite R; field; fnz).
      rewrite E. unfold k. repeat apply conj; [field; fnz|field; fnz|]. unfold msum. cbv zeta. field; fnz.
    Qed.
    Lemma nz_parts4 : forall d, fst (iso4 s d) <> 0 -> snd (iso4 s d) <> 0 -> fst d <> 0 /\ snd d <> 0.
    Proof. intros [X Z] H1 H2. cbn [fst snd iso4] in *. split; intros ->; [apply H1|apply H2]; ring. Qed.
    Theorem xhom4 : xhom a (cod4 s) (iso4 s).
    Proof.
      destruct (q4_s a s NS S) as (N0 & N1 & N2). split.
      - exact NS.
      - apply (cod4_nonsing a s); assumption.
      - intros p. apply iso4_nz; assumption.
      - apply iso4_eqv.
      - intros [X Z] E. cbn [snd iso4] in *. rewrite E. ring.
      - intros [X Z] E. cbn [fst iso4] in *. rewrite E. ring.
      - apply dbl4.
      - intros p q d N R.
        destruct (k_dec (fst d) 0) as [e|e]; [apply rel4_deg; auto|]. destruct (k_dec (snd d) 0) as [f|f]; [apply rel4_deg; auto|].
        destruct (roots4 p q d e f R) as (k & K & E1 & E2 & E3).
        unfold rel. apply (k_cancel F k); [exact K|].
        set (P := iso4 s p) in *. set (Q := iso4 s q) in *. set (D := iso4 s d) in *. set (D1 := iso4 s (dadd p q d)) in *.
        transitivity (k * (fV P Q * fV P Q) * (fst D * fst D) + k * (fU P Q * fU P Q) * (snd D * snd D)); [ring|].
        rewrite E1, E2. transitivity (k * (2 * fM (cod4 s) P Q) * (fst D * snd D)); [rewrite E3|]; ring.
      - intros p q d R H1 H2. destruct (nz_parts4 d H1 H2) as [e f].
        destruct (roots4 p q d e f R) as (k & K & E1 & E2 & E3). eapply roots; eassumption.
    Qed.
  End Iso4.

  (* ---------- iterated maps and exact orders ---------- *)
  Definition dbls (a : F) (n : nat) (p : pt) : pt := Nat.iter n (dbl a) p.
  Definition tpls (a : F) (n : nat) (p : pt) : pt := Nat.iter n (tpl a) p.
  Lemma dbls_eqv : forall a n p q, eqv p q -> eqv (dbls a n p) (dbls a n q).
  Proof. intros a n p q H. induction n; [exact H|]. cbn. apply dbl_eqv, IHn. Qed.
  Lemma tpls_eqv : forall a n p q, eqv p q -> eqv (tpls a n p) (tpls a n q).
  Proof. intros a n p q H. induction n; [exact H|]. cbn. apply tpl_eqv, IHn. Qed.
  Lemma dbls_nz : forall a n p, nonsing a -> nz p -> nz (dbls a n p).
  Proof. intros a n p NS H. induction n; [exact H|]. cbn. apply dbl_nz; assumption. Qed.
  Lemma tpls_nz : forall a n p, nonsing a -> nz p -> nz (tpls a n p).
  Proof. intros a n p NS H. induction n; [exact H|]. cbn. apply tpl_nz; assumption. Qed.
  Lemma dbls_add : forall a n m p, dbls a (n + m) p = dbls a n (dbls a m p).
  Proof. intros a n m p. unfold dbls. induction n; [reflexivity|]. cbn [Nat.add Nat.iter nat_rect]. f_equal. exact IHn. Qed.
  Lemma tpls_add : forall a n m p, tpls a (n + m) p = tpls a n (tpls a m p).
  Proof. intros a n m p. unfold tpls. induction n; [reflexivity|]. cbn [Nat.add Nat.iter nat_rect]. f_equal. exact IHn. Qed.
  Lemma dbls_hom : forall a a' h, xhom a a' h -> forall n p, eqv (dbls a' n (h p)) (h (dbls a n p)).
  Proof.
    intros a a' h H n p. induction n; [apply eqv_refl|]. cbn. eapply eqv_trans; [apply dbl_eqv, IHn|]. apply (xh_dbl _ _ _ H).
  Qed.
  Lemma tpls_hom : forall a a' h, xhom a a' h -> forall n p, nz p -> eqv (tpls a' n (h p)) (h (tpls a n p)).
  Proof.
    intros a a' h H n p N. induction n; [apply eqv_refl|]. cbn. eapply eqv_trans; [apply tpl_eqv, IHn|].
    apply (xh_tpl _ _ _ H). apply tpls_nz; [apply H|exact N].
  Qed.
  (* p has order exactly 3^n; exactly 4^n and 2^(2n-1) p is not (0,0) *)
  Definition ord3 (a : F) (n : nat) (p : pt) : Prop :=
    match n with O => True | S n => exists t, eqv (tpls a n p) (t, 1) /\ psi3 a t = 0 end.
  Definition ord4 (a : F) (n : nat) (p : pt) : Prop :=
    match n with O => True | S n => exists s, eqv (dbls a (2 * n) p) (s, 1) /\ q4 a s = 0 end.
  Lemma ord3_eqv : forall a n p q, eqv p q -> ord3 a n p -> ord3 a n q.
  Proof. intros a [|n] p q E; [auto|]. intros (t & H & T). exists t. split; [|exact T]. eapply eqv_trans; [apply tpls_eqv, eqv_sym, E|exact H]. Qed.
  Lemma ord4_eqv : forall a n p q, eqv p q -> ord4 a n p -> ord4 a n q.
  Proof. intros a [|n] p q E; [auto|]. intros (t & H & T). exists t. split; [|exact T]. eapply eqv_trans; [apply dbls_eqv, eqv_sym, E|exact H]. Qed.

  Lemma tpl_0 : forall a p, fst p = 0 -> fst (tpl a p) = 0.
  Proof. intros a [X Z] E. cbn [fst tpl] in *. subst. ring. Qed.
  Lemma tpl_inf : forall a p, snd p = 0 -> snd (tpl a p) = 0.
  Proof. intros a [X Z] E. cbn [snd tpl] in *. subst. ring. Qed.
  Lemma dbl_inf : forall a p, snd p = 0 -> snd (dbl a p) = 0.
  Proof. intros a [X Z] E. cbn [snd dbl fst] in *. unfold dblZ. subst. ring. Qed.
  Lemma dbl_0 : forall a p, fst p = 0 -> snd (dbl a p) = 0.
  Proof. intros a [X Z] E. cbn [snd dbl fst] in *. unfold dblZ. subst. ring. Qed.
  Lemma tpls_0 : forall a n p, fst p = 0 -> fst (tpls a n p) = 0.
  Proof. intros a n p E. induction n; [exact E|]. cbn. apply tpl_0, IHn. Qed.
  Lemma tpls_inf : forall a n p, snd p = 0 -> snd (tpls a n p) = 0.
  Proof. intros a n p E. induction n; [exact E|]. cbn. apply tpl_inf, IHn. Qed.
  Lemma dbls_inf : forall a n p, snd p = 0 -> snd (dbls a n p) = 0.
  Proof. intros a n p E. induction n; [exact E|]. cbn. apply dbl_inf, IHn. Qed.
  Lemma ord3_parts : forall a n p, ord3 a (S n) p -> fst p <> 0 /\ snd p <> 0.
  Proof.
    intros a n p (t & E & T). destruct (psi3_a a t T) as [N _]. split; intros H.
    - apply N. apply (tpls_0 a n) in H. apply (eqv_fst0 _ _ E H).
    - apply (k_one_nz F). apply (tpls_inf a n) in H. apply (eqv_snd0 _ _ E H).
  Qed.
  Lemma ord4_parts : forall a n p, nonsing a -> ord4 a (S n) p -> fst p <> 0 /\ snd p <> 0.
  Proof.
    intros a n p NS (s & E & T). destruct (q4_s a s NS T) as (N & _). split; intros H.
    - destruct n; [apply N, (eqv_fst0 _ _ E H)|]. apply (dbl_0 a) in H.
      replace (2 * Datatypes.S n)%nat with ((2 * n + 1) + 1)%nat in E by lia. rewrite dbls_add in E. apply (dbls_inf a (2 * n + 1)) in H.
      apply (k_one_nz F). exact (eqv_snd0 _ _ E H).
    - apply (k_one_nz F). apply (dbls_inf a (2 * n)) in H. apply (eqv_snd0 _ _ E H).
  Qed.
  Lemma ord3_nz : forall a n p, ord3 a (S n) p -> nz p.
  Proof. intros a n p H [E _]. destruct (ord3_parts a n p H). contradiction. Qed.
  Lemma ord4_nz : forall a n p, nonsing a -> ord4 a (S n) p -> nz p.
  Proof. intros a n p NS H [E _]. destruct (ord4_parts a n p NS H). contradiction. Qed.

  (* the isogeny with kernel 3^(n) p divides the order of p by 3 *)
  Lemma tpl_dual : forall a t p, psi3 a t = 0 -> let q := iso3 t p in
    eqv (tpl a p) (fst q * ((fst q + 3 * t * snd q) * (fst q + 3 * t * snd q)), snd q * ((3 * t * fst q + snd q) * (3 * t * fst q + snd q))).
  Proof.
    intros a t [X Z] T. destruct (psi3_a a t T) as [N A]. exists (1 / (t * t * (t * t) * (t * t))). split.
    - intros E. apply (k_one_nz F). transitivity (1 / (t * t * (t * t) * (t * t)) * (t * t * (t * t) * (t * t))); [field; exact N|]. rewrite E. ring.
    - cbn [fst snd iso3 tpl]. rewrite A. split; field; fnz.
  Qed.
  Lemma iso3_ord3 : forall a t n p, nonsing a -> psi3 a t = 0 -> nz p -> eqv (tpls a n p) (t, 1) -> ord3 (cod3 a t) n (iso3 t p).
  Proof.
    intros a t [|n] p NS T N E; [exact I|]. pose proof (xhom3 a t NS T) as H.
    pose proof (tpls_hom _ _ _ H n p N) as EH. set (w := tpls a n p) in *.
    assert (NW : nz w) by (apply tpls_nz; assumption).
    assert (EW : eqv (tpl a w) (t, 1)) by exact E.
    pose proof (tpl_dual a t w T) as D. cbv zeta in D. pose proof (xh_nz _ _ _ H w NW) as NQ.
    destruct (iso3 t w) as [X Z] eqn:Q. cbn [fst snd] in D.
    assert (C : X * ((X + 3 * t * Z) * (X + 3 * t * Z)) = t * (Z * ((3 * t * X + Z) * (3 * t * X + Z)))).
    { destruct (eqv_trans _ _ _ (eqv_sym _ _ D) EW) as (k & K & E1 & E2). cbn [fst snd] in *. rewrite E1, E2. ring. }
    destruct (psi3_a a t T) as [N0 A].
    assert (NZ : Z <> 0).
    { intros ->. apply NQ. split; [|reflexivity]. cbn [fst].
      assert (G : X * (X * X) = 0) by (match type of C with ?l = ?r => transitivity l; [ring|rewrite C; ring] end).
      destruct (k_integral F _ _ G) as [h|h]; [exact h|apply (k_sqr_0 F); exact h]. }
    exists (X / Z). split.
    - eapply eqv_trans; [exact EH|]. apply (aff_eqv (X, Z)). exact NZ.
    - unfold psi3, cod3. rewrite A.
      match goal with |- ?g = 0 => transitivity ((X * ((X + 3 * t * Z) * (X + 3 * t * Z)) - t * (Z * ((3 * t * X + Z) * (3 * t * X + Z)))) * (3 * t * X + Z) / (t * (Z * Z * (Z * Z)))); [field; fnz|] end.
      rewrite C. field. fnz.
  Qed.
  Lemma tor2_4 : forall a s p, nonsing a -> q4 a s = 0 -> let q := iso4 s p in
    let e := s * s + 1 in
    fst q * fst q + cod4 s * (fst q * snd q) + snd q * snd q = e * e * (s * s * (s * s)) * ((fst (dbl a p) - s * snd (dbl a p)) * (fst (dbl a p) - s * snd (dbl a p))).
  Proof.
    intros a s [X Z] NS T. destruct (q4_s a s NS T) as (N0 & N1 & N2). rewrite (q4_a a s NS T). cbv zeta. cbn [fst snd iso4 dbl]. unfold dblX, dblZ, cod4. field. fnz.
  Qed.

  Definition q2h (a : F) (p : pt) : F := fst p * fst p + a * (fst p * snd p) + snd p * snd p.
  Definition q4h (a : F) (p : pt) : F :=
    fst p * fst p * (fst p * fst p) + 2 * a * (fst p * fst p * fst p) * snd p + 6 * (fst p * fst p) * (snd p * snd p)
    + 2 * a * fst p * (snd p * snd p * snd p) + snd p * snd p * (snd p * snd p).
  Lemma q2h_dbl : forall a p, q2h a (dbl a p) = q4h a p * q4h a p.
  Proof. intros a [X Z]. unfold q2h, q4h, dbl, dblX, dblZ. cbn [fst snd]. ring. Qed.
  Lemma q2h_eqv : forall a p q, eqv p q -> q2h a p = 0 -> q2h a q = 0.
  Proof.
    intros a p q (k & K & E1 & E2) H. unfold q2h in *. rewrite E1, E2 in H. apply (k_cancel F (k * k)); [nz1|].
    match type of H with ?l = _ => transitivity l; [ring|rewrite H; ring] end.
  Qed.
  Lemma q4h_q4 : forall a X Z, Z <> 0 -> q4h a (X, Z) = 0 -> q4 a (X / Z) = 0.
  Proof.
    intros a X Z N H. unfold q4. transitivity (q4h a (X, Z) / (Z * Z * (Z * Z))); [unfold q4h; cbn [fst snd]; field; exact N|]. rewrite H. field. fnz.
  Qed.
  Lemma q2h_snd : forall a p, nz p -> q2h a p = 0 -> snd p <> 0.
  Proof.
    intros a p N H E. apply N. split; [|exact E]. apply (k_sqr_0 F). unfold q2h in H. rewrite E in H.
    match type of H with ?l = _ => transitivity l; [ring|exact H] end.
  Qed.
  (* if the double of q is a 2-torsion point other than (0,0), q has order four *)
  Lemma q4_half : forall a q, nonsing a -> nz q -> q2h a (dbl a q) = 0 -> snd q <> 0 /\ q4 a (aff q) = 0.
  Proof.
    intros a q NS N H. assert (NZ : snd q <> 0).
    { intros E. apply (q2h_snd a (dbl a q)); [apply dbl_nz; assumption|exact H|]. apply dbl_inf, E. }
    split; [exact NZ|]. rewrite q2h_dbl in H. apply (k_sqr_0 F) in H. destruct q as [X Z]. apply q4h_q4; assumption.
  Qed.
  Lemma iso4_ord4 : forall a s n p, nonsing a -> q4 a s = 0 -> nz p -> eqv (dbls a (2 * n) p) (s, 1) -> ord4 (cod4 s) n (iso4 s p).
  Proof.
    intros a s [|n] p NS T N E; [exact I|]. pose proof (xhom4 a s NS T) as H.
    pose proof (dbls_hom _ _ _ H (2 * n) p) as EH. set (w := dbls a (2 * n) p) in *.
    assert (NW : nz w) by (apply dbls_nz; assumption).
    assert (EW : eqv (dbl a (dbl a w)) (s, 1)).
    { replace (2 * Datatypes.S n)%nat with (1 + (1 + 2 * n))%nat in E by lia. exact E. }
    assert (Q : q2h (cod4 s) (iso4 s (dbl a w)) = 0).
    { unfold q2h. rewrite (tor2_4 a s (dbl a w) NS T). cbv zeta.
      destruct EW as (k & K & E1 & E2). cbn [fst snd] in E1, E2. rewrite E1, E2. ring. }
    apply (q2h_eqv _ _ _ (eqv_sym _ _ (xh_dbl _ _ _ H w))) in Q.
    destruct (q4_half (cod4 s) (iso4 s w)) as [NZ Q4]; [apply H|apply (xh_nz _ _ _ H), NW|exact Q|].
    exists (aff (iso4 s w)). split; [|exact Q4]. eapply eqv_trans; [exact EH|]. apply aff_eqv, NZ.
  Qed.

  (* isogenies of coprime degree keep the orders *)
  Lemma psi3_dbl : forall a t, nonsing a -> psi3 a t = 0 -> eqv (dbl a (t, 1)) (t, 1).
  Proof.
    intros a t NS T. apply cross_eqv; [apply dbl_nz; [exact NS|apply nz_1]|apply nz_1|].
    destruct (psi3_a a t T) as [N A]. rewrite A. unfold dbl, dblX, dblZ. cbn [fst snd]. field. fnz.
  Qed.
  Lemma psi3_inv_dbl : forall a t, psi3 a t = 0 -> dbl a (1, t) = dbl a (t, 1).
  Proof. intros a t T. unfold dbl, dblX, dblZ. cbn [fst snd]. f_equal; ring. Qed.
  Lemma q4_dbl : forall a s, nonsing a -> q4 a s = 0 -> eqv (dbl a (s, 1)) (s * s + 1, 2 * s).
  Proof.
    intros a s NS T. destruct (q4_s a s NS T) as (N0 & N1 & N2). apply cross_eqv.
    - apply dbl_nz; [exact NS|apply nz_1].
    - intros [E _]. apply N1. exact E.
    - rewrite (q4_a a s NS T). unfold dbl, dblX, dblZ. cbn [fst snd]. field. fnz.
  Qed.
  Lemma q4_q2h : forall a s, q4 a s = 0 -> q2h a (dbl a (s, 1)) = 0.
  Proof.
    intros a s T. rewrite q2h_dbl. assert (E : q4h a (s, 1) = 0) by (rewrite <- T; unfold q4h, q4; cbn [fst snd]; ring). rewrite E. ring.
  Qed.
  Lemma q2h_dbl_inf : forall a p, q2h a p = 0 -> snd (dbl a p) = 0.
  Proof. intros a p H. unfold dbl, dblZ. cbn [snd]. unfold q2h in H. match type of H with ?l = _ => transitivity (4 * (fst p * snd p) * l); [ring|rewrite H; ring] end. Qed.
  Lemma psi3_not_inf : forall a t p, nonsing a -> psi3 a t = 0 -> eqv p (t, 1) -> snd (dbl a p) <> 0.
  Proof.
    intros a t p NS T E H. apply (k_one_nz F).
    apply (eqv_snd0 _ _ (eqv_trans _ _ _ (dbl_eqv a _ _ E) (psi3_dbl a t NS T)) H).
  Qed.
  (* the three points of the kernel of iso4 are not of order 3 *)
  Lemma cop_43 : forall a s t, nonsing a -> q4 a s = 0 -> psi3 a t = 0 -> t - s <> 0 /\ 2 * s * t - (s * s + 1) <> 0.
  Proof.
    intros a s t NS T4 T3. destruct (q4_s a s NS T4) as (N0 & N1 & N2). split; intros E.
    - apply (psi3_not_inf a t (dbl a (s, 1)) NS T3).
      + assert (t = s) as -> by (apply k_sub_eq; exact E). apply psi3_dbl; assumption.
      + apply q2h_dbl_inf, q4_q2h, T4.
    - apply (psi3_not_inf a t (dbl a (s, 1)) NS T3).
      + eapply eqv_trans; [apply q4_dbl; assumption|]. exists (2 * s). split; [nz1|]. cbn [fst snd]. split; [|ring].
        symmetry. apply k_sub_eq. exact E.
      + apply q2h_dbl_inf, q4_q2h, T4.
  Qed.
  Lemma iso4_t : forall a s t, nonsing a -> q4 a s = 0 -> psi3 a t = 0 -> snd (iso4 s (t, 1)) <> 0.
  Proof.
    intros a s t NS T4 T3. destruct (cop_43 a s t NS T4 T3) as [A B]. cbn [snd iso4]. intros E.
    assert (G : (t - s) * (t - s) * (2 * s * t - (s * s + 1)) = 0) by (rewrite <- E; ring). revert G. nz1.
  Qed.
  Lemma iso3_s : forall a s t, nonsing a -> q4 a s = 0 -> psi3 a t = 0 -> snd (iso3 t (s, 1)) <> 0.
  Proof.
    intros a s t NS T4 T3. destruct (cop_43 a s t NS T4 T3) as [A B]. cbn [snd iso3]. intros E.
    assert (G : (t - s) * (t - s) = 0) by (rewrite <- E; ring). revert G. nz1.
  Qed.
  Lemma hom_psi3 : forall a a' h t, xhom a a' h -> psi3 a t = 0 -> snd (h (t, 1)) <> 0 -> psi3 a' (aff (h (t, 1))) = 0.
  Proof.
    intros a a' h t H T N. pose proof (xh_tpl _ _ _ H (t, 1) (nz_1 t)) as E.
    assert (I : snd (tpl a (t, 1)) = 0).
    { cbn [snd tpl]. match goal with |- 1 * (?d * ?d) = _ => transitivity (psi3 a t * psi3 a t); [unfold psi3; ring|] end. rewrite T. ring. }
    apply (xh_inf _ _ _ H) in I. apply (eqv_snd0 _ _ (eqv_sym _ _ E)) in I. destruct (h (t, 1)) as [X Z]. cbn [snd tpl] in *.
    destruct (k_integral F _ _ I) as [e|e]; [contradiction|]. apply (k_sqr_0 F) in e. unfold aff, psi3. cbn [fst snd].
    match type of e with ?l = _ => transitivity (l / (Z * Z * (Z * Z))) end; [field; exact N|]. rewrite e. field. exact N.
  Qed.
  Lemma iso4_psi3 : forall a s t, nonsing a -> q4 a s = 0 -> psi3 a t = 0 -> psi3 (cod4 s) (aff (iso4 s (t, 1))) = 0.
  Proof.
    intros a s t NS T4 T3. apply (hom_psi3 a _ _ t (xhom4 a s NS T4) T3). apply (iso4_t a); assumption.
  Qed.
  Lemma iso3_q4 : forall a s t, nonsing a -> q4 a s = 0 -> psi3 a t = 0 -> q4 (cod3 a t) (aff (iso3 t (s, 1))) = 0.
  Proof.
    intros a s t NS T4 T3. pose proof (xhom3 a t NS T3) as H. set (v := dbl a (s, 1)).
    assert (NV : nz v) by (apply dbl_nz; [exact NS|apply nz_1]).
    assert (QV : q2h a v = 0) by (apply q4_q2h, T4). pose proof (q2h_dbl_inf a v QV) as IV.
    assert (NH : nz (iso3 t v)) by (apply (xh_nz _ _ _ H), NV).
    apply (q4_half (cod3 a t) (iso3 t (s, 1))); [apply H|apply (xh_nz _ _ _ H), nz_1|].
    apply (q2h_eqv _ _ _ (eqv_sym _ _ (xh_dbl _ _ _ H (s, 1)))). fold v.
    pose proof (eqv_snd0 _ _ (eqv_sym _ _ (xh_dbl _ _ _ H v)) (xh_inf _ _ _ H _ IV)) as Z. unfold dbl, dblZ in Z. cbn [snd] in Z.
    destruct (psi3_t a t NS T3) as [N0 _].
    assert (A : fst (iso3 t v) <> 0).
    { intros E. pose proof (q2h_snd a v NV QV) as NZ. destruct v as [X Y] eqn:EV. cbn [fst iso3] in E.
      assert (NX : X <> 0).
      { intros ->. unfold q2h in QV. cbn [fst snd] in *. apply NZ, (k_sqr_0 F). rewrite <- QV. ring. }
      destruct (k_integral F _ _ E) as [e|e]; [contradiction|]. apply (k_sqr_0 F) in e. apply (k_sub_eq F) in e.
      assert (EQ : eqv (X, Y) (1, t)) by (exists X; split; [exact NX|]; cbn [fst snd]; split; [ring|symmetry; exact e]).
      pose proof (eqv_snd0 _ _ (dbl_eqv a _ _ EQ) IV) as I2. rewrite (psi3_inv_dbl a t T3) in I2.
      exact (psi3_not_inf a t (t, 1) NS T3 (eqv_refl _) I2). }
    assert (B : snd (iso3 t v) <> 0).
    { intros E. pose proof (q2h_snd a v NV QV) as NZ. destruct v as [X Y] eqn:EV. cbn [snd iso3] in E, NZ.
      destruct (k_integral F _ _ E) as [e|e]; [contradiction|]. apply (k_sqr_0 F) in e. apply (k_sub_eq F) in e.
      apply (psi3_not_inf a t (X, Y) NS T3); [|exact IV]. exists Y. split; [exact NZ|]. cbn [fst snd]. split; [rewrite e; ring|ring]. }
    unfold q2h. destruct (iso3 t v) as [X Y]. cbn [fst snd] in *.
    apply (k_cancel F (4 * (X * Y))); [nz1|]. match type of Z with ?l = _ => transitivity l; [ring|rewrite Z; ring] end.
  Qed.
  Lemma iso4_ord3 : forall a s n q, nonsing a -> q4 a s = 0 -> ord3 a n q -> ord3 (cod4 s) n (iso4 s q).
  Proof.
    intros a s [|n] q NS T O; [exact I|]. pose proof (ord3_nz _ _ _ O) as N. destruct O as (t & E & T3).
    pose proof (xhom4 a s NS T) as H. exists (aff (iso4 s (t, 1))). split; [|apply (iso4_psi3 a); assumption].
    eapply eqv_trans; [apply (tpls_hom _ _ _ H), N|]. eapply eqv_trans; [apply (xh_eqv _ _ _ H), E|]. apply aff_eqv. apply (iso4_t a); assumption.
  Qed.
  Lemma iso3_ord4 : forall a t n q, nonsing a -> psi3 a t = 0 -> ord4 a n q -> ord4 (cod3 a t) n (iso3 t q).
  Proof.
    intros a t [|n] q NS T O; [exact I|]. pose proof (ord4_nz _ _ _ NS O) as N. destruct O as (s & E & T4).
    pose proof (xhom3 a t NS T) as H. exists (aff (iso3 t (s, 1))). split; [|apply (iso3_q4 a); assumption].
    eapply eqv_trans; [apply (dbls_hom _ _ _ H)|]. eapply eqv_trans; [apply (xh_eqv _ _ _ H), E|]. apply aff_eqv. apply (iso3_s a); assumption.
  Qed.

  (* ---------- the square ---------- *)
  Lemma sq_R : forall a s t, nonsing a -> q4 a s = 0 -> psi3 a t = 0 ->
    let g := 1 - 6 * (t * t) - 3 * (t * t * (t * t)) in
    2 * (t * t * t) * (s * s * (s * s)) + g * (s * s * s) + 4 * 3 * (t * t * t) * (s * s) + g * s + 2 * (t * t * t) = 0.
  Proof.
    intros a s t NS T4 T3 g. destruct (q4_s a s NS T4) as (N0 & N1 & N2). destruct (psi3_a a t T3) as [M0 A]. fold g in A.
    pose proof (q4_a a s NS T4) as B.
    assert (G : 4 * (t * t * t) * a = g) by (rewrite A; field; fnz).
    assert (H : 2 * s * (s * s + 1) * a = - (s * s * (s * s) + 6 * (s * s) + 1)) by (rewrite B; field; fnz).
    apply (k_cancel F 2); [exact two_nz|].
    transitivity (g * (2 * s * (s * s + 1)) - 4 * (t * t * t) * (- (s * s * (s * s) + 6 * (s * s) + 1))); [ring|].
    rewrite <- H, <- G. ring.
  Qed.
  Lemma sq_cod : forall a s t, nonsing a -> q4 a s = 0 -> psi3 a t = 0 ->
    cod3 (cod4 s) (aff (iso4 s (t, 1))) = cod4 (aff (iso3 t (s, 1))).
  Proof.
    intros a s t NS T4 T3. pose proof (sq_R a s t NS T4 T3) as R. cbv zeta in R. destruct (cop_43 a s t NS T4 T3) as [A B].
    set (Q := (0 + s * (0 + s * ((0 + t * (0 + t * (0 + t * ((2 * (2 * (2 * 1))) + t * (0 + t * (0 + t * (0 + t * (- (2 * (2 * (2 * 1))))))))))) + s * (((- (2 * (2 * 1))) + t * (0 + t * ((- (2 * (2 * (2 * (1 + 2 * 1))))) + t * (0 + t * ((- (2 * (2 * (2 * (2 * (1 + 2 * 1)))))) + t * (0 + t * ((2 * (2 * (2 * (1 + 2 * (1 + 2 * 1))))) + t * (0 + t * (2 * (2 * (1 + 2 * (2 * 1)))))))))))) + s * ((0 + t * ((2 * (2 * (2 * (1 + 2 * (1 + 2 * 1))))) + t * (0 + t * ((2 * (2 * (2 * (1 + 2 * (1 + 2 * (2 * (2 * 1))))))) + t * (0 + t * ((- (2 * (2 * (1 + 2 * (1 + 2 * (2 * 1)))))) + t * (0 + t * ((- (2 * (2 * (2 * (1 + 2 * (1 + 2 * (2 * (2 * 1)))))))) + t * (0 + t * (- (2 * (2 * (1 + 2 * 1))))))))))))) + s * (((- (2 * (2 * (2 * 1)))) + t * (0 + t * ((- (2 * (1 + 2 * (2 * (2 * (1 + 2 * (2 * (2 * (2 * 1))))))))) + t * (0 + t * ((- (2 * (2 * (1 + 2 * (2 * (1 + 2 * (2 * (2 * 1)))))))) + t * (0 + t * ((2 * (2 * (2 * (2 * (2 * (2 * (1 + 2 * (2 * 1)))))))) + t * (0 + t * ((2 * (2 * (1 + 2 * (1 + 2 * (2 * (1 + 2 * 1)))))) + t * (0 + t * (2 * 1))))))))))) + s * ((0 + t * ((2 * (2 * (1 + 2 * (1 + 2 * (1 + 2 * 1))))) + t * (0 + t * ((2 * (2 * (1 + 2 * (2 * (2 * (2 * (1 + 2 * (1 + 2 * 1)))))))) + t * (0 + t * ((- (2 * (2 * (1 + 2 * (1 + 2 * (1 + 2 * (2 * (1 + 2 * 1)))))))) + t * (0 + t * ((- (2 * (2 * (1 + 2 * (2 * (2 * (2 * (2 * (2 * 1))))))))) + t * (0 + t * (- (2 * (2 * (2 * (2 * (2 * 1))))))))))))))) + s * (((- (2 * 1)) + t * (0 + t * ((- (2 * (2 * (2 * (2 * (2 * (2 * 1))))))) + t * (0 + t * ((- (2 * (2 * (2 * (2 * (1 + 2 * (2 * (1 + 2 * 1)))))))) + t * (0 + t * ((2 * (2 * (1 + 2 * (1 + 2 * (2 * (1 + 2 * (2 * 1))))))) + t * (0 + t * ((2 * (1 + 2 * (2 * (2 * (2 * (1 + 2 * 1)))))) + t * (0 + t * (2 * (2 * 1)))))))))))) + s * ((0 + t * ((- (2 * (2 * (2 * (1 + 2 * 1))))) + t * (0 + t * ((- (2 * (2 * (1 + 2 * (2 * (1 + 2 * (2 * (2 * 1)))))))) + t * (0 + t * ((2 * (2 * (1 + 2 * (1 + 2 * (2 * (1 + 2 * (1 + 2 * 1))))))) + t * (0 + t * ((- (2 * (2 * (1 + 2 * (1 + 2 * (2 * 1)))))) + t * (0 + t * (- (2 * (2 * (1 + 2 * (2 * 1)))))))))))))) + s * (((2 * (2 * 1)) + t * (0 + t * ((2 * (1 + 2 * (1 + 2 * (2 * (2 * (2 * (2 * 1))))))) + t * (0 + t * ((2 * (2 * (1 + 2 * (1 + 2 * (2 * 1))))) + t * (0 + t * ((- (2 * (2 * (2 * (1 + 2 * (1 + 2 * (1 + 2 * (2 * 1)))))))) + t * (0 + t * (0 + t * (0 + t * (2 * 1))))))))))) + s * ((0 + t * ((- (2 * (2 * (1 + 2 * (1 + 2 * 1))))) + t * (0 + t * ((- (2 * (2 * (1 + 2 * (1 + 2 * (2 * (2 * 1))))))) + t * (0 + t * ((2 * (2 * (1 + 2 * (1 + 2 * 1)))) + t * (0 + t * (2 * (2 * (1 + 2 * (1 + 2 * (2 * (2 * 1))))))))))))) + s * (((2 * 1) + t * (0 + t * ((2 * (2 * (1 + 2 * 1))) + t * (0 + t * ((2 * (2 * (2 * (1 + 2 * 1)))) + t * (0 + t * ((- (2 * (2 * (1 + 2 * (1 + 2 * 1))))) + t * (0 + t * (- (2 * (1 + 2 * (2 * 1)))))))))))) + s * (0 + t * (0 + t * (0 + t * ((- (2 * (2 * 1))) + t * (0 + t * (0 + t * (0 + t * (2 * (2 * 1)))))))))))))))))))))).
    apply (k_cancel F ((t - s) * (t - s) * ((t - s) * (t - s)) * ((t - s) * (t - s) * ((t - s) * (t - s))) * ((2 * s * t - (s * s + 1)) * (2 * s * t - (s * s + 1)) * (2 * s * t - (s * s + 1))))); [nz1|].
    match type of R with ?r = _ => match goal with |- _ = ?y => transitivity (y - r * Q) end end; [|rewrite R; ring].
    unfold aff, iso3, iso4, cod3, cod4. cbn [fst snd]. unfold Q. field.
    assert (S1 : s - t <> 0) by (intros E; apply A; transitivity (- (s - t)); [ring|rewrite E; ring]).
    repeat apply conj; first [exact B|intros E; first [apply A; rewrite <- E; ring|apply B; rewrite <- E; ring|apply S1; rewrite <- E; ring]].
  Qed.
  Lemma iso3_kernel : forall k p, snd k <> 0 -> eqv (iso3 (aff k) p) (fst p * (fU p k * fU p k), snd p * (fV p k * fV p k)).
  Proof.
    intros [X Z] [Y W] N. unfold aff, fU, fV, iso3. cbn [fst snd] in *. exists (1 / (Z * Z)). split.
    - intros E. apply (k_one_nz F). transitivity (1 / (Z * Z) * (Z * Z)); [field; exact N|rewrite E; ring].
    - split; cbn [fst snd]; field; exact N.
  Qed.
  Lemma iso4_kernel : forall k u p, snd k <> 0 -> snd u <> 0 -> fst u * (2 * fst k * snd k) = snd u * (fst k * fst k + snd k * snd k) -> fst k <> 0 ->
    eqv (iso4 (aff k) p) (- (fst p * (fU p k * fU p k) * fU p u), snd p * (fV p k * fV p k) * fV p u).
  Proof.
    intros [X Z] [U V] [Y W] N NV E NX. unfold aff, fU, fV, iso4. cbn [fst snd] in *.
    assert (EU : U = V * (X * X + Z * Z) / (2 * X * Z)) by (rewrite <- E; field; fnz). rewrite EU.
    exists (2 * X / (Z * Z * Z * V)). split.
    - intros G. assert (H : 2 * X = 0) by (transitivity (2 * X / (Z * Z * Z * V) * (Z * Z * Z * V)); [field; fnz|rewrite G; ring]). revert H. nz1.
    - split; cbn [fst snd]; field; fnz.
  Qed.
  Lemma sq_map : forall a s t p, nonsing a -> q4 a s = 0 -> psi3 a t = 0 ->
    eqv (iso3 (aff (iso4 s (t, 1))) (iso4 s p)) (iso4 (aff (iso3 t (s, 1))) (iso3 t p)).
  Proof.
    intros a s t p NS T4 T3. destruct (q4_s a s NS T4) as (N0 & N1 & N2). destruct (psi3_t a t NS T3) as [M0 M1].
    pose proof (xhom3 a t NS T3) as H3. pose proof (iso3_q4 a s t NS T4 T3) as Q4. pose proof (iso3_s a s t NS T4 T3) as NS3.
    set (u := (s * s + 1, 2 * s)).
    assert (NU : nz u) by (intros [E _]; apply N1, E).
    assert (EU : eqv (iso3 t u) (aff (iso3 t (s, 1)) * aff (iso3 t (s, 1)) + 1, 2 * aff (iso3 t (s, 1)))).
    { eapply eqv_trans; [|apply (q4_dbl (cod3 a t)); [apply H3|exact Q4]].
      eapply eqv_trans; [apply (xh_eqv _ _ _ H3), eqv_sym, (q4_dbl a s NS T4)|].
      eapply eqv_trans; [apply eqv_sym, (xh_dbl _ _ _ H3)|]. apply dbl_eqv, aff_eqv, NS3. }
    destruct (q4_s _ _ (xh_cod _ _ _ H3) Q4) as (K0 & K1 & K2).
    assert (FK : fst (iso3 t (s, 1)) <> 0).
    { intros E. apply K0. unfold aff. rewrite E. transitivity (0 / snd (iso3 t (s, 1))); [reflexivity|field; exact NS3]. }
    eapply eqv_trans; [apply iso3_kernel, (iso4_t a); assumption|].
    eapply eqv_trans; [|apply eqv_sym, (iso4_kernel (iso3 t (s, 1)) (iso3 t u))].
    - rewrite (U4 a s NS T4), (V4 a s NS T4), !(U3 a t T3), !(V3 a t T3).
      assert (W' : fD a t p u = fW' s p (t, 1) * fW' s p (t, 1)) by (rewrite (W4' a s NS T4); destruct p as [X Z]; unfold fD, fU, fV, fM, u; cbn [fst snd]; ring).
      assert (W : fDs a t p u = fW s p (t, 1) * fW s p (t, 1)) by (rewrite (W4 a s NS T4); destruct p as [X Z]; unfold fDs, fU, fV, fM, u; cbn [fst snd]; ring).
      rewrite W, W'.
      replace (fD a t p (s, 1)) with (fD a s p (t, 1)) by (destruct p as [X Z]; unfold fD, fU, fV, fM; cbn [fst snd]; ring).
      replace (fDs a t p (s, 1)) with (fDs a s p (t, 1)) by (destruct p as [X Z]; unfold fDs, fU, fV, fM; cbn [fst snd]; ring).
      set (D1 := fD a s p (t, 1)). set (D2 := fDs a s p (t, 1)). set (W1 := fW s p (t, 1)). set (W2 := fW' s p (t, 1)). clearbody D1 D2 W1 W2.
      destruct p as [X Z]. unfold iso3, iso4, fU, fV, u. cbn [fst snd].
      exists (s * s * (s * s) * ((s * s + 1) * (s * s + 1)) / (t * t * (t * t) * (t * t))). split.
      + intros G. assert (H : s * s * (s * s) * ((s * s + 1) * (s * s + 1)) = 0) by (transitivity (s * s * (s * s) * ((s * s + 1) * (s * s + 1)) / (t * t * (t * t) * (t * t)) * (t * t * (t * t) * (t * t))); [field; exact M0|rewrite G; ring]). revert H. nz1.
      + split; cbn [fst snd]; field; exact M0.
    - exact NS3.
    - intros E. apply (eqv_snd0 _ _ EU) in E. cbn [snd] in E. revert E. nz1.
    - destruct EU as (k & K & E1 & E2). rewrite E1, E2. unfold aff. cbn [fst snd]. field. exact NS3.
    - exact FK.
  Qed.

  (* ---------- chains of isogenies ---------- *)
  Fixpoint walk4 (m : nat) (a : F) (p : pt) : F * (pt -> pt) :=
    match m with
    | O => (a, fun x => x)
    | S m => let s := aff (dbls a (2 * m) p) in
             let w := walk4 m (cod4 s) (iso4 s p) in (fst w, fun x => snd w (iso4 s x))
    end.
  Fixpoint walk3 (n : nat) (a : F) (q : pt) : F * (pt -> pt) :=
    match n with
    | O => (a, fun x => x)
    | S n => let t := aff (tpls a n q) in
             let w := walk3 n (cod3 a t) (iso3 t q) in (fst w, fun x => snd w (iso3 t x))
    end.
  Lemma walk4_eqv : forall m a p p', eqv p p' -> fst (walk4 m a p) = fst (walk4 m a p') /\ forall x, snd (walk4 m a p) x = snd (walk4 m a p') x.
  Proof.
    induction m as [|m IH]; intros a p p' E; [split; reflexivity|]. cbn [walk4 fst snd].
    rewrite (eqv_aff _ _ (dbls_eqv a (2 * m) _ _ E)). set (s := aff (dbls a (2 * m) p')).
    destruct (IH (cod4 s) _ _ (iso4_eqv s _ _ E)) as [A B]. split; [exact A|]. intros x. apply B.
  Qed.
  Lemma walk3_eqv : forall m a p p', eqv p p' -> fst (walk3 m a p) = fst (walk3 m a p') /\ forall x, snd (walk3 m a p) x = snd (walk3 m a p') x.
  Proof.
    induction m as [|m IH]; intros a p p' E; [split; reflexivity|]. cbn [walk3 fst snd].
    rewrite (eqv_aff _ _ (tpls_eqv a m _ _ E)). set (s := aff (tpls a m p')).
    destruct (IH (cod3 a s) _ _ (iso3_eqv s _ _ E)) as [A B]. split; [exact A|]. intros x. apply B.
  Qed.
  Lemma walk4_hom : forall m a p, nonsing a -> ord4 a m p ->
    xhom a (fst (walk4 m a p)) (snd (walk4 m a p)) /\ forall n q, ord3 a n q -> ord3 (fst (walk4 m a p)) n (snd (walk4 m a p) q).
  Proof.
    induction m as [|m IH]; intros a p NS O; [split; [apply xhom_id, NS|auto]|]. pose proof (ord4_nz _ _ _ NS O) as N. destruct O as (s & E & T).
    cbn [walk4 fst snd]. rewrite (eqv_aff1 _ _ E). destruct (IH (cod4 s) (iso4 s p)) as [A B].
    - apply (cod4_nonsing a); assumption.
    - apply (iso4_ord4 a); assumption.
    - split; [apply (xhom_comp _ _ _ _ _ (xhom4 a s NS T) A)|]. intros n q Q. apply B. apply (iso4_ord3 a); assumption.
  Qed.
  Lemma walk3_hom : forall m a p, nonsing a -> ord3 a m p ->
    xhom a (fst (walk3 m a p)) (snd (walk3 m a p)) /\ forall n q, ord4 a n q -> ord4 (fst (walk3 m a p)) n (snd (walk3 m a p) q).
  Proof.
    induction m as [|m IH]; intros a p NS O; [split; [apply xhom_id, NS|auto]|]. pose proof (ord3_nz _ _ _ O) as N. destruct O as (s & E & T).
    cbn [walk3 fst snd]. rewrite (eqv_aff1 _ _ E). destruct (IH (cod3 a s) (iso3 s p)) as [A B].
    - apply (cod3_nonsing a); assumption.
    - apply (iso3_ord3 a); assumption.
    - split; [apply (xhom_comp _ _ _ _ _ (xhom3 a s NS T) A)|]. intros n q Q. apply B. apply (iso3_ord4 a); assumption.
  Qed.
  (* one 4-isogeny against a chain of 3-isogenies *)
  Lemma row : forall n a s q, nonsing a -> q4 a s = 0 -> ord3 a n q ->
    let W := walk3 n a q in let W' := walk3 n (cod4 s) (iso4 s q) in let s' := aff (snd W (s, 1)) in
    fst W' = cod4 s' /\ forall x, nz x -> eqv (snd W' (iso4 s x)) (iso4 s' (snd W x)).
  Proof.
    induction n as [|n IH]; intros a s q NS T4 O; cbv zeta.
    - cbn [walk3 fst snd]. rewrite aff_1. split; [reflexivity|]. intros. apply eqv_refl.
    - pose proof (ord3_nz _ _ _ O) as N. destruct O as (t & E & T3). cbn [walk3 fst snd]. rewrite (eqv_aff1 _ _ E).
      pose proof (xhom4 a s NS T4) as H4.
      assert (E1 : aff (tpls (cod4 s) n (iso4 s q)) = aff (iso4 s (t, 1))).
      { apply eqv_aff. eapply eqv_trans; [apply (tpls_hom _ _ _ H4), N|]. apply (xh_eqv _ _ _ H4), E. }
      rewrite E1, (sq_cod a s t NS T4 T3). set (s2 := aff (iso3 t (s, 1))).
      assert (Q2 : q4 (cod3 a t) s2 = 0) by (apply (iso3_q4 a); assumption).
      assert (ES : aff (snd (walk3 n (cod3 a t) (iso3 t q)) (iso3 t (s, 1))) = aff (snd (walk3 n (cod3 a t) (iso3 t q)) (s2, 1))).
      { apply eqv_aff. apply (xh_eqv _ _ _ (proj1 (walk3_hom n (cod3 a t) (iso3 t q) (cod3_nonsing a t NS T3) (iso3_ord3 a t n q NS T3 N E)))).
        apply aff_eqv. apply (iso3_s a); assumption. }
      rewrite ES. destruct (IH (cod3 a t) s2 (iso3 t q) (cod3_nonsing a t NS T3) Q2 (iso3_ord3 a t n q NS T3 N E)) as [A B].
      destruct (walk3_eqv n (cod4 s2) _ _ (sq_map a s t q NS T4 T3)) as [C D]. fold s2 in C, D. rewrite C. split; [exact A|].
      intros x X. rewrite D. eapply eqv_trans; [|apply B, iso3_nz; [apply (psi3_t a t NS T3)|apply (psi3_t a t NS T3)|exact X]].
      assert (NS4 : nonsing (cod4 s2)) by (apply (cod4_nonsing (cod3 a t)); [apply (cod3_nonsing a); assumption|exact Q2]).
      assert (O4 : ord3 (cod4 s2) n (iso4 s2 (iso3 t q))).
      { apply (iso4_ord3 (cod3 a t)); [apply (cod3_nonsing a); assumption|exact Q2|apply (iso3_ord3 a); assumption]. }
      apply (xh_eqv _ _ _ (proj1 (walk3_hom n _ _ NS4 O4))). apply (sq_map a); assumption.
  Qed.
  (* the two orders of walking end on the same curve *)
  Theorem walks_agree : forall m n a p q, nonsing a -> ord4 a m p -> ord3 a n q ->
    fst (walk4 m (fst (walk3 n a q)) (snd (walk3 n a q) p)) = fst (walk3 n (fst (walk4 m a p)) (snd (walk4 m a p) q)).
  Proof.
    induction m as [|m IH]; intros n a p q NS O4 O3; [reflexivity|].
    pose proof (ord4_nz _ _ _ NS O4) as N. destruct O4 as (s & E & T4). cbn [walk4 fst snd]. rewrite (eqv_aff1 _ _ E).
    destruct (row n a s q NS T4 O3) as [A B]. cbv zeta in A, B.
    pose proof (proj1 (walk3_hom n a q NS O3)) as H.
    assert (ES : aff (dbls (fst (walk3 n a q)) (2 * m) (snd (walk3 n a q) p)) = aff (snd (walk3 n a q) (s, 1))).
    { apply eqv_aff. eapply eqv_trans; [apply (dbls_hom _ _ _ H)|]. apply (xh_eqv _ _ _ H), E. }
    rewrite ES. rewrite <- (IH n (cod4 s) (iso4 s p) (iso4 s q)); [|apply (cod4_nonsing a); assumption|apply (iso4_ord4 a); assumption|apply (iso4_ord3 a); assumption].
    rewrite A. symmetry. apply walk4_eqv. apply B, N.
  Qed.
End Line.
