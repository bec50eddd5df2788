(* The curve.go code over an abstract field computes the maps of SIDH_Line.v. *)
From Coq Require Import ZArith List Lia Bool Field.
From Verif Require Import Lib MP Instr FieldAlg MontCurve SIDH_Consts SIDH_Field SIDH_Curve SIDH_Line.
Import ListNotations.
Open Scope Z_scope.

Definition absSwap {T : Type} (x y : T) (c : Z) : T * T := if c =? 0 then (x, y) else (y, x).
Definition absS (F : fld) (half a0 : F) : sops := mkSops (absOps F) k0 k1 half a0 k1 absSwap.

Section CurveProofs.
  Variable F : fld.
  Add Field Ff : (k_th F).
  Local Infix "+" := kadd. Local Infix "*" := kmul. Local Infix "-" := ksub. Local Infix "/" := kdiv.
  Local Notation "- x" := (kopp x). Local Notation "0" := k0. Local Notation "1" := k1.
  Local Notation "2" := (1 + 1). Local Notation "3" := (1 + 1 + 1). Local Notation "4" := ((1 + 1) * (1 + 1)).
  Local Notation "6" := ((1 + 1) * (1 + 1 + 1)).
  Hypothesis two_nz : 2 <> 0 :> F.
  Hypothesis three_nz : 3 <> 0 :> F.
  Variables half a0 : F.
  Hypothesis half_ok : 2 * half = 1.
  Notation V := (absS F half a0).
  Notation pt := (pt F). Notation eqv := (eqv F). Notation nz := (nz F). Notation aff := (aff F).

  Ltac nz1 := repeat apply k_mul_nz; try assumption.
  Ltac fnz := repeat apply conj; nz1.
  Ltac runit := cbv [call run step mset args nth Nat.eqb absS so s0 sOne sHalf absOps car fadd fsub fmul fsqr finv fst snd].
  Ltac norm := cbn [car absOps so absS] in *.

  (* the j-invariant of y^2 = x^3 + a x^2 + x *)
  Definition jinv (a : F) : F := 4 * 4 * (4 * 4) * ((a * a - 3) * (a * a - 3) * (a * a - 3)) / (a * a - 4).
  Lemma Jinvariant_ok : forall A C, Jinvariant V (A, C) =
    4 * 4 * (4 * 4) * ((A * A - 3 * (C * C)) * (A * A - 3 * (C * C)) * (A * A - 3 * (C * C))) * kinv (C * C * (C * C) * (A * A - 4 * (C * C))).
  Proof.
    intros A C. unfold Jinvariant, Jinvariant_code. runit. norm.
    match goal with |- ?x * kinv ?d = ?y * kinv ?e => assert (H : @eq F d e) by ring; rewrite H; clear H; assert (H : @eq F x y) by ring; rewrite H end. reflexivity.
  Qed.
  Lemma Jinvariant_jinv : forall a A C, C <> 0 -> A = a * C -> nonsing F a -> Jinvariant V (A, C) = jinv a.
  Proof.
    intros a A C HC -> NS. rewrite Jinvariant_ok. unfold jinv. unfold nonsing in NS. apply (k_sub_nz F) in NS. norm.
    set (w := a * a - 4) in *.
    match goal with |- context [kinv ?d] => assert (H : @eq F d (C * C * (C * C) * (C * C) * w)) by (unfold w; ring); rewrite H; clear H end.
    clearbody w. field. fnz.
  Qed.
  Lemma RecoverCoordinateA_ok : forall a c xp xq xr, xp <> 0 -> xq <> 0 -> xr <> 0 -> rel F a (xp, 1) (xq, 1) (xr, 1) ->
    RecoverCoordinateA V c xp xq xr = (a, snd c).
  Proof.
    intros a c xp xq xr Hp Hq Hr R. unfold RecoverCoordinateA, RecoverCoordinateA_code. f_equal. runit. norm.
    unfold rel, fU, fV, fM in R. cbn [fst snd] in R.
    assert (E : 4 * (xp * xq * xr) * a = (xp - xq) * (xp - xq) * (xr * xr) + (xp * xq - 1) * (xp * xq - 1) - 2 * xr * (xp + xq) * (xp * xq + 1)).
    { match type of R with ?l = ?r => transitivity (r - 2 * xr * (xp + xq) * (xp * xq + 1)); [ring|rewrite <- R; ring] end. }
    assert (A : a = ((xp - xq) * (xp - xq) * (xr * xr) + (xp * xq - 1) * (xp * xq - 1) - 2 * xr * (xp + xq) * (xp * xq + 1)) / (4 * (xp * xq * xr))) by (rewrite <- E; field; fnz).
    rewrite A. match goal with |- context [kinv ?d] => assert (H : @eq F d (4 * (xp * xq * xr))) by ring; rewrite H; clear H end. field. fnz.
  Qed.
  (* projective coefficient pairs *)
  Definition rc (e : F * F) (a : F) : Prop := snd e <> 0 /\ fst e = a * snd e.
  Definition rc4 (e : F * F) (a : F) : Prop := exists k, k <> 0 /\ fst e = k * (a + 2) /\ snd e = k * 4.
  Definition rc3 (e : F * F) (a : F) : Prop := exists k, k <> 0 /\ fst e = k * (a + 2) /\ snd e = k * (a - 2).
  Lemma Equiv3_ok : forall e a, rc e a -> rc3 (CalcCurveParamsEquiv3 V e) a.
  Proof. intros [A C] a [H1 H2]. cbn [fst snd] in *. exists C. split; [exact H1|]. unfold CalcCurveParamsEquiv3, Equiv3_code. runit. rewrite H2. norm. split; ring. Qed.
  Lemma Equiv4_ok : forall e a, rc e a -> rc4 (CalcCurveParamsEquiv4 V e) a.
  Proof. intros [A C] a [H1 H2]. cbn [fst snd] in *. exists C. split; [exact H1|]. unfold CalcCurveParamsEquiv4, Equiv4_code. runit. rewrite H2. norm. split; ring. Qed.
  Lemma Aplus2Over4_ok : forall e a, rc e a -> CalcAplus2Over4 V e = (a + 2) / 4.
  Proof. intros [A C] a [H1 H2]. cbn [fst snd] in *. unfold CalcAplus2Over4, Aplus2Over4_code. runit. rewrite H2. norm. field. split; [fnz|]. intros E. apply (k_mul_nz F 4 C); [nz1|exact H1|]. rewrite <- E. ring. Qed.
  Lemma Recover3_ok : forall e a, rc3 e a -> rc (RecoverCurveCoefficients3 V e) a.
  Proof.
    intros [A C] a (k & H1 & H2 & H3). cbn [fst snd] in *. unfold rc, RecoverCurveCoefficients3, Recover3_code. runit. rewrite H2, H3. norm.
    split; [|ring]. intros E. apply (k_mul_nz F 4 k); [nz1|exact H1|]. rewrite <- E. ring.
  Qed.
  Lemma Recover4_ok : forall e a, rc4 e a -> rc (RecoverCurveCoefficients4 V e) a.
  Proof.
    intros [A C] a (k & H1 & H2 & H3). cbn [fst snd] in *. unfold rc, RecoverCurveCoefficients4, Recover4_code. runit. rewrite H2, H3. norm.
    assert (E : k * 4 * half * half = k) by (transitivity (k * (2 * half) * (2 * half)); [ring|rewrite half_ok; ring]).
    assert (G : k * 4 * half = 2 * k) by (transitivity (2 * k * (2 * half)); [ring|rewrite half_ok; ring]).
    rewrite E, G. split; [exact H1|ring].
  Qed.
  Lemma xDbladd_ok : forall a P Q D a24, a24 = (a + 2) / 4 -> exists k, k <> 0 /\
    xDbladd V P Q D a24 = (dbl F a P, (k * fst (dadd F P Q D), k * snd (dadd F P Q D))).
  Proof.
    intros a [XP ZP] [XQ ZQ] [XD ZD] a24 ->. exists 4. split; [nz1|]. unfold xDbladd, xDbladd_code. runit. norm. unfold dbl, dadd, dblX, dblZ, addX, addZ. cbn [fst snd].
    f_equal; f_equal; try ring. field. fnz.
  Qed.

  Lemma pow2_round : forall m : nat -> F, let m' := run (absOps F) Pow2k_code m in
    let t := 4 * (m 0%nat * m 1%nat) in let d := (m 0%nat - m 1%nat) * (m 0%nat - m 1%nat) in
    m' 0%nat = m 3%nat * d * (d + t) /\ m' 1%nat = (m 3%nat * d + m 2%nat * t) * t /\ m' 2%nat = m 2%nat /\ m' 3%nat = m 3%nat.
  Proof.
    intros m. unfold Pow2k_code. cbv zeta. runit. norm. repeat apply conj; try reflexivity; ring.
  Qed.
  Lemma concat_repeat : forall {A} (l : list A) n, concat (repeat l (Datatypes.S n)) = l ++ concat (repeat l n).
  Proof. reflexivity. Qed.
  Lemma pow2_iter : forall a n m, rc4 (m 2%nat, m 3%nat) a ->
    let m' := run (absOps F) (concat (repeat Pow2k_code n)) m in eqv (m' 0%nat, m' 1%nat) (dbls F a n (m 0%nat, m 1%nat)).
  Proof.
    intros a. induction n as [|n IH]; intros m R; cbv zeta.
    - cbn. apply eqv_refl.
    - rewrite concat_repeat, run_app. destruct (pow2_round m) as (E0 & E1 & E2 & E3).
      set (m1 := run (absOps F) Pow2k_code m) in *.
      replace (Datatypes.S n) with (n + 1)%nat by lia. rewrite dbls_add. change (dbls F a 1) with (dbl F a).
      eapply (eqv_trans F); [apply (IH m1); rewrite E2, E3; exact R|]. apply dbls_eqv.
      destruct R as (k & K & R1 & R2). cbn [fst snd] in *. exists (4 * k). split; [nz1|]. rewrite E0, E1, R1, R2. unfold dbl, dblX, dblZ. cbn [fst snd]. split; ring.
  Qed.
  Lemma Pow2k_ok : forall a p e k, rc4 e a -> eqv (Pow2k V p e k) (dbls F a (Z.to_nat k) p).
  Proof. intros a [X Z] [A C] k R. unfold Pow2k, call. norm. apply (pow2_iter a). exact R. Qed.
  Lemma pow3_round : forall a m, rc3 (m 2%nat, m 3%nat) a -> let m' := run (absOps F) Pow3k_code m in
    eqv (m' 0%nat, m' 1%nat) (tpl F a (m 0%nat, m 1%nat)) /\ m' 2%nat = m 2%nat /\ m' 3%nat = m 3%nat.
  Proof.
    intros a m (k & K & R1 & R2). unfold Pow3k_code. cbv zeta. runit. norm. cbn [fst snd] in *. split; [|split; reflexivity]. rewrite R1, R2.
    exists (2 * (4 * k * (4 * k))). split; [nz1|]. unfold tpl. cbn [fst snd]. split; ring.
  Qed.
  Lemma pow3_iter : forall a n m, rc3 (m 2%nat, m 3%nat) a ->
    let m' := run (absOps F) (concat (repeat Pow3k_code n)) m in eqv (m' 0%nat, m' 1%nat) (tpls F a n (m 0%nat, m 1%nat)).
  Proof.
    intros a. induction n as [|n IH]; intros m R; cbv zeta.
    - cbn. apply eqv_refl.
    - rewrite concat_repeat, run_app. destruct (pow3_round a m R) as (E0 & E2 & E3).
      set (m1 := run (absOps F) Pow3k_code m) in *.
      replace (Datatypes.S n) with (n + 1)%nat by lia. rewrite tpls_add. change (tpls F a 1) with (tpl F a).
      eapply (eqv_trans F); [apply (IH m1); rewrite E2, E3; exact R|]. apply tpls_eqv, E0.
  Qed.
  Lemma Pow3k_ok : forall a p e k, rc3 e a -> eqv (Pow3k V p e k) (tpls F a (Z.to_nat k) p).
  Proof. intros a [X Z] [A C] k R. unfold Pow3k, call. norm. apply (pow3_iter a). exact R. Qed.
  Lemma Batch3Inv_ok : forall x y z : F, x <> 0 -> y <> 0 -> z <> 0 -> Fp2Batch3Inv V x y z = (kinv x, kinv y, kinv z).
  Proof. intros x y z Hx Hy Hz. unfold Fp2Batch3Inv, Batch3Inv_code. runit. norm. f_equal; [f_equal|]; field; fnz. Qed.

  (* isogenies; p ~ (t, 1) *)
  Lemma gen3_ok : forall a t p, eqv p (t, 1) -> psi3 F a t = 0 -> nonsing F a ->
    rc3 (fst (GenerateCurve3 V p)) (cod3 F a t).
  Proof.
    intros a t [X Z] (k & K & E1 & E2) T NS. cbn [fst snd] in *. subst X Z. destruct (psi3_a F two_nz a t T) as [N A]. destruct (psi3_t F two_nz a t NS T) as [_ N1].
    unfold GenerateCurve3, gen3_code, cod3. runit. norm. rewrite A.
    exists (- (4 * t * (k * k * (k * k)))). split; [intros E; assert (G : 4 * t * (k * k * (k * k)) = 0) by (transitivity (- - (4 * t * (k * k * (k * k)))); [ring|rewrite E; ring]); revert G; nz1|].
    cbn [fst snd]. split; field; fnz.
  Qed.
  Lemma eval3_ok : forall t p q, eqv p (t, 1) -> eqv (EvaluatePoint3 V (snd (GenerateCurve3 V p)) q) (iso3 F t q).
  Proof.
    intros t [X Z] [Y W] (k & K & E1 & E2). cbn [fst snd] in *. subst X Z. unfold EvaluatePoint3, eval3_code, GenerateCurve3, gen3_code. runit. norm.
    exists (4 * (k * k)). split; [nz1|]. unfold iso3. cbn [fst snd]. split; ring.
  Qed.
  Lemma gen4_ok : forall s p, eqv p (s, 1) -> rc4 (fst (GenerateCurve4 V p)) (cod4 F s).
  Proof.
    intros s [X Z] (k & K & E1 & E2). cbn [fst snd] in *. subst X Z. unfold GenerateCurve4, gen4_code, cod4. runit. norm.
    exists (k * k * (k * k)). split; [nz1|]. cbn [fst snd]. split; ring.
  Qed.
  Lemma eval4_ok : forall s p q, eqv p (s, 1) -> s <> 0 -> eqv (EvaluatePoint4 V (snd (GenerateCurve4 V p)) q) (iso4 F s q).
  Proof.
    intros s [X Z] [Y W] (k & K & E1 & E2) S. cbn [fst snd] in *. subst X Z. unfold EvaluatePoint4, eval4_code, GenerateCurve4, gen4_code. runit. norm.
    exists (- (4 * 4 * (k * k * (k * k)))). split; [intros E; assert (G : 4 * 4 * (k * k * (k * k)) = 0) by (transitivity (- - (4 * 4 * (k * k * (k * k)))); [ring|rewrite E; ring]); revert G; nz1|].
    unfold iso4. cbn [fst snd]. split; ring.
  Qed.
End CurveProofs.
