(* Points of a Montgomery curve y^2 = x^3 + a x^2 + x and the x-only maps of SIDH_Line.v; orders of
   the points P + [k]Q of a torsion basis. *)
From Coq Require Import ZArith List Lia Bool Field.
From Verif Require Import Lib MP Instr FieldAlg MontCurve MontAssoc MontLadder SIDH_Line.
Import ListNotations.
Open Scope Z_scope.

Section Points.
  Variable F : fld.
  Add Field Ff : (k_th F).
  Local Infix "+" := kadd. Local Infix "*" := kmul. Local Infix "-" := ksub. Local Infix "/" := kdiv.
  Local Notation "- x" := (kopp x). Local Notation "0" := k0. Local Notation "1" := k1.
  Local Notation "2" := (1 + 1). Local Notation "3" := (1 + 1 + 1). Local Notation "4" := ((1 + 1) * (1 + 1)).
  Local Notation "6" := ((1 + 1) * (1 + 1 + 1)).
  Hypothesis two_nz : 2 <> 0 :> F.
  Hypothesis three_nz : 3 <> 0 :> F.
  Variable a : F.
  Hypothesis NS : nonsing F a.
  Notation pt := (pt F). Notation eqv := (eqv F). Notation nz := (nz F). Notation aff := (aff F). Notation rel := (rel F a).
  Notation dbl := (dbl F a). Notation tpl := (tpl F a). Notation dadd := (dadd F). Notation dbls := (dbls F a). Notation tpls := (tpls F a).
  Notation pnt := (pnt F). Notation onc := (onc F a 1). Notation padd := (padd F a 1). Notation pneg := (pneg F).
  Notation Inf := (Inf F). Notation Aff := (Aff F). Notation xrep := (xrep F). Notation pmul := (pmul F a 1).
  Ltac nz1 := repeat apply k_mul_nz; try assumption.
  Ltac fnz := repeat apply conj; nz1.
  Let one_nz := k_one_nz F.

  Definition xp (P : pnt) : pt := match P with MontCurve.Inf _ => (1, 0) | MontCurve.Aff _ x _ => (x, 1) end.
  Lemma xp_nz : forall P, nz (xp P).
  Proof. intros [|x y] [H1 H2]; cbn [xp fst snd] in *; apply one_nz; assumption. Qed.
  Lemma xp_neg : forall P, xp (pneg P) = xp P.
  Proof. intros [|x y]; reflexivity. Qed.
  Lemma xrep_eqv : forall X Z P, xrep X Z P <-> eqv (X, Z) (xp P).
  Proof.
    intros X Z [|x y]; cbn [MontCurve.xrep xp]; split.
    - intros [H1 H2]. exists X. cbn [fst snd]. split; [exact H1|]. split; [ring|rewrite H2; ring].
    - intros (k & K & E1 & E2). cbn [fst snd] in *. subst. split; [|ring]. intros E. apply K. rewrite <- E. ring.
    - intros [H1 H2]. exists Z. cbn [fst snd]. split; [exact H1|]. split; [rewrite H2; ring|ring].
    - intros (k & K & E1 & E2). cbn [fst snd] in *. subst. split; [|ring]. intros E. apply K. rewrite <- E. ring.
  Qed.
  Lemma xp_dbl : forall P, onc P -> eqv (dbl (xp P)) (xp (padd P P)).
  Proof.
    intros P H. pose proof (eqv_refl F (xp P)) as E. destruct (xp P) as [X Z] eqn:EP. rewrite <- EP in E at 2. apply xrep_eqv in E.
    apply xrep_eqv. apply xdbl_ok; assumption.
  Qed.
  Lemma xp_add : forall P Q, onc P -> onc Q -> fst (xp (padd P (pneg Q))) <> 0 -> snd (xp (padd P (pneg Q))) <> 0 ->
    eqv (dadd (xp P) (xp Q) (xp (padd P (pneg Q)))) (xp (padd P Q)).
  Proof.
    intros P Q HP HQ H1 H2.
    assert (G : forall R, xrep (fst (xp R)) (snd (xp R)) R) by (intros R; apply xrep_eqv; rewrite <- surjective_pairing; apply eqv_refl).
    apply xrep_eqv. apply (xadd_ok F a 1 two_nz one_nz); auto.
  Qed.
  Lemma rel_chord : forall x1 y1 x2 y2 l, onc (Aff x1 y1) -> onc (Aff x2 y2) -> x1 <> x2 -> l * (x2 - x1) = y2 - y1 ->
    rel (x1, 1) (x2, 1) (1 * (l * l) - a - x1 - x2, 1).
  Proof.
    intros x1 y1 x2 y2 l H1 H2 N L. cbn [MontCurve.onc] in H1, H2.
    assert (V : x1 - x2 <> 0) by (apply k_sub_nz; exact N).
    set (W := (x1 - x2) * (x1 - x2)). assert (VW : W <> 0) by (unfold W; nz1).
    set (M := (x1 + x2) * (x1 * x2 + 1) + 2 * a * (x1 * x2)).
    assert (E : W * (1 * (l * l) - a - x1 - x2) = M - 2 * (y1 * y2)).
    { transitivity ((y2 - y1) * (y2 - y1) - (a + x1 + x2) * W); [rewrite <- L; unfold W; ring|].
      transitivity (1 * (y1 * y1) + 1 * (y2 * y2) - 2 * (y1 * y2) - (a + x1 + x2) * W); [ring|]. rewrite H1, H2. unfold M, W. ring. }
    unfold SIDH_Line.rel, fU, fV, fM. cbn [fst snd]. set (x3 := 1 * (l * l) - a - x1 - x2) in *.
    apply (k_cancel F W); [exact VW|].
    transitivity (W * x3 * (W * x3) + W * ((x1 * x2 - 1) * (x1 * x2 - 1))); [unfold W; ring|].
    transitivity (2 * M * (W * x3)); [|unfold M; ring]. rewrite E.
    assert (Q : (y1 * y2) * (y1 * y2) = (x1 * x1 * x1 + a * (x1 * x1) + x1) * (x2 * x2 * x2 + a * (x2 * x2) + x2)) by (rewrite <- H1, <- H2; ring).
    transitivity (M * M - 4 * M * (y1 * y2) + 4 * ((y1 * y2) * (y1 * y2)) + W * ((x1 * x2 - 1) * (x1 * x2 - 1))); [ring|].
    transitivity (2 * M * M - 4 * M * (y1 * y2)); [|ring]. rewrite Q. unfold M, W. ring.
  Qed.
  Lemma rel_points : forall P Q, onc P -> onc Q -> rel (xp P) (xp Q) (xp (padd P Q)).
  Proof.
    intros [|x1 y1] [|x2 y2] HP HQ.
    - unfold SIDH_Line.rel, fU, fV, fM. cbn [xp fst snd MontCurve.padd]. ring.
    - unfold SIDH_Line.rel, fU, fV, fM. cbn [xp fst snd MontCurve.padd]. ring.
    - unfold SIDH_Line.rel, fU, fV, fM. cbn [xp fst snd MontCurve.padd]. ring.
    - cbn [MontCurve.padd]. destruct (k_dec x1 x2) as [->|N].
      + destruct (k_dec y1 (- y2)) as [->|M].
        * unfold SIDH_Line.rel, fU, fV, fM. cbn [xp fst snd]. ring.
        * destruct (same_x F a 1 one_nz x2 y1 y2 HP HQ) as [->|E]; [|contradiction].
          pose proof (rel_same F a (x2, 1)) as R. eapply rel_eqv; [apply eqv_refl|apply eqv_refl| |exact R].
          pose proof (xp_dbl (Aff x2 y2) HP) as D. cbn [MontCurve.padd] in D. destruct (k_dec x2 x2); [|contradiction].
          destruct (k_dec y2 (- y2)); [contradiction|]. exact D.
      + cbn [xp MontCurve.chord]. unfold MontCurve.chord. cbn [xp]. apply (rel_chord x1 y1 x2 y2); try assumption. field.
        apply k_sub_nz. intros E. apply N. symmetry. exact E.
  Qed.
  Lemma xp_tpl : forall P, onc P -> eqv (tpl (xp P)) (xp (padd (padd P P) P)).
  Proof.
    intros P H. destruct P as [|x y].
    - cbn [xp MontCurve.padd]. exists 1. split; [exact one_nz|]. cbn [fst snd SIDH_Line.tpl]. split; ring.
    - destruct (k_dec x 0) as [E|E].
      + assert (Y : y = 0) by (cbn [MontCurve.onc] in H; apply (k_sqr_0 F); transitivity (1 * (y * y)); [ring|rewrite H, E; ring]). subst x y.
        assert (D : padd (Aff 0 0) (Aff 0 0) = Inf).
        { cbn [MontCurve.padd]. destruct (k_dec 0 0); [|contradiction]. destruct (k_dec 0 (- 0)) as [_|M]; [reflexivity|]. exfalso. apply M. ring. }
        rewrite D. cbn [MontCurve.padd xp]. exists 1. split; [exact one_nz|]. cbn [fst snd SIDH_Line.tpl]. split; ring.
      + set (P := Aff x y) in *. assert (HD : onc (padd P P)) by (apply padd_onc; assumption).
        assert (C : padd (padd P P) (pneg P) = P) by (apply cancel; assumption).
        pose proof (xp_add (padd P P) P HD H) as A. rewrite C in A. cbn [xp P fst snd] in A. specialize (A E one_nz).
        eapply eqv_trans; [|exact A]. eapply eqv_trans; [|apply dadd_eqv; [apply xp_dbl; exact H|apply eqv_refl|apply eqv_refl]].
        cbn [xp P]. pose proof (tpl_dadd F a x 1) as T. apply eqv_sym. exists (x * 1). split; [nz1|]. rewrite T. cbn [fst snd]. split; reflexivity.
  Qed.
  Lemma pmul_2 : forall P, onc P -> padd P P = pmul 2%Z P.
  Proof. intros P H. change 2%Z with (1 + 1)%Z. rewrite (pmul_add F a 1 two_nz one_nz NS) by (assumption || lia). rewrite !pmul_1. reflexivity. Qed.
  Lemma pmul_3 : forall P, onc P -> padd (padd P P) P = pmul 3%Z P.
  Proof. intros P H. change 3%Z with (2 + 1)%Z. rewrite (pmul_add F a 1 two_nz one_nz NS) by (assumption || lia). rewrite pmul_1, pmul_2 by assumption. reflexivity. Qed.
  Lemma xp_dbls : forall n P, onc P -> eqv (dbls n (xp P)) (xp (pmul (2 ^ Z.of_nat n)%Z P)).
  Proof.
    induction n as [|n IH]; intros P H; [change (2 ^ Z.of_nat 0)%Z with 1%Z; rewrite pmul_1; apply eqv_refl|].
    change (dbls (S n) (xp P)) with (dbl (dbls n (xp P))). eapply eqv_trans; [apply dbl_eqv, IH, H|]. rewrite Nat2Z.inj_succ, Z.pow_succ_r by lia.
    assert (0 <= 2 ^ Z.of_nat n)%Z by (apply Z.pow_nonneg; lia).
    rewrite (pmul_mul F a 1 two_nz one_nz NS) by (assumption || lia). rewrite <- pmul_2 by (apply (pmul_onc F a 1 two_nz one_nz), H).
    apply xp_dbl, (pmul_onc F a 1 two_nz one_nz), H.
  Qed.
  Lemma xp_tpls : forall n P, onc P -> eqv (tpls n (xp P)) (xp (pmul (3 ^ Z.of_nat n)%Z P)).
  Proof.
    induction n as [|n IH]; intros P H; [change (3 ^ Z.of_nat 0)%Z with 1%Z; rewrite pmul_1; apply eqv_refl|].
    change (tpls (S n) (xp P)) with (tpl (tpls n (xp P))). eapply eqv_trans; [apply tpl_eqv, IH, H|]. rewrite Nat2Z.inj_succ, Z.pow_succ_r by lia.
    assert (0 <= 3 ^ Z.of_nat n)%Z by (apply Z.pow_nonneg; lia).
    rewrite (pmul_mul F a 1 two_nz one_nz NS) by (assumption || lia). rewrite <- pmul_3 by (apply (pmul_onc F a 1 two_nz one_nz), H).
    apply xp_tpl, (pmul_onc F a 1 two_nz one_nz), H.
  Qed.

  (* ---------- group algebra ---------- *)
  Let onc_add := padd_onc F a 1 two_nz one_nz.
  Let onc_mul := pmul_onc F a 1 two_nz one_nz.
  Let onc_neg := pneg_onc F a 1.
  Lemma sub_sub : forall A B, onc A -> onc B -> padd B (pneg (padd B (pneg A))) = A.
  Proof.
    intros A B HA HB. rewrite (pneg_padd F a 1) by auto. rewrite pneg_pneg, <- (padd_assoc F a 1) by auto. rewrite padd_neg. reflexivity.
  Qed.
  Lemma dbl_sub : forall A B, onc A -> onc B -> padd B (padd B (pneg A)) = padd (padd B B) (pneg A).
  Proof. intros A B HA HB. symmetry. apply padd_assoc; auto. Qed.
  Lemma sub_dbl : forall A B, onc A -> onc B -> padd (padd B B) (pneg (padd B A)) = padd B (pneg A).
  Proof.
    intros A B HA HB. rewrite (pneg_padd F a 1) by auto. rewrite <- (padd_assoc F a 1) by auto. f_equal. apply cancel; auto.
  Qed.
  Lemma neg_sub : forall A B, onc A -> onc B -> pneg (padd A (pneg B)) = padd B (pneg A).
  Proof. intros A B HA HB. rewrite (pneg_padd F a 1) by auto. rewrite pneg_pneg. apply padd_comm; auto. Qed.
  Lemma pmuln_padd : forall n P Q, onc P -> onc Q -> pmuln F a 1 n (padd P Q) = padd (pmuln F a 1 n P) (pmuln F a 1 n Q).
  Proof.
    intros n P Q HP HQ. induction n as [|n IH]; [reflexivity|]. cbn [pmuln]. rewrite IH.
    assert (H1 : onc (pmuln F a 1 n P)) by (apply pmuln_onc; auto). assert (H2 : onc (pmuln F a 1 n Q)) by (apply pmuln_onc; auto).
    set (X := pmuln F a 1 n P) in *. set (Y := pmuln F a 1 n Q) in *.
    rewrite !(padd_assoc F a 1) by auto. f_equal. rewrite <- !(padd_assoc F a 1) by auto. f_equal. apply padd_comm; auto.
  Qed.
  Lemma pmul_padd : forall n P Q, onc P -> onc Q -> pmul n (padd P Q) = padd (pmul n P) (pmul n Q).
  Proof. intros. apply pmuln_padd; assumption. Qed.
  Lemma pmul_inf : forall n, pmul n Inf = Inf.
  Proof. intros n. unfold MontLadder.pmul. induction (Z.to_nat n) as [|k IH]; [reflexivity|]. cbn [pmuln]. rewrite IH. reflexivity. Qed.
  Lemma pmul_comm : forall n m P, onc P -> (0 <= n)%Z -> (0 <= m)%Z -> pmul n (pmul m P) = pmul m (pmul n P).
  Proof. intros. rewrite <- !(pmul_mul F a 1) by assumption. f_equal. lia. Qed.
  (* P + [j]Q *)
  Definition comb (P Q : pnt) (j : Z) : pnt := padd P (pmul j Q).
  Lemma comb_onc : forall P Q j, onc P -> onc Q -> onc (comb P Q j).
  Proof. intros. unfold comb. auto. Qed.
  Lemma pmul_comb : forall n P Q j, onc P -> onc Q -> (0 <= n)%Z -> (0 <= j)%Z -> pmul n (comb P Q j) = padd (pmul n P) (pmul j (pmul n Q)).
  Proof. intros n P Q j HP HQ Hn Hj. unfold comb. rewrite pmul_padd by auto. f_equal. apply pmul_comm; assumption. Qed.

  (* ---------- a basis of the 4^m-torsion with [2^(2m-1)]Q = (0,0) ---------- *)
  Lemma mul_tor2 : forall j T, onc T -> padd T T = Inf -> pmul j T = Inf \/ pmul j T = T.
  Proof.
    intros j T HT H. unfold MontLadder.pmul. induction (Z.to_nat j) as [|k [IH|IH]]; [left; reflexivity| |]; cbn [pmuln]; rewrite IH.
    - right. reflexivity.
    - left. exact H.
  Qed.
  Lemma onc_y0 : forall x y, onc (Aff x y) -> x * (x * x + a * x + 1) = 0 -> y = 0.
  Proof. intros x y H E. apply (k_sqr_0 F). cbn [MontCurve.onc] in H. transitivity (1 * (y * y)); [ring|]. rewrite H, <- E. ring. Qed.
  Lemma padd_y0 : forall x, padd (Aff x 0) (Aff x 0) = Inf.
  Proof. intros x. cbn [MontCurve.padd]. destruct (k_dec x x); [|contradiction]. destruct (k_dec 0 (- 0)) as [_|M]; [reflexivity|]. exfalso. apply M. ring. Qed.
  Section BasisA.
    Variables (P Q : pnt) (m : nat).
    Hypothesis HP : onc P. Hypothesis HQ : onc Q.
    Hypothesis BQ : fst (dbls (2 * m + 1) (xp Q)) = 0.
    Hypothesis BP : q2h F a (dbls (2 * m + 1) (xp P)) = 0.
    Let e := (2 ^ Z.of_nat (2 * m + 1))%Z.
    Let e_pos : (0 <= e)%Z. Proof. apply Z.pow_nonneg. lia. Qed.
    Lemma A_Q2 : pmul e Q = Aff 0 0.
    Proof.
      pose proof (xp_dbls (2 * m + 1) Q HQ) as E. fold e in E. apply (eqv_fst0 F _ _ E) in BQ.
      assert (H : onc (pmul e Q)) by auto. destruct (pmul e Q) as [|x y]; cbn [xp fst] in BQ; [destruct (one_nz BQ)|]. subst x.
      f_equal. apply (onc_y0 0 y H). ring.
    Qed.
    Lemma A_P2 : exists x, pmul e P = Aff x 0 /\ x * x + a * x + 1 = 0.
    Proof.
      pose proof (xp_dbls (2 * m + 1) P HP) as E. fold e in E. apply (q2h_eqv F a _ _ E) in BP.
      assert (H : onc (pmul e P)) by auto. destruct (pmul e P) as [|x y]; unfold q2h in BP; cbn [xp fst snd] in BP.
      - destruct one_nz. rewrite <- BP. ring.
      - exists x. assert (G : x * x + a * x + 1 = 0) by (rewrite <- BP; ring). split; [|exact G]. f_equal. apply (onc_y0 x y H). rewrite G. ring.
    Qed.
    Lemma A_N : pmul (2 ^ Z.of_nat (2 * (m + 1)))%Z Q = Inf.
    Proof.
      replace (2 ^ Z.of_nat (2 * (m + 1)))%Z with (2 * e)%Z by (unfold e; rewrite <- Z.pow_succ_r by lia; f_equal; lia).
      rewrite (pmul_mul F a 1) by (assumption || lia). rewrite <- pmul_2 by auto. rewrite A_Q2. apply padd_y0.
    Qed.
    Lemma A_ord : forall j, (0 <= j)%Z -> ord4 F a (S m) (xp (comb P Q j)).
    Proof.
      intros j Hj. set (C := comb P Q j). assert (HC : onc C) by (apply comb_onc; assumption).
      set (q := dbls (2 * m) (xp C)).
      assert (E1 : eqv (dbl q) (xp (pmul e C))) by (replace (dbl q) with (dbls (2 * m + 1) (xp C)); [apply xp_dbls, HC|rewrite Nat.add_1_r; reflexivity]).
      assert (G : q2h F a (dbl q) = 0).
      { apply (q2h_eqv F a _ _ (eqv_sym F _ _ E1)). unfold C. rewrite pmul_comb by assumption. rewrite A_Q2. destruct A_P2 as (x & EP & X). rewrite EP.
        assert (T0 : onc (Aff 0 0)) by (cbn [MontCurve.onc]; ring).
        destruct (mul_tor2 j (Aff 0 0) T0 (padd_y0 0)) as [-> | ->].
        - rewrite padd_inf_r. unfold q2h. cbn [xp fst snd]. transitivity (x * x + a * x + 1); [ring|exact X].
        - assert (NX : x <> 0) by (intros ->; apply one_nz; rewrite <- X; ring).
          cbn [MontCurve.padd]. destruct (k_dec x 0); [contradiction|]. unfold MontCurve.chord, q2h. cbn [xp fst snd].
          assert (L : 0 / (0 - x) = 0) by (rewrite (Field_theory.Fdiv_def (k_th F)); ring).
          replace (0 - 0) with (0 : F) by ring. rewrite L. transitivity (x * x + a * x + 1); [ring|exact X]. }
      destruct (q4_half F two_nz a q NS) as [G1 G2].
      - apply dbls_nz; [assumption|exact NS|apply xp_nz].
      - exact G.
      - exists (aff q). split; [apply aff_eqv, G1|exact G2].
    Qed.
  End BasisA.

  (* ---------- a basis of the 3^n-torsion ---------- *)
  Lemma mul_tor3 : forall j T, onc T -> pmul 3%Z T = Inf -> pmul j T = Inf \/ pmul j T = T \/ pmul j T = pneg T.
  Proof.
    intros j T HT H. rewrite <- pmul_3 in H by exact HT. apply padd_eq_inf in H.
    assert (D : padd T T = pneg T) by (apply neg_eq_iff; exact H).
    unfold MontLadder.pmul. induction (Z.to_nat j) as [|k [IH|[IH|IH]]]; [left; reflexivity| | |]; cbn [pmuln]; rewrite IH.
    - right; left. reflexivity.
    - right; right. exact D.
    - left. rewrite (padd_comm F a 1) by auto. apply padd_neg.
  Qed.
  Lemma inf_snd : forall P, snd (xp P) = 0 -> P = Inf.
  Proof. intros [|x y] H; [reflexivity|]. destruct (one_nz H). Qed.
  Section BasisB.
    Variables (P Q : pnt) (n : nat).
    Hypothesis HP : onc P. Hypothesis HQ : onc Q.
    Hypothesis BP : snd (tpls (S n) (xp P)) = 0.
    Hypothesis BQ : snd (tpls (S n) (xp Q)) = 0.
    Hypothesis BP1 : snd (tpls n (xp P)) <> 0.
    Hypothesis BX : fst (tpls n (xp P)) * snd (tpls n (xp Q)) <> fst (tpls n (xp Q)) * snd (tpls n (xp P)).
    Let e := (3 ^ Z.of_nat n)%Z.
    Let e_pos : (0 <= e)%Z. Proof. apply Z.pow_nonneg. lia. Qed.
    Lemma B_3 : forall T, onc T -> snd (tpls (S n) (xp T)) = 0 -> pmul 3%Z (pmul e T) = Inf.
    Proof.
      intros T HT H. apply inf_snd. rewrite <- (pmul_mul F a 1) by (assumption || lia).
      replace (3 * e)%Z with (3 ^ Z.of_nat (S n))%Z by (unfold e; rewrite Nat2Z.inj_succ, Z.pow_succ_r by lia; reflexivity).
      eapply eqv_snd0; [apply xp_tpls, HT|exact H].
    Qed.
    Lemma B_N : pmul (3 ^ Z.of_nat (S n))%Z Q = Inf.
    Proof.
      replace (3 ^ Z.of_nat (S n))%Z with (3 * e)%Z by (unfold e; rewrite Nat2Z.inj_succ, Z.pow_succ_r by lia; reflexivity).
      rewrite (pmul_mul F a 1) by (assumption || lia). apply B_3; assumption.
    Qed.
    Lemma B_x : xp (pmul e P) <> xp (pmul e Q).
    Proof.
      intros E. apply BX. destruct (xp_tpls n P HP) as (k & K & E1 & E2). destruct (xp_tpls n Q HQ) as (l & L & E3 & E4).
      fold e in E1, E2, E3, E4. rewrite E1, E2, E3, E4, E. ring.
    Qed.
    Lemma B_ord : forall j, (0 <= j)%Z -> ord3 F a (S n) (xp (comb P Q j)).
    Proof.
      intros j Hj. set (C := comb P Q j). assert (HC : onc C) by (apply comb_onc; assumption).
      pose proof (xp_tpls n C HC) as E. fold e in E.
      assert (T3 : pmul 3%Z (pmul e C) = Inf).
      { unfold C. rewrite pmul_comb, pmul_padd by auto. rewrite B_3 by assumption. rewrite (pmul_comm 3%Z j) by (auto; lia).
        rewrite (B_3 Q HQ BQ), pmul_inf. reflexivity. }
      assert (NI : pmul e C <> Inf).
      { unfold C. rewrite pmul_comb by assumption. intros Z. destruct (mul_tor3 j (pmul e Q) (onc_mul _ _ HQ) (B_3 Q HQ BQ)) as [J|[J|J]]; rewrite J in Z.
        - rewrite padd_inf_r in Z. apply BP1. eapply eqv_snd0; [apply eqv_sym, xp_tpls, HP|]. fold e. rewrite Z. reflexivity.
        - apply padd_eq_inf in Z. apply B_x. rewrite Z. symmetry. apply xp_neg.
        - apply padd_eq_inf in Z. apply B_x. rewrite <- (xp_neg (pmul e Q)), Z. symmetry. apply xp_neg. }
      assert (HT : onc (pmul e C)) by auto. destruct (pmul e C) as [|t y] eqn:ET; [contradiction|].
      exists t. split; [exact E|]. pose proof (xp_tpl (Aff t y) HT) as X. rewrite pmul_3, T3 in X by exact HT.
      assert (Z : snd (tpl (xp (Aff t y))) = 0) by (eapply eqv_snd0; [apply eqv_sym, X|reflexivity]).
      cbn [xp SIDH_Line.tpl snd] in Z. apply (k_sqr_0 F). rewrite <- Z. unfold psi3. ring.
    Qed.
  End BasisB.
End Points.
