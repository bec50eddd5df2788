(* Properties C45, C46, C47 and C64: the SIDH curve layer of dh/sidh/internal/{p434,p503,p751}, on the
   limb vectors the code computes with.  The specification side is the chord-and-tangent group of
   y^2 = x^3 + a x^2 + x over the field with p^2 elements (MontCurve.v). *)
From Coq Require Import ZArith List Lia Bool Znumtheory Field.
From Verif Require Import Lib MP NT Instr Prime63 PrimeCerts FieldAlg MontCurve MontAssoc MontLadder SIDH_Consts SIDH_Field SIDH_FieldProofs SIDH_Fp2Proofs SIDH_Inst
  SIDH_Curve SIDH_Line SIDH_CurveProofs SIDH_Points SIDH_Traverse SIDH_Impl SIDH_Agree SIDH_Basis63 SIDH_BasisCerts P_SIDH_Field SIDH_Bytes SIDH_Final SIDH_IsoPoints.
Import ListNotations.
Open Scope Z_scope.

Lemma sidh_set_field : forall P p, sidh_set P p -> sidh_field (pField P) p.
Proof. intros P p [[-> ->]|[[-> ->]|[-> ->]]]; unfold sidh_field; cbn [pField params434 params503 params751]; auto. Qed.
Definition set_ok (P : sidhParams) (p : Z) (S : sidh_set P p) : field_ok (pField P) p := sidh_field_ok _ _ (sidh_set_field P p S).

Section Ring.
  Variable K : fld.
  Add Field KR : (k_th K).
  Lemma ring_q2_inf : forall a : K, kadd (kadd (kmul k1 k1) (kmul a (kmul k1 k0))) (kmul k0 k0) = k1. Proof. intros. ring. Qed.
  Lemma ring_q2_0 : forall a : K, kadd (kadd (kmul k0 k0) (kmul a (kmul k0 k1))) (kmul k1 k1) = k1. Proof. intros. ring. Qed.
  Lemma onc_q2 : forall w y a : K, kmul k1 (kmul y y) = kadd (kadd (kmul (kmul w w) w) (kmul a (kmul w w))) w ->
    kadd (kadd (kmul w w) (kmul a (kmul w k1))) (kmul k1 k1) = k0 -> kmul y y = k0.
  Proof.
    intros w y a H1 H2. transitivity (kmul k1 (kmul y y)); [ring|]. rewrite H1.
    transitivity (kmul w (kadd (kadd (kmul w w) (kmul a (kmul w k1))) (kmul k1 k1))); [ring|]. rewrite H2. ring.
  Qed.
End Ring.
Section Limb.
  Variable P : sidhParams.
  Variable p : Z.
  Hypothesis S : sidh_set P p.
  Variable OK : field_ok (pField P) p.
  Notation K := (K2 (pField P) p OK).
  Notation R := (SIDH_Fp2Proofs.rep (pField P) p OK).
  Notation V := (limbOps P).
  Notation onc a := (onc K a k1). Notation padd a := (padd K a k1). Notation pmul a := (pmul K a k1). Notation pneg := (pneg K). Notation Inf := (Inf K).
  Notation t2 := (kadd k1 k1 : K). Notation t4 := (kmul (kadd k1 k1) (kadd k1 k1) : K).
  (* x holds the x-coordinate of Q; c holds the coefficient a; c holds (a+2 : 4), (a+2 : a-2) *)
  Definition isx (x : point V) (Q : pnt K) : Prop := exists X Z, R (fst x) X /\ R (snd x) Z /\ xrep K X Z Q.
  Definition isa (c : curve V) (a : K) : Prop := exists A C, R (fst c) A /\ R (snd c) C /\ C <> k0 /\ A = kmul a C.
  Definition is4 (c : curve V) (a : K) : Prop := exists k, k <> k0 /\ R (fst c) (kmul k (kadd a t2)) /\ R (snd c) (kmul k t4).
  Definition is3 (c : curve V) (a : K) : Prop := exists k, k <> k0 /\ R (fst c) (kmul k (kadd a t2)) /\ R (snd c) (kmul k (ksub a t2)).

  Lemma tnz : t2 <> k0.
  Proof.
    clear - S. destruct S as [[-> ->]|[[-> ->]|[-> ->]]]; revert OK; [rewrite <- cN434|rewrite <- cN503|rewrite <- cN751]; intros OK; apply (two_nz _ _ OK).
  Qed.
  Lemma sim_a0 : exists half a0, kmul t2 half = k1 /\ nonsing K a0 /\ simS K half a0 V R.
  Proof.
    clear - S. destruct S as [[-> ->]|[[-> ->]|[-> ->]]]; revert OK; [rewrite <- cN434|rewrite <- cN503|rewrite <- cN751]; intros OK;
      eexists; eexists; (split; [apply half_ok|split]).
    - exact (ns6 _ _ _ _ OK pb434).
    - exact (simL _ _ _ _ OK s34c434 pb434).
    - exact (ns6 _ _ _ _ OK pb503).
    - exact (simL _ _ _ _ OK s34c503 pb503).
    - exact (ns6 _ _ _ _ OK pb751).
    - exact (simL _ _ _ _ OK s34c751 pb751).
  Qed.
  Lemma rep_ex : forall a : K, exists A, R A a.
  Proof.
    intros [a b]. pose proof (fo_R _ _ OK) as B16. pose proof (p_pos _ _ OK) as PP.
    pose proof (fpv_range p (fo_prime _ _ OK) a) as Ra. pose proof (fpv_range p (fo_prime _ _ OK) b) as Rb.
    exists (ToMontgomery (pField P) (limbs (FpWords (pField P)) (fpv p a), limbs (FpWords (pField P)) (fpv p b))).
    pose proof (C41_to_montgomery _ _ (sidh_set_field _ _ S) (limbs (FpWords (pField P)) (fpv p a), limbs (FpWords (pField P)) (fpv p b))
      (limbs_words _ _) (limbs_length _ _) (limbs_words _ _) (limbs_length _ _)) as [H1 H2].
    cbn [fst snd] in H1, H2. rewrite limbs_val, Z.mod_small in H1, H2 by lia.
    split; (apply holds_mrep; [exact OK|]); assumption.
  Qed.
  (* the same code started from any other curve *)
  Definition Va (A : fp2) : sops := mkSops (so V) (s0 V) (sOne V) (sHalf V) A (sCC V) (scswap V).
  Lemma sim_a : forall a, exists half A, kmul t2 half = k1 /\ simS K half a (Va A) R.
  Proof.
    intros a. destruct sim_a0 as (half & a0 & H & _ & SS). destruct (rep_ex a) as (A & HA).
    exists half, A. split; [exact H|]. destruct SS. constructor; assumption.
  Qed.
  Lemma isx_RP : forall x Q, isx x Q <-> RP K V R x (xp K Q).
  Proof.
    intros x Q. split.
    - intros (X & Z & H1 & H2 & H3). exists (X, Z). split; [split; assumption|]. apply xrep_eqv. exact H3.
    - intros ([X Z] & [H1 H2] & H3). exists X, Z. split; [exact H1|]. split; [exact H2|]. apply xrep_eqv. exact H3.
  Qed.
  Lemma isa_RC : forall c a, isa c a <-> RC K V R c a.
  Proof.
    intros c a. split.
    - intros (X & Z & H1 & H2 & H3 & H4). exists (X, Z). split; [split; assumption|]. split; assumption.
    - intros ([X Z] & [H1 H2] & H3 & H4). exists X, Z. tauto.
  Qed.
  Lemma is4_RC : forall c a, is4 c a <-> RC4 K V R c a.
  Proof.
    intros c a. split.
    - intros (k & H1 & H2 & H3). eexists (_, _). split; [split; [exact H2|exact H3]|]. exists k. cbn [fst snd]. auto.
    - intros ([X Z] & [H1 H2] & k & H3 & H4 & H5). cbn [fst snd] in *. subst. exists k. auto.
  Qed.
  Lemma is3_RC : forall c a, is3 c a <-> RC3 K V R c a.
  Proof.
    intros c a. split.
    - intros (k & H1 & H2 & H3). eexists (_, _). split; [split; [exact H2|exact H3]|]. exists k. cbn [fst snd]. auto.
    - intros ([X Z] & [H1 H2] & k & H3 & H4 & H5). cbn [fst snd] in *. subst. exists k. auto.
  Qed.

  (* ---------- C46 ---------- *)
  Theorem C46_dbladd : forall a a24 x y z A B, nonsing K a -> R a24 (kdiv (kadd a t2) t4) -> onc a A -> onc a B ->
    isx x A -> isx y B -> isx z (padd a A (pneg B)) -> padd a A (pneg B) <> Inf -> (forall v, padd a A (pneg B) <> Aff K k0 v) ->
    isx (fst (xDbladd V x y z a24)) (padd a A A) /\ isx (snd (xDbladd V x y z a24)) (padd a A B).
  Proof.
    intros a a24 x y z A B NS H24 HA HB HX HY HZ N1 N2. apply isx_RP in HX, HY, HZ. destruct sim_a0 as (half & a0 & _ & _ & SS).
    destruct (lDbladd K tnz half a0 V R SS a a24 x y z _ _ _ H24 HX HY HZ) as [D1 D2].
    split; apply isx_RP; (eapply RP_eqv; [eassumption|]).
    - apply (xp_dbl K tnz a NS A HA).
    - apply (xp_add K tnz a A B HA HB).
      + destruct (padd a A (pneg B)) as [|u v]; cbn [xp fst]; [apply k_one_nz|]. intros ->. exact (N2 v eq_refl).
      + destruct (padd a A (pneg B)) as [|u v]; cbn [xp snd]; [contradiction|]. apply k_one_nz.
  Qed.
  Theorem C46_pow2k : forall a e x A k, nonsing K a -> is4 e a -> onc a A -> isx x A -> 0 <= k -> isx (Pow2k V x e k) (pmul a (2 ^ k) A).
  Proof.
    intros a e x A k NS HE HA HX HK. apply isx_RP. apply isx_RP in HX. apply is4_RC in HE. destruct sim_a0 as (half & a0 & _ & _ & SS).
    eapply RP_eqv; [apply (lPow2k K tnz half a0 V R SS x e _ a k HX HE)|].
    pose proof (xp_dbls K tnz a NS (Z.to_nat k) A HA) as E. rewrite Z2Nat.id in E by exact HK. exact E.
  Qed.
  Theorem C46_pow3k : forall a e x A k, nonsing K a -> is3 e a -> onc a A -> isx x A -> 0 <= k -> isx (Pow3k V x e k) (pmul a (3 ^ k) A).
  Proof.
    intros a e x A k NS HE HA HX HK. apply isx_RP. apply isx_RP in HX. apply is3_RC in HE. destruct sim_a0 as (half & a0 & _ & _ & SS).
    eapply RP_eqv; [apply (lPow3k K tnz half a0 V R SS x e _ a k HX HE)|].
    pose proof (xp_tpls K tnz a NS (Z.to_nat k) A HA) as E. rewrite Z2Nat.id in E by exact HK. exact E.
  Qed.
  Theorem C46_coeffs : forall c a, isa c a -> is4 (CalcCurveParamsEquiv4 V c) a /\ is3 (CalcCurveParamsEquiv3 V c) a /\
    R (CalcAplus2Over4 V c) (kdiv (kadd a t2) t4).
  Proof.
    intros c a H. apply isa_RC in H. destruct sim_a0 as (half & a0 & _ & _ & SS).
    split; [apply is4_RC|split; [apply is3_RC|]].
    - apply (lEquiv4 K half a0 V R SS c a H).
    - apply (lEquiv3 K half a0 V R SS c a H).
    - apply (lA24 K tnz half a0 V R SS c a H).
  Qed.
  Theorem C46_coeffs_back : forall c a, (is4 c a -> isa (RecoverCurveCoefficients4 V c) a) /\ (is3 c a -> isa (RecoverCurveCoefficients3 V c) a).
  Proof.
    intros c a. destruct sim_a0 as (half & a0 & HH & _ & SS). split; intros H; apply isa_RC.
    - apply (lRec4 K half a0 HH V R SS). apply is4_RC. exact H.
    - apply (lRec3 K tnz half a0 V R SS). apply is3_RC. exact H.
  Qed.
  (* the x-coordinates of A, B, A - B determine the curve *)
  Theorem C46_recoverA : forall a xA xB xD uA vA uB vB uD vD, nonsing K a -> R xA uA -> R xB uB -> R xD uD -> uA <> k0 -> uB <> k0 -> uD <> k0 ->
    onc a (Aff K uA vA) -> onc a (Aff K uB vB) -> padd a (Aff K uA vA) (pneg (Aff K uB vB)) = Aff K uD vD ->
    isa (RecoverCoordinateA V (InitCurve V) xA xB xD) a.
  Proof.
    intros a xA xB xD uA vA uB vB uD vD NS RA RB RD NA NB ND OA OB E. apply isa_RC. destruct sim_a0 as (half & a0 & _ & _ & SS).
    apply (lRecA K tnz half a0 V R SS a xA xB xD uA uB uD RA RB RD NA NB ND).
    pose proof (rel_points K tnz a NS (Aff K uA vA) (pneg (Aff K uB vB)) OA (pneg_onc K a k1 _ OB)) as H. rewrite E in H. exact H.
  Qed.
  (* 256 (a^2 - 3)^3 / (a^2 - 4) *)
  Theorem C46_jinvariant : forall c a, isa c a -> nonsing K a -> R (Jinvariant V c) (jinv K a).
  Proof. intros c a H NS. apply isa_RC in H. destruct sim_a0 as (half & a0 & _ & _ & SS). apply (lJ K half a0 V R SS c a H NS). Qed.
  Theorem C46_batch3inv : forall x y z u v w, R x u -> R y v -> R z w -> u <> k0 -> v <> k0 -> w <> k0 ->
    let '(x', y', z') := Fp2Batch3Inv V x y z in R x' (kinv u) /\ R y' (kinv v) /\ R z' (kinv w).
  Proof.
    intros x y z u v w HX HY HZ NU NV NW. destruct sim_a0 as (half & a0 & _ & _ & SS).
    pose proof (Batch3Inv_ok K half a0 u v w NU NV NW) as E. unfold Fp2Batch3Inv in *. cbv zeta in E |- *.
    assert (C : forall i, R (call V Batch3Inv_code [x; y; z] i) (call (absS K half a0) Batch3Inv_code [u; v; w] i)).
    { apply (call_sim K half a0 V R SS); [repeat constructor|repeat (constructor; [assumption|]); constructor]. }
    pose proof (f_equal (fun q => fst (fst q)) E) as E1. pose proof (f_equal (fun q => snd (fst q)) E) as E2. pose proof (f_equal snd E) as E3.
    cbv beta in E1, E2. cbn [fst snd] in E1, E2, E3. rewrite <- E1, <- E2, <- E3. exact (conj (C 3%nat) (conj (C 4%nat) (C 5%nat))).
  Qed.

  (* ---------- isogenies ---------- *)
  Lemma i_ex : exists im : K, kmul im im = kopp k1.
  Proof. apply fp2_i. Qed.
  (* T of order 3: the coefficients of E / <T>, and the image of Q under the isogeny with kernel {O, T, -T} *)
  Theorem C46_isogeny3 : forall a x T Q y, nonsing K a -> onc a T -> T <> Inf -> pmul a 3 T = Inf -> onc a Q -> isx x T -> isx y Q ->
    exists a' phi, nonsing K a' /\ is3 (fst (GenerateCurve3 V x)) a' /\ isx (EvaluatePoint3 V (snd (GenerateCurve3 V x)) y) (phi Q) /\
      phi = phi3 K (xof K T) /\ a' = cod3 K a (xof K T) /\
      (forall A, onc a A -> onc a' (phi A)) /\ (forall A, onc a A -> (phi A = Inf <-> A = Inf \/ A = T \/ A = pneg T)) /\
      xhom K a a' (iso3 K (xof K T)).
  Proof.
    intros a x [|t yt] Q y NS HT NT T3 HQ HX HY; [contradiction|]. cbn [xof] in *. exists (cod3 K a t), (phi3 K t).
    pose proof (psi3_of K tnz a t yt NS HT T3) as PS. pose proof (xhom3 K tnz a t NS PS) as XH. destruct sim_a0 as (half & a0 & _ & _ & SS).
    apply isx_RP in HX, HY. cbn [xp] in HX.
    split; [exact (xh_cod _ _ _ _ XH)|]. split; [apply is3_RC, (lGen3 K tnz half a0 V R SS x a t HX NS PS)|].
    split; [apply isx_RP; eapply RP_eqv; [apply (lEval3 K tnz half a0 V R SS x t y _ HX HY)|apply (phi3_x K tnz a t Q PS NS)]|].
    split; [reflexivity|]. split; [reflexivity|]. split; [intros A HA; apply (phi3_onc K tnz a t A PS HA)|].
    split; [intros A HA; apply (phi3_ker K a t yt A HT HA)|exact XH].
  Qed.
  (* S of order 4 with 2 S <> (0, 0) *)
  Theorem C46_isogeny4 : forall a x T Q y, nonsing K a -> onc a T -> pmul a 4 T = Inf -> pmul a 2 T <> Inf -> pmul a 2 T <> Aff K k0 k0 -> onc a Q -> isx x T -> isx y Q ->
    exists im a' phi, kmul im im = kopp k1 /\ nonsing K a' /\ is4 (fst (GenerateCurve4 V x)) a' /\ isx (EvaluatePoint4 V (snd (GenerateCurve4 V x)) y) (phi Q) /\
      phi = phi4 K im (xof K T) (yof K T) /\ a' = cod4 K (xof K T) /\
      (forall A, onc a A -> onc a' (phi A)) /\ (forall A, onc a A -> (phi A = Inf <-> A = Inf \/ A = T \/ A = pneg T \/ A = padd a T T)) /\
      xhom K a a' (iso4 K (xof K T)).
  Proof.
    intros a x [|t yt] Q y NS HT T4 T2 T0 HQ HX HY; [destruct T2; reflexivity|]. cbn [xof yof] in *. destruct i_ex as (im & IM). exists im, (cod4 K t), (phi4 K im t yt).
    pose proof (q4_of K tnz a t yt NS HT T4 T2 T0) as PS. pose proof (xhom4 K tnz a t NS PS) as XH. destruct sim_a0 as (half & a0 & _ & _ & SS).
    apply isx_RP in HX, HY. cbn [xp] in HX. pose proof (q4_s K tnz a t NS PS) as (TN & _).
    split; [exact IM|]. split; [exact (xh_cod _ _ _ _ XH)|]. split; [apply is4_RC, (lGen4 K half a0 V R SS x t HX)|].
    split; [apply isx_RP; eapply RP_eqv; [apply (lEval4 K tnz half a0 V R SS x t y _ HX TN HY)|apply (phi4_x K tnz im a t yt Q NS PS HQ)]|].
    split; [reflexivity|]. split; [reflexivity|]. split; [intros A HA; apply (phi4_onc K tnz im IM a t yt A NS PS HT HA)|].
    split; [intros A HA; apply (phi4_ker K tnz im a t yt A NS PS HT HA)|exact XH].
  Qed.

  (* ---------- C45: the traversal is the naive chain ---------- *)
  Definition lenA : nat := Datatypes.S (length (IsogenyStrategy (pA P))).
  Definition lenB : nat := Datatypes.S (length (IsogenyStrategy (pB P))).
  Lemma stratA : strat_ok (IsogenyStrategy (pA P)) = true.
  Proof. clear - S. destruct S as [[-> ->]|[[-> ->]|[-> ->]]]; vm_compute; reflexivity. Qed.
  Lemma stratB : strat_ok (IsogenyStrategy (pB P)) = true.
  Proof. clear - S. destruct S as [[-> ->]|[[-> ->]|[-> ->]]]; vm_compute; reflexivity. Qed.
  Lemma isx_all : forall ps Qs, Forall2 isx ps Qs -> Forall2 (RP K V R) ps (map (xp K) Qs).
  Proof. induction 1; constructor; [apply isx_RP; assumption|assumption]. Qed.
  Theorem C45_traversalB : forall a c T xT ps Qs, nonsing K a -> isa c a -> onc a T -> isx xT T ->
    pmul a (3 ^ (Z.of_nat lenB - 1)) T <> Inf -> pmul a (3 ^ Z.of_nat lenB) T = Inf ->
    Forall (onc a) Qs -> Forall2 isx ps Qs ->
    exists xR ps', traverse V (Pow3k V) (GenerateCurve3 V) (EvaluatePoint3 V) (IsogenyStrategy (pB P)) (CalcCurveParamsEquiv3 V c) xT ps = Ret (xR, ps') /\
      is3 (fst (GenerateCurve3 V xR)) (fst (naive3 K lenB a T)) /\
      Forall2 (fun x Q => isx (EvaluatePoint3 V (snd (GenerateCurve3 V xR)) x) (snd (naive3 K lenB a T) Q)) ps' Qs.
  Proof.
    intros a c T xT ps Qs NS HC HT HX N1 N2 HQ HP. apply isa_RC in HC. apply isx_RP in HX. apply isx_all in HP. destruct sim_a0 as (half & a0 & _ & _ & SS).
    replace (Z.of_nat lenB - 1) with (Z.of_nat (length (IsogenyStrategy (pB P)))) in N1 by (unfold lenB; lia).
    pose proof (ord3_order K tnz a _ T NS HT N1 N2) as O.
    destruct (trav3 K tnz half a0 V R SS _ stratB c a _ xT ps _ NS HC HX O HP) as (xR & ps' & E & G & H). exists xR, ps'. split; [exact E|].
    destruct (naive3_walk K tnz _ a T NS HT O) as [W1 W2]. fold lenB in *.
    split; [apply is3_RC; rewrite W1; exact G|]. clear - H W2 HQ. revert HQ. remember (map (xp K) Qs) as l eqn:EL. revert Qs EL.
    induction H as [|x q l1 l2 HA HB IH]; intros [|Q Qs] EL HQ; try discriminate; constructor.
    - injection EL as -> EL. inversion HQ as [|? ? HQ1 HQ2]; subst. apply isx_RP. eapply RP_eqv; [exact HA|]. apply W2, HQ1.
    - injection EL as _ EL. inversion HQ; subst. apply (IH Qs eq_refl). assumption.
  Qed.
  Theorem C45_traversalA : exists im : K, kmul im im = kopp k1 /\ forall a c T xT ps Qs, nonsing K a -> isa c a -> onc a T -> isx xT T ->
    pmul a (2 * 4 ^ (Z.of_nat lenA - 1)) T <> Inf -> pmul a (2 * 4 ^ (Z.of_nat lenA - 1)) T <> Aff K k0 k0 -> pmul a (4 ^ Z.of_nat lenA) T = Inf ->
    Forall (onc a) Qs -> Forall2 isx ps Qs ->
    exists xR ps', traverse V (pow4 V) (GenerateCurve4 V) (EvaluatePoint4 V) (IsogenyStrategy (pA P)) (CalcCurveParamsEquiv4 V c) xT ps = Ret (xR, ps') /\
      is4 (fst (GenerateCurve4 V xR)) (fst (naive4 K im lenA a T)) /\
      Forall2 (fun x Q => isx (EvaluatePoint4 V (snd (GenerateCurve4 V xR)) x) (snd (naive4 K im lenA a T) Q)) ps' Qs.
  Proof.
    destruct i_ex as (im & IM). exists im. split; [exact IM|].
    intros a c T xT ps Qs NS HC HT HX N1 N0 N2 HQ HP. apply isa_RC in HC. apply isx_RP in HX. apply isx_all in HP. destruct sim_a0 as (half & a0 & _ & _ & SS).
    replace (Z.of_nat lenA - 1) with (Z.of_nat (length (IsogenyStrategy (pA P)))) in N1, N0 by (unfold lenA; lia).
    pose proof (ord4_order K tnz a _ T NS HT N1 N0 N2) as O.
    destruct (trav4 K tnz half a0 V R SS _ stratA c a _ xT ps _ NS HC HX O HP) as (xR & ps' & E & G & H). exists xR, ps'. split; [exact E|].
    destruct (naive4_walk K tnz im IM _ a T NS HT O) as [W1 W2]. fold lenA in *.
    split; [apply is4_RC; rewrite W1; exact G|]. clear - H W2 HQ. revert HQ. remember (map (xp K) Qs) as l eqn:EL. revert Qs EL.
    induction H as [|x q l1 l2 HA HB IH]; intros [|Q Qs] EL HQ; try discriminate; constructor.
    - injection EL as -> EL. inversion HQ as [|? ? HQ1 HQ2]; subst. apply isx_RP. eapply RP_eqv; [exact HA|]. apply W2, HQ1.
    - injection EL as _ EL. inversion HQ; subst. apply (IH Qs eq_refl). assumption.
  Qed.

  (* ---------- C47 ---------- *)
  Theorem C47_ladder : forall a c xA xB xD A B N scalar nbits, nonsing K a -> isa c a -> onc a A -> onc a B -> 1 <= N -> pmul a N B = Inf ->
    (forall j, 0 <= j -> padd a A (pmul a j B) <> Inf /\ forall v, padd a A (pmul a j B) <> Aff K k0 v) ->
    isx xA A -> isx xB B -> isx xD (padd a A (pneg B)) -> bytes scalar -> 0 <= nbits <= 8 * Z.of_nat (length scalar) ->
    exists x, ScalarMul3Pt V c xA xB xD nbits scalar = Ret x /\ isx x (padd a A (pmul a (le_dec scalar mod 2 ^ nbits) B)).
  Proof.
    intros a c xA xB xD A B N scalar nbits NS HC HA HB N1 NB GOOD HXA HXB HXD BS BL. apply isa_RC in HC. apply isx_RP in HXA, HXB, HXD.
    destruct (sim_a a) as (half & ca & _ & SS).
    destruct (ladder3_ok K tnz half a NS (Va ca) R SS a (fun p => p) (xhom_id K a NS) A B N HA HB N1 NB) with (scalar := scalar) (c := c) (xP := xA) (xQ := xB) (xR := xD) (nbits := nbits) as (x & E & H); try assumption.
    - intros j Hj. destruct (GOOD j Hj) as [G1 G2]. unfold comb. destruct (padd a A (pmul a j B)) as [|u w]; [contradiction|]. cbn [xp fst snd].
      split; [intros ->; exact (G2 w eq_refl)|apply k_one_nz].
    - exists x. split; [exact E|]. apply isx_RP. unfold secret, comb in H. rewrite bval_dec in H. exact H.
  Qed.

  (* ---------- the hypotheses are met by the torsion bases of the parameter set ---------- *)
  Lemma basis_ex : exists a0 PA QA PB QB, nonsing K a0 /\ isa (InitCurve V) a0 /\ basis K a0 V (limbDom (pA P)) (limbDom (pB P)) PA QA PB QB.
  Proof.
    assert (G : exists half a0 PA QA PB QB, nonsing K a0 /\ simS K half a0 V R /\ basis K a0 V (limbDom (pA P)) (limbDom (pB P)) PA QA PB QB).
    { clear - S. destruct S as [[-> ->]|[[-> ->]|[-> ->]]]; revert OK; [rewrite <- cN434|rewrite <- cN503|rewrite <- cN751]; intros OK; do 6 eexists; (split; [|split]).
      - exact (ns6 _ _ _ _ OK pb434).
      - exact (simL _ _ _ _ OK s34c434 pb434).
      - exact (bas params434 p434_ctx dA434 dB434 OK ctx434 lA434 lB434 pb434).
      - exact (ns6 _ _ _ _ OK pb503).
      - exact (simL _ _ _ _ OK s34c503 pb503).
      - exact (bas params503 p503b_ctx dA503 dB503 OK ctx503 lA503 lB503 pb503).
      - exact (ns6 _ _ _ _ OK pb751).
      - exact (simL _ _ _ _ OK s34c751 pb751).
      - exact (bas params751 p751_ctx dA751 dB751 OK ctx751 lA751 lB751 pb751). }
    destruct G as (half & a0 & PA & QA & PB & QB & NS & SS & BA). exists a0, PA, QA, PB, QB. split; [exact NS|]. split; [|exact BA].
    apply isa_RC. exact (RC0 K half a0 V R SS).
  Qed.
  (* PA, QA meet what C45_traversalA asks of T and C47_ladder of A, B; PB, QB the same for the other side *)
  Theorem C45_hypotheses_met : exists a PA QA PB QB, nonsing K a /\ isa (InitCurve V) a /\ onc a PA /\ onc a QA /\ onc a PB /\ onc a QB /\
    (pmul a (2 * 4 ^ (Z.of_nat lenA - 1)) PA <> Inf /\ pmul a (2 * 4 ^ (Z.of_nat lenA - 1)) PA <> Aff K k0 k0 /\ pmul a (4 ^ Z.of_nat lenA) PA = Inf) /\
    (pmul a (3 ^ (Z.of_nat lenB - 1)) PB <> Inf /\ pmul a (3 ^ Z.of_nat lenB) PB = Inf) /\
    (pmul a (4 ^ Z.of_nat lenA) QA = Inf /\ forall j, 0 <= j -> padd a PA (pmul a j QA) <> Inf /\ forall v, padd a PA (pmul a j QA) <> Aff K k0 v) /\
    (pmul a (3 ^ Z.of_nat lenB) QB = Inf /\ forall j, 0 <= j -> padd a PB (pmul a j QB) <> Inf /\ forall v, padd a PB (pmul a j QB) <> Aff K k0 v).
  Proof.
    destruct basis_ex as (a & PA & QA & PB & QB & NS & HA & BA). exists a, PA, QA, PB, QB. split; [exact NS|]. split; [exact HA|].
    split; [apply BA|]. split; [apply BA|]. split; [apply BA|]. split; [apply BA|].
    assert (T := tnz). set (m := length (IsogenyStrategy (pA P))). set (n := length (IsogenyStrategy (pB P))).
    replace (Z.of_nat lenA - 1) with (Z.of_nat m) by (unfold lenA, m; lia). replace (Z.of_nat lenB - 1) with (Z.of_nat n) by (unfold lenB, n; lia).
    assert (M2 : 2 * 4 ^ Z.of_nat m = 2 ^ Z.of_nat (2 * m + 1)) by (rewrite pow4_2, <- (Z.pow_1_r 2) at 1; rewrite <- Z.pow_add_r by lia; f_equal; lia).
    assert (M4 : 4 ^ Z.of_nat lenA = 2 ^ Z.of_nat (2 * (m + 1))) by (rewrite pow4_2; unfold lenA; f_equal; lia).
    split.
    { rewrite M2, M4. pose proof (xp_dbls K T a NS (2 * m + 1) PA (bPA _ _ _ _ _ _ _ _ _ BA)) as E. pose proof (bA_P _ _ _ _ _ _ _ _ _ BA) as H. cbn [limbDom dStrat] in H. fold m in H.
      apply (q2h_eqv K a _ _ E) in H.
      replace (Z.of_nat (2 * (m + 1))) with (Z.of_nat (Datatypes.S (2 * m + 1))) by lia. rewrite Nat2Z.inj_succ, Z.pow_succ_r by lia.
      rewrite (pmul_mul K a k1 T (k_one_nz K) NS) by (apply BA || lia || (apply Z.pow_nonneg; lia)). rewrite MontLadder.pmul_2.
      pose proof (pmul_onc K a k1 T (k_one_nz K) (2 ^ Z.of_nat (2 * m + 1)) PA (bPA _ _ _ _ _ _ _ _ _ BA)) as OW.
      destruct (pmul a (2 ^ Z.of_nat (2 * m + 1)) PA) as [|w y].
      - unfold q2h in H. cbn [xp fst snd] in H. exfalso. apply (k_one_nz K). rewrite <- (ring_q2_inf K a). exact H.
      - unfold q2h in H. cbn [xp fst snd] in H. split; [discriminate|]. split; [intros EQ; injection EQ as -> _; apply (k_one_nz K); rewrite <- (ring_q2_0 K a); exact H|].
        cbn [MontCurve.onc] in OW. assert (Y : y = k0).
        { apply (k_sqr_0 K). exact (onc_q2 K w y a OW H). }
        subst y. apply padd_y0. }
    split.
    { pose proof (xp_tpls K T a NS n PB (bPB _ _ _ _ _ _ _ _ _ BA)) as E. pose proof (xp_tpls K T a NS (Datatypes.S n) PB (bPB _ _ _ _ _ _ _ _ _ BA)) as E1.
      pose proof (bB_P1 _ _ _ _ _ _ _ _ _ BA) as H. pose proof (bB_P _ _ _ _ _ _ _ _ _ BA) as H1. cbn [limbDom dStrat] in H, H1. fold n in H, H1. split.
      - intros EQ. apply H. rewrite EQ in E. apply (eqv_snd0 K _ _ (eqv_sym K _ _ E)). reflexivity.
      - apply (inf_snd K). exact (eqv_snd0 K _ _ E1 H1). }
    split.
    - rewrite M4. split; [exact (NA_Q K T a NS V _ _ _ _ _ _ BA)|]. intros j Hj. pose proof (ordA K T a NS V _ _ _ _ _ _ BA j Hj) as O.
      destruct (ord4_parts K T a _ _ NS O) as [O1 O2]. unfold comb in O1, O2. destruct (padd a PA (pmul a j QA)) as [|u v]; [destruct O2; reflexivity|].
      split; [discriminate|]. intros v' EQ. injection EQ as -> _. apply O1. reflexivity.
    - split; [exact (NB_Q K T a NS V _ _ _ _ _ _ BA)|]. intros j Hj. pose proof (ordB K T a NS V _ _ _ _ _ _ BA j Hj) as O.
      destruct (ord3_parts K T a _ _ O) as [O1 O2]. unfold comb in O1, O2. destruct (padd a PB (pmul a j QB)) as [|u v]; [destruct O2; reflexivity|].
      split; [discriminate|]. intros v' EQ. injection EQ as -> _. apply O1. reflexivity.
  Qed.
End Limb.

(* ---------- C64: the two parties agree ---------- *)
Theorem C64_agreement : forall P p, sidh_set P p -> sidh_agrees P p.
Proof. exact sidh_set_agrees. Qed.
Print Assumptions C64_agreement.
Example ex_C64_secrets : sidh_set params434 p434 /\ long (pA params434) (repeat 77 28) /\ long (pB params434) (repeat 201 28).
Proof.
  split; [left; auto|]. split; (split; [|cbn; lia]); unfold bytes; cbn [repeat]; repeat (constructor; [lia|]); constructor.
Qed.
Print Assumptions C46_dbladd.
Print Assumptions C46_pow2k.
Print Assumptions C46_pow3k.
Print Assumptions C46_coeffs.
Print Assumptions C46_coeffs_back.
Print Assumptions C46_recoverA.
Print Assumptions C46_jinvariant.
Print Assumptions C46_batch3inv.
Print Assumptions C46_isogeny3.
Print Assumptions C46_isogeny4.
Print Assumptions C45_traversalB.
Print Assumptions C45_traversalA.
Print Assumptions C47_ladder.
Print Assumptions C45_hypotheses_met.
