(* Associativity of the chord-and-tangent law on Montgomery curves. *)
From Coq Require Import ZArith List Lia Bool Field NsatzTactic.
From Verif Require Import FieldAlg FieldTac MontCurve.

Section Assoc.
  Variable F : fld.
  Add Field Ff : (k_th F).
  Local Infix "+" := kadd. Local Infix "*" := kmul. Local Infix "-" := ksub. Local Infix "/" := kdiv.
  Local Notation "- x" := (kopp x). Local Notation "0" := k0. Local Notation "1" := k1.
  Local Notation "2" := (1 + 1). Local Notation "3" := (1 + 1 + 1). Local Notation "4" := ((1 + 1) * (1 + 1)).

  Variables (a b : F).
  Hypothesis two_nz : 2 <> 0 :> F.
  Hypothesis b_nz : b <> 0.
  Hypothesis a_ok : a * a <> 4.
  Notation pnt := (pnt F). Notation Aff := (Aff F). Notation Inf := (Inf F).
  Notation onc := (onc F a b). Notation padd := (padd F a b). Notation pneg := (pneg F). Notation chord := (chord F a b).

  (* l is the slope of the line through (or tangent at) two points of the curve *)
  Definition slope (x1 y1 x2 y2 l : F) : Prop :=
    l * (x2 - x1) = y2 - y1 /\ b * l * (y1 + y2) = x1 * x1 + x1 * x2 + x2 * x2 + a * (x1 + x2) + 1.

  Lemma padd_slope : forall x1 y1 x2 y2, onc (Aff x1 y1) -> onc (Aff x2 y2) ->
    padd (Aff x1 y1) (Aff x2 y2) = Inf /\ x1 = x2 /\ y1 = - y2 \/
    exists l, slope x1 y1 x2 y2 l /\ padd (Aff x1 y1) (Aff x2 y2) = chord x1 y1 x2 l /\ (x1 <> x2 \/ y1 + y2 <> 0).
  Proof.
    intros x1 y1 x2 y2 H1 H2. cbn [MontCurve.padd]. destruct (k_dec x1 x2) as [e|e].
    - subst x2. destruct (k_dec y1 (- y2)) as [f|f]; [left; repeat split; exact f|right].
      destruct (same_x F a b b_nz x1 y1 y2 H1 H2) as [E|E]; [subst y2|contradiction].
      assert (Hy : y1 <> 0) by (intros ->; apply f; ring).
      eexists. split; [|split; [reflexivity|]].
      + split; [ring|]. field. repeat split; assumption.
      + right. replace (y1 + y1) with (2 * y1) by ring. apply k_mul_nz; assumption.
    - right. eexists. split; [|split; [reflexivity|left; exact e]].
      assert (N : x2 - x1 <> 0) by (apply k_sub_nz; congruence). cbn [MontCurve.onc] in *. split; [field; exact N|].
      set (l := (y2 - y1) / (x2 - x1)). assert (D : l * (x2 - x1) = y2 - y1) by (unfold l; field; exact N). clearbody l.
      apply (k_cancel F (x2 - x1)); [exact N|]. clear a_ok two_nz b_nz N. nsatz.
  Qed.
  Lemma slope_padd : forall x1 y1 x2 y2 l, onc (Aff x1 y1) -> onc (Aff x2 y2) -> slope x1 y1 x2 y2 l ->
    x1 <> x2 \/ y1 <> - y2 -> padd (Aff x1 y1) (Aff x2 y2) = chord x1 y1 x2 l.
  Proof.
    intros x1 y1 x2 y2 l H1 H2 [S1 S2] N. destruct (padd_slope x1 y1 x2 y2 H1 H2) as [(_ & E1 & E2)|(l' & [T1 T2] & E & D)].
    - destruct N; contradiction.
    - rewrite E. assert (L : l' = l); [|rewrite L; reflexivity]. apply k_sub_eq. destruct D as [D|D].
      + destruct (k_integral F (l' - l) (x2 - x1)) as [h|h]; [|exact h|].
        * replace ((l' - l) * (x2 - x1)) with (l' * (x2 - x1) - l * (x2 - x1)) by ring. rewrite S1, T1. ring.
        * apply k_sub_eq in h. congruence.
      + destruct (k_integral F (l' - l) (b * (y1 + y2))) as [h|h]; [|exact h|].
        * replace ((l' - l) * (b * (y1 + y2))) with (b * l' * (y1 + y2) - b * l * (y1 + y2)) by ring. rewrite S2, T2. ring.
        * exfalso. revert h. apply k_mul_nz; assumption.
  Qed.

  Lemma padd_inf_r : forall P, padd P Inf = P. Proof. intros [|x y]; reflexivity. Qed.
  Lemma padd_neg : forall P, padd P (pneg P) = Inf.
  Proof.
    intros [|x y]; [reflexivity|]. cbn [MontCurve.padd MontCurve.pneg]. destruct (k_dec x x); [|contradiction].
    destruct (k_dec y (- - y)) as [h|h]; [reflexivity|]. exfalso. apply h. ring.
  Qed.
  Lemma padd_eq_inf : forall P Q, padd P Q = Inf -> Q = pneg P.
  Proof.
    intros [|x1 y1] [|x2 y2] H; cbn [MontCurve.padd] in H; try discriminate; [reflexivity|].
    destruct (k_dec x1 x2) as [e|e]; [|discriminate]. destruct (k_dec y1 (- y2)) as [f|f]; [|discriminate].
    cbn [MontCurve.pneg]. subst. f_equal. ring.
  Qed.
  Lemma pneg_padd : forall P Q, onc P -> onc Q -> pneg (padd P Q) = padd (pneg P) (pneg Q).
  Proof.
    intros [|x1 y1] [|x2 y2] H1 H2; try reflexivity.
    destruct (padd_slope x1 y1 x2 y2 H1 H2) as [(E & -> & ->)|(l & [S1 S2] & E & D)].
    - rewrite E. cbn [MontCurve.pneg MontCurve.padd]. destruct (k_dec x2 x2); [|contradiction].
      destruct (k_dec (- - y2) (- - y2)); [reflexivity|contradiction].
    - rewrite E. symmetry. cbn [MontCurve.pneg].
      rewrite (slope_padd x1 (- y1) x2 (- y2) (- l)).
      + unfold chord. cbn [MontCurve.pneg]. f_equal; ring.
      + apply (pneg_onc F a b (Aff x1 y1)); exact H1.
      + apply (pneg_onc F a b (Aff x2 y2)); exact H2.
      + split.
        * transitivity (- (l * (x2 - x1))); [ring|]. rewrite S1. ring.
        * transitivity (b * l * (y1 + y2)); [ring|]. exact S2.
      + destruct D as [D|D]; [left; exact D|right]. intros G. apply D. transitivity (- (- y1 + - y2)); [ring|]. rewrite G. ring.
  Qed.

  Lemma nonsing : forall x, x * x * x + a * (x * x) + x = 0 -> 3 * (x * x) + 2 * a * x + 1 <> 0.
  Proof.
    intros x H D. assert (T : x * (x * x + a * x + 1) = 0) by (rewrite <- H; ring).
    destruct (k_integral F _ _ T) as [->|T2].
    - apply (k_one_nz F). transitivity (3 * (0 * 0) + 2 * a * 0 + 1); [ring|exact D].
    - apply (tor2 F a a_ok x T2). transitivity ((3 * (x * x) + 2 * a * x + 1) - 2 * (x * x + a * x + 1)); [ring|].
      rewrite T2, D. ring.
  Qed.

  (* adding and then subtracting Q *)
  Lemma cancel : forall P Q, onc P -> onc Q -> padd (padd P Q) (pneg Q) = P.
  Proof.
    intros [|x1 y1] [|x2 y2] H1 H2.
    - reflexivity.
    - apply padd_neg.
    - reflexivity.
    - pose proof (padd_onc F a b two_nz b_nz (Aff x1 y1) (Aff x2 y2) H1 H2) as H3.
      destruct (padd_slope x1 y1 x2 y2 H1 H2) as [(E & -> & ->)|(l & [S1 S2] & E & D)].
      + rewrite E. reflexivity.
      + rewrite E in *. unfold chord in *. set (x3 := b * (l * l) - a - x1 - x2) in *. set (y3 := l * (x1 - x3) - y1) in *.
        assert (E3 : x3 = b * (l * l) - a - x1 - x2) by reflexivity. assert (F3 : y3 = l * (x1 - x3) - y1) by reflexivity.
        clearbody x3 y3. cbn [MontCurve.pneg].
        assert (SL : slope x3 y3 x2 (- y2) (- l)).
        { split; [clear - S1 F3; nsatz|]. clear - S1 S2 E3 F3. nsatz. }
        destruct (k_dec x3 x2) as [e|e]; [destruct (k_dec y3 y2) as [f|f]|].
        * exfalso. subst x3 y3. destruct SL as [SL1 SL2].
          assert (Y : y2 = 0).
          { apply (y_neg F two_nz). rewrite <- f. apply k_sub_eq. rewrite f at 1.
            transitivity (- (- y2 - y2)). { rewrite <- f. ring. } rewrite f in SL1. rewrite <- SL1. rewrite e. ring. }
          rewrite f in SL2. rewrite e in SL2. rewrite Y in *.
          apply (nonsing x2).
          -- cbn [MontCurve.onc] in H2. rewrite <- H2. ring.
          -- transitivity (x2 * x2 + x2 * x2 + x2 * x2 + a * (x2 + x2) + 1); [ring|]. rewrite <- SL2. ring.
        * rewrite (slope_padd x3 y3 x2 (- y2) (- l)); [|exact H3|apply (pneg_onc F a b (Aff x2 y2)); exact H2|exact SL|].
          -- unfold chord. f_equal; [rewrite E3; ring|]. rewrite F3, E3. ring.
          -- right. intros G. apply f. rewrite G. ring.
        * rewrite (slope_padd x3 y3 x2 (- y2) (- l)); [|exact H3|apply (pneg_onc F a b (Aff x2 y2)); exact H2|exact SL|].
          -- unfold chord. f_equal; [rewrite E3; ring|]. rewrite F3, E3. ring.
          -- left. exact e.
  Qed.

  (* ---------- the generic case ---------- *)
  Lemma assoc_main : forall x1 y1 x2 y2 x3 y3 l m x12 y12 x23 y23,
    slope x1 y1 x2 y2 l -> slope x2 y2 x3 y3 m -> x3 <> x1 ->
    chord x1 y1 x2 l = Aff x12 y12 -> chord x2 y2 x3 m = Aff x23 y23 -> x12 <> x3 -> x23 <> x1 ->
    chord x12 y12 x3 ((y3 - y12) / (x3 - x12)) = chord x1 y1 x23 ((y23 - y1) / (x23 - x1)).
  Proof.
    intros x1 y1 x2 y2 x3 y3 l m x12 y12 x23 y23 [L1 L2] [M1 M2] ne C12 C23 N12 N23.
    unfold chord in C12, C23. injection C12 as X12 Y12. injection C23 as X23 Y23.
    assert (Y2 : y2 = y1 + l * (x2 - x1)) by (rewrite L1; ring).
    assert (Y3 : y3 = y2 + m * (x3 - x2)) by (rewrite M1; ring).
    assert (Nd : x3 - x1 <> 0) by (apply k_sub_nz; exact ne).
    assert (A : a = b * ((m * (y2 + y3) - l * (y1 + y2)) / (x3 - x1)) - x1 - x2 - x3).
    { apply (k_cancel F (x3 - x1)); [exact Nd|].
      transitivity (b * m * (y2 + y3) - b * l * (y1 + y2) - (x3 - x1) * (x1 + x2 + x3)).
      - rewrite L2, M2. ring.
      - field. exact Nd. }
    assert (N1 : x12 - x3 <> 0) by (apply k_sub_nz; exact N12).
    assert (N2 : x23 - x1 <> 0) by (apply k_sub_nz; exact N23).
    set (Dd := (m * (y2 + y3) - l * (y1 + y2)) / (x3 - x1)) in *.
    assert (E1 : x12 - x3 = b * (l * l - Dd)) by (rewrite <- X12, A; ring).
    assert (E2 : x23 - x1 = b * (m * m - Dd)) by (rewrite <- X23, A; ring).
    assert (N1' : l * l - Dd <> 0) by (intros E; apply N1; rewrite E1, E; ring).
    assert (N2' : m * m - Dd <> 0) by (intros E; apply N2; rewrite E2, E; ring).
    unfold chord.
    assert (Z1 : (y3 - y12) / (x3 - x12) = (y12 - y3) / (b * (l * l - Dd))).
    { rewrite <- E1. field. split; [exact N1|]. apply k_sub_nz. congruence. }
    assert (Z2 : (y23 - y1) / (x23 - x1) = (y23 - y1) / (b * (m * m - Dd))) by (rewrite <- E2; reflexivity).
    rewrite Z1, Z2. clear Z1 Z2.
    assert (DD : Dd = (m * (y2 + y3) - l * (y1 + y2)) / (x3 - x1)) by reflexivity. clearbody Dd.
    assert (Ex12 : x12 = x3 + b * (l * l - Dd)) by (rewrite <- E1; ring).
    assert (Ex23 : x23 = x1 + b * (m * m - Dd)) by (rewrite <- E2; ring).
    clear N1 N2 E1 E2 X12 X23.
    rewrite <- Y12, <- Y23, Ex12, Ex23, A. clear Y12 Y23 Ex12 Ex23 A L1 L2 M1 M2.
    rewrite DD in N1', N2' |- *. clear DD Dd. rewrite Y3, Y2 in *. clear Y3 Y2 N12 N23.
    assert (Q1 : l * l * (x3 - x1) - (m * (y1 + l * (x2 - x1) + (y1 + l * (x2 - x1) + m * (x3 - x2))) - l * (y1 + (y1 + l * (x2 - x1)))) <> 0).
    { intros E. apply N1'. apply (k_cancel F (x3 - x1)); [exact Nd|]. transitivity (k0 : F); [|ring]. etransitivity; [|exact E]. field. exact Nd. }
    assert (Q2 : m * m * (x3 - x1) - (m * (y1 + l * (x2 - x1) + (y1 + l * (x2 - x1) + m * (x3 - x2))) - l * (y1 + (y1 + l * (x2 - x1)))) <> 0).
    { intros E. apply N2'. apply (k_cancel F (x3 - x1)); [exact Nd|]. transitivity (k0 : F); [|ring]. etransitivity; [|exact E]. field. exact Nd. }
    clear N1' N2' ne.
    f_equal.
    - field. repeat split; assumption.
    - field. repeat split; assumption.
  Qed.

  (* (2R + R) + R = 2R + 2R, computed *)
  Lemma quad_main : forall x y l c x2 y2 m x3 y3 n,
    2 * b * l * y = 3 * (x * x) + 2 * a * x + c ->
    x2 = b * (l * l) - a - x - x -> y2 = l * (x - x2) - y ->
    m * (x2 - x) = y2 - y -> x3 = b * (m * m) - a - x2 - x -> y3 = m * (x2 - x3) - y2 ->
    2 * b * n * y2 = 3 * (x2 * x2) + 2 * a * x2 + c ->
    x2 <> x -> x3 <> x -> y2 <> 0 ->
    chord x3 y3 x ((y - y3) / (x - x3)) = chord x2 y2 x2 n.
  Proof.
    intros x y l c x2 y2 m x3 y3 n Hc X2 Y2 M X3 Y3 N n2 n3 ny.
    set (e := x2 - x). assert (He : e <> 0) by (apply k_sub_nz; exact n2).
    assert (A : a = b * (l * l) - x - x - x - e) by (unfold e; rewrite X2; ring).
    assert (E2 : x2 = x + e) by (unfold e; ring). clearbody e.
    assert (C : c = 2 * b * l * y - 3 * (x * x) - 2 * a * x) by (rewrite Hc; ring).
    assert (M' : m = (y2 - y) / e) by (rewrite <- M, E2; field; exact He).
    assert (N' : n = (3 * (x2 * x2) + 2 * a * x2 + c) / (2 * b * y2)) by (rewrite <- N; field; repeat split; assumption).
    assert (Y2' : y2 = - (l * e) - y) by (rewrite Y2, E2; ring).
    assert (E3 : x - x3 <> 0) by (apply k_sub_nz; congruence).
    unfold chord. clear Hc N M n2 n3 X2 Y2. subst n m. rewrite C. clear C c.
    rewrite Y3. clear Y3 y3. rewrite X3 in *. clear X3 x3. rewrite A in *. clear A.
    rewrite E2 in *. clear E2 x2. rewrite Y2' in *. clear Y2' y2.
    assert (Q : x * (e * e) - (b * ((- (l * e) - y - y) * (- (l * e) - y - y)) - (b * (l * l) - x - x - x - e) * (e * e) - (x + e) * (e * e) - x * (e * e)) <> 0).
    { intros E. apply E3. apply (k_cancel F (e * e)); [apply k_mul_nz; exact He|]. transitivity (k0 : F); [|ring].
      etransitivity; [|exact E]. field. exact He. }
    f_equal.
    - field. repeat split; assumption.
    - field. repeat split; assumption.
  Qed.

  Ltac onc := repeat first [assumption | apply (padd_onc F a b two_nz b_nz) | apply pneg_onc | exact I].
  Notation comm := (padd_comm F a b b_nz).

  Lemma pneg_inj : forall P Q, pneg P = pneg Q -> P = Q.
  Proof. intros P Q H. rewrite <- (pneg_pneg F P), H. apply pneg_pneg. Qed.
  (* x-coordinates decide up to sign *)
  Lemma x_eq : forall x1 y1 x2 y2, onc (Aff x1 y1) -> onc (Aff x2 y2) -> x1 = x2 ->
    Aff x1 y1 = Aff x2 y2 \/ Aff x1 y1 = pneg (Aff x2 y2).
  Proof. intros x1 y1 x2 y2 H1 H2 ->. destruct (same_x F a b b_nz x2 y1 y2 H1 H2) as [-> | ->]; [left|right]; reflexivity. Qed.
  Lemma cancel_l : forall P Q R, onc P -> onc Q -> onc R -> padd P R = padd Q R -> P = Q.
  Proof. intros P Q R HP HQ HR H. rewrite <- (cancel P R HP HR), <- (cancel Q R HQ HR), H. reflexivity. Qed.
  Lemma padd_eq_r : forall P Q, onc P -> onc Q -> padd P Q = Q -> P = Inf.
  Proof. intros P Q HP HQ H. apply (cancel_l P Inf Q); onc. Qed.

  (* the generic case in terms of points: none of the four additions is degenerate *)
  Lemma assoc_gen : forall P Q R, onc P -> onc Q -> onc R -> P <> Inf -> Q <> Inf -> R <> Inf ->
    Q <> pneg P -> R <> pneg Q -> P <> R -> P <> pneg R ->
    padd P Q <> R -> padd P Q <> pneg R -> padd Q R <> P -> padd Q R <> pneg P ->
    padd (padd P Q) R = padd P (padd Q R).
  Proof.
    intros [|x1 y1] [|x2 y2] [|x3 y3] HP HQ HR N1 N2 N3 D1 D2 D3 D4 D5 D6 D7 D8; try congruence.
    pose proof (padd_onc F a b two_nz b_nz _ _ HP HQ) as O12. pose proof (padd_onc F a b two_nz b_nz _ _ HQ HR) as O23.
    destruct (padd_slope x1 y1 x2 y2 HP HQ) as [(_ & E1 & E2)|(l & Sl & El & _)].
    { exfalso. apply D1. cbn [MontCurve.pneg]. subst. f_equal. ring. }
    destruct (padd_slope x2 y2 x3 y3 HQ HR) as [(_ & E1 & E2)|(m & Sm & Em & _)].
    { exfalso. apply D2. cbn [MontCurve.pneg]. subst. f_equal. ring. }
    assert (ne : x3 <> x1).
    { intros E. destruct (x_eq x1 y1 x3 y3 HP HR (eq_sym E)); contradiction. }
    destruct (chord x1 y1 x2 l) as [|x12 y12] eqn:C12; [discriminate|].
    destruct (chord x2 y2 x3 m) as [|x23 y23] eqn:C23; [discriminate|].
    rewrite El in *. rewrite Em in *.
    assert (n12 : x12 <> x3) by (intros E; destruct (x_eq x12 y12 x3 y3 O12 HR E); contradiction).
    assert (n23 : x23 <> x1) by (intros E; destruct (x_eq x23 y23 x1 y1 O23 HP E); contradiction).
    pose proof (assoc_main x1 y1 x2 y2 x3 y3 l m x12 y12 x23 y23 Sl Sm ne C12 C23 n12 n23) as M.
    cbn [MontCurve.padd]. destruct (k_dec x12 x3) as [e|_]; [contradiction|]. destruct (k_dec x1 x23) as [e|_]; [congruence|]. exact M.
  Qed.

  Lemma neg_eq_iff : forall P Q, P = pneg Q -> Q = pneg P.
  Proof. intros P Q ->. rewrite pneg_pneg. reflexivity. Qed.
  Definition pnt_dec : forall P Q : pnt, {P = Q} + {P <> Q}.
  Proof.
    intros [|x1 y1] [|x2 y2]; [left; reflexivity|right; discriminate|right; discriminate|].
    destruct (k_dec x1 x2) as [->|h]; [|right; congruence]. destruct (k_dec y1 y2) as [->|h]; [left; reflexivity|right; congruence].
  Defined.

  (* (2R + R) + R = 2R + 2R *)
  Lemma quad : forall R, onc R -> padd (padd (padd R R) R) R = padd (padd R R) (padd R R).
  Proof.
    intros R HR. set (D := padd R R).
    assert (HD : onc D) by (unfold D; onc).
    destruct (pnt_dec R Inf) as [->|nR]; [reflexivity|].
    destruct (pnt_dec D Inf) as [eD|nD]. { rewrite eD. exact eD. }
    destruct (pnt_dec D (pneg R)) as [e1|n1].
    { (* 3R = Inf *) assert (T : padd D R = Inf).
      { rewrite e1, comm by onc. apply padd_neg. }
      rewrite T. change (R = padd D D). rewrite e1. rewrite <- pneg_padd by onc. fold D. rewrite e1. symmetry. apply pneg_pneg. }
    destruct (pnt_dec D R) as [e2|n2]. { exfalso. apply nR. apply (padd_eq_r R R); onc. }
    set (T := padd D R). assert (HT : onc T) by (unfold T; onc).
    destruct (pnt_dec T R) as [e3|n3]. { exfalso. apply nD. apply (padd_eq_r D R); onc. }
    destruct (pnt_dec D (pneg D)) as [e4|n4].
    { (* 4R = Inf *) rewrite e4 at 2. rewrite padd_neg.
      assert (T' : T = pneg R).
      { unfold T. rewrite e4. unfold D. rewrite pneg_padd by onc.
        pose proof (cancel (pneg R) (pneg R)) as C. rewrite pneg_pneg in C. apply C; onc. }
      rewrite T'. rewrite comm by onc. apply padd_neg. }
    destruct (pnt_dec T (pneg R)) as [e5|n5].
    { (* 3R = -R, so 2R = -2R *) exfalso. apply n4. apply (cancel_l D (pneg D) R); onc. fold T. rewrite e5.
      unfold D. rewrite pneg_padd by onc. pose proof (cancel (pneg R) (pneg R)) as C. rewrite pneg_pneg in C. symmetry. apply C; onc. }
    destruct R as [|x y]; [contradiction|].
    destruct (padd_slope x y x y HR HR) as [(E & _)|(l & [_ Sl] & El & _)]; [exfalso; apply nD; exact E|].
    fold D in El. destruct D as [|x2 y2] eqn:ED; [discriminate|]. unfold chord in El. injection El as X2 Y2.
    assert (d2 : x2 <> x) by (intros E; destruct (x_eq x2 y2 x y HD HR E); contradiction).
    destruct (padd_slope x2 y2 x y HD HR) as [(_ & E & _)|(m & [Sm _] & Em & _)]; [contradiction|].
    fold T in Em. destruct T as [|x3 y3] eqn:ET; [discriminate|]. unfold chord in Em. injection Em as X3 Y3.
    assert (d3 : x3 <> x) by (intros E; destruct (x_eq x3 y3 x y HT HR E); contradiction).
    destruct (padd_slope x2 y2 x2 y2 HD HD) as [(_ & _ & E)|(n & [_ Sn] & En & Dn)].
    { exfalso. apply n4. cbn [MontCurve.pneg]. f_equal. exact E. }
    rewrite En. cbn [MontCurve.padd]. destruct (k_dec x3 x) as [e|_]; [contradiction|].
    apply (quad_main x y l 1 x2 y2 m x3 y3 n).
    - transitivity (b * l * (y + y)); [ring|]. rewrite Sl. ring.
    - exact X2.
    - rewrite X2. exact Y2.
    - transitivity (- (m * (x - x2))); [ring|]. rewrite Sm. ring.
    - exact X3.
    - rewrite X3. exact Y3.
    - transitivity (b * n * (y2 + y2)); [ring|]. rewrite Sn. ring.
    - exact d2.
    - exact d3.
    - intros E. destruct Dn as [Dn|Dn]; [apply Dn; reflexivity|]. apply Dn. rewrite E. ring.
  Qed.

  (* P + Q = R with R the third summand: (P+Q) + (P+Q) = P + (Q + (P+Q)) *)
  Lemma assoc_eq : forall A B, onc A -> onc B -> padd (padd A B) (padd A B) = padd A (padd B (padd A B)).
  Proof.
    intros A B HA HB. set (R := padd A B). assert (HR : onc R) by (unfold R; onc).
    destruct (pnt_dec A Inf) as [->|nA]; [reflexivity|].
    destruct (pnt_dec B Inf) as [eB|nB].
    { unfold R. rewrite eB, padd_inf_r. reflexivity. }
    (* R - A = B, R - B = A *)
    assert (RA : padd R (pneg A) = B). { unfold R. rewrite (comm A B) by onc. apply cancel; onc. }
    assert (RB : padd R (pneg B) = A) by (apply cancel; onc).
    (* it is enough to show 2R - A = B + R *)
    assert (K : padd (padd R R) (pneg A) = padd B R -> padd R R = padd A (padd B R)).
    { intros K. rewrite <- K. rewrite (comm A) by onc. pose proof (cancel (padd R R) (pneg A)) as C. rewrite pneg_pneg in C. symmetry. apply C; onc. }
    destruct (pnt_dec R Inf) as [eR|nR].
    { rewrite eR. change (padd Inf Inf) with Inf. rewrite padd_inf_r. symmetry. exact eR. }
    destruct (pnt_dec R (pneg R)) as [e2|n2].
    { (* 2R = Inf *) apply K. rewrite e2 at 2. rewrite padd_neg. change (pneg A = padd B R). rewrite <- RB.
      rewrite pneg_padd by onc. rewrite <- e2, pneg_pneg. apply comm; onc. }
    destruct (pnt_dec R A) as [e|nRA].
    { exfalso. apply nB. apply (padd_eq_r B A); [onc|onc|]. rewrite comm by onc. exact e. }
    destruct (pnt_dec R (pneg A)) as [e|nRA'].
    { apply K. rewrite e at 3. rewrite <- e. rewrite <- RA. rewrite <- e. reflexivity. }
    destruct (pnt_dec R B) as [e|nRB].
    { exfalso. apply nA. apply (padd_eq_r A B); [onc|onc|exact e]. }
    destruct (pnt_dec R (pneg B)) as [e|nRB'].
    { rewrite e at 3. rewrite padd_neg, padd_inf_r. rewrite e at 2. exact RB. }
    destruct (pnt_dec (padd R R) A) as [e|n2A].
    { (* B = R - 2R = - R *) assert (E : B = pneg R).
      { rewrite <- RA, <- e. rewrite pneg_padd by onc. rewrite comm by onc.
        pose proof (cancel (pneg R) (pneg R)) as C. rewrite pneg_pneg in C. apply C; onc. }
      rewrite E. rewrite (comm (pneg R)) by onc. rewrite padd_neg, padd_inf_r. exact e. }
    destruct (pnt_dec (padd R R) (pneg A)) as [e|n2A'].
    { (* A = - 2R, B = 3R *) apply K. rewrite <- e.
      rewrite <- RA. rewrite <- e. rewrite (comm R (padd R R)) by onc. symmetry. apply quad; onc. }
    apply K. rewrite <- RA. rewrite (comm (padd R (pneg A)) R) by onc.
    apply assoc_gen; onc.
    - intros E. apply nA. apply pneg_inj. exact E.
    - intros E. apply nRA. apply pneg_inj. symmetry. exact E.
    - rewrite pneg_pneg. exact nRA.
    - rewrite pneg_pneg. exact n2A.
    - rewrite RA. congruence.
    - rewrite RA. intros E. apply nRB'. apply neg_eq_iff. exact E.
  Qed.

  Theorem padd_assoc : forall P Q R, onc P -> onc Q -> onc R -> padd (padd P Q) R = padd P (padd Q R).
  Proof.
    intros P Q R HP HQ HR.
    destruct (pnt_dec P Inf) as [->|nP]; [reflexivity|].
    destruct (pnt_dec Q Inf) as [->|nQ]; [rewrite padd_inf_r; reflexivity|].
    destruct (pnt_dec R Inf) as [->|nR]; [rewrite !padd_inf_r; reflexivity|].
    destruct (pnt_dec Q (pneg P)) as [->|n1].
    { rewrite padd_neg. change (padd Inf R) with R. rewrite (comm P) by onc. rewrite (comm (pneg P) R) by onc.
      pose proof (cancel R (pneg P)) as C. rewrite pneg_pneg in C. symmetry. apply C; onc. }
    destruct (pnt_dec R (pneg Q)) as [->|n2].
    { rewrite padd_neg, padd_inf_r. apply cancel; onc. }
    destruct (pnt_dec P R) as [->|n3].
    { rewrite (comm (padd R Q)) by onc. rewrite (comm R Q) by onc. reflexivity. }
    destruct (pnt_dec P (pneg R)) as [->|n4].
    { transitivity Q.
      - rewrite (comm (pneg R) Q) by onc. pose proof (cancel Q (pneg R)) as C. rewrite pneg_pneg in C. apply C; onc.
      - symmetry. rewrite comm by onc. apply cancel; onc. }
    destruct (pnt_dec (padd P Q) R) as [<-|n5]; [apply assoc_eq; onc|].
    destruct (pnt_dec (padd P Q) (pneg R)) as [e|n6].
    { assert (E : R = pneg (padd P Q)) by (apply neg_eq_iff; exact e). rewrite E at 1. rewrite padd_neg.
      rewrite E. assert (G : padd Q (pneg (padd P Q)) = pneg P).
      { transitivity (pneg (padd (padd P Q) (pneg Q))).
        - rewrite (pneg_padd (padd P Q) (pneg Q)) by onc. rewrite pneg_pneg. apply comm; onc.
        - f_equal. apply cancel; onc. }
      rewrite G. symmetry. apply padd_neg. }
    destruct (pnt_dec (padd Q R) P) as [<-|n7].
    { rewrite (comm (padd Q R) Q) by onc. rewrite (comm (padd Q (padd Q R)) R) by onc.
      rewrite (comm Q R) by onc. symmetry. apply assoc_eq; onc. }
    destruct (pnt_dec (padd Q R) (pneg P)) as [e|n8].
    { rewrite e, padd_neg. assert (E : P = pneg (padd Q R)) by (apply neg_eq_iff; exact e). rewrite E.
      assert (G : padd (pneg (padd Q R)) Q = pneg R).
      { transitivity (pneg (padd (padd R Q) (pneg Q))).
        - rewrite (pneg_padd (padd R Q) (pneg Q)) by onc. rewrite pneg_pneg, (comm R Q) by onc. reflexivity.
        - f_equal. apply cancel; onc. }
      rewrite G. rewrite comm by onc. apply padd_neg. }
    apply assoc_gen; assumption.
  Qed.
End Assoc.
