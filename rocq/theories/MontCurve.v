(* Montgomery curves B y^2 = x^3 + A x^2 + x over any field of characteristic not 2: the affine
   chord-and-tangent law, and the x-only formulas. *)
From Coq Require Import ZArith List Lia Bool Field NsatzTactic.
From Verif Require Import FieldAlg FieldTac.

Section Mont.
  Variable F : fld.
  Add Field Ff : (k_th F).
  Local Infix "+" := kadd. Local Infix "*" := kmul. Local Infix "-" := ksub. Local Infix "/" := kdiv.
  Local Notation "- x" := (kopp x). Local Notation "0" := k0. Local Notation "1" := k1.
  Local Notation "2" := (1 + 1). Local Notation "3" := (1 + 1 + 1). Local Notation "4" := ((1 + 1) * (1 + 1)).

  Variables (a b : F).
  Hypothesis two_nz : 2 <> 0 :> F.
  Hypothesis b_nz : b <> 0.
  Hypothesis a_ok : a * a <> 4.

  Inductive pnt : Type := Inf | Aff (x y : F).
  Definition onc (P : pnt) : Prop :=
    match P with Inf => True | Aff x y => b * (y * y) = x * x * x + a * (x * x) + x end.
  Definition pneg (P : pnt) : pnt := match P with Inf => Inf | Aff x y => Aff x (- y) end.
  Definition chord (x1 y1 x2 l : F) : pnt :=
    let x3 := b * (l * l) - a - x1 - x2 in Aff x3 (l * (x1 - x3) - y1).
  Definition padd (P Q : pnt) : pnt :=
    match P, Q with
    | Inf, _ => Q
    | _, Inf => P
    | Aff x1 y1, Aff x2 y2 =>
        if k_dec x1 x2 then
          if k_dec y1 (- y2) then Inf
          else chord x1 y1 x2 ((3 * (x1 * x1) + 2 * a * x1 + 1) / (2 * b * y1))
        else chord x1 y1 x2 ((y2 - y1) / (x2 - x1))
    end.
  (* (X : Z) represents x(P) on the projective line *)
  Definition xrep (X Z : F) (P : pnt) : Prop :=
    match P with Inf => X <> 0 /\ Z = 0 | Aff x _ => Z <> 0 /\ X = x * Z end.

  Lemma four_nz : 4 <> 0 :> F. Proof. apply k_mul_nz; exact two_nz. Qed.
  Lemma y_neg : forall y : F, y = - y -> y = 0.
  Proof.
    intros y H. destruct (k_integral F 2 y) as [h|h]; [|contradiction|exact h].
    assert (E : (1 + 1) * y = y - - y) by ring. rewrite E, <- H. ring.
  Qed.
  Lemma same_x : forall x y1 y2, onc (Aff x y1) -> onc (Aff x y2) -> y1 = y2 \/ y1 = - y2.
  Proof.
    intros x y1 y2 H1 H2. cbn [onc] in *. apply k_sqr_eq. apply (k_cancel F b); [exact b_nz|]. congruence.
  Qed.
  Lemma pneg_onc : forall P, onc P -> onc (pneg P).
  Proof. intros [|x y] H; [exact I|]. cbn [onc pneg] in *. rewrite <- H. ring. Qed.
  Lemma pneg_pneg : forall P, pneg (pneg P) = P.
  Proof. intros [|x y]; [reflexivity|]. cbn [pneg]. f_equal. ring. Qed.
  Lemma xrep_neg : forall X Z P, xrep X Z P -> xrep X Z (pneg P).
  Proof. intros X Z [|x y]; exact (fun H => H). Qed.
  Lemma xrep_scale : forall X Z P k, k <> 0 -> xrep X Z P -> xrep (k * X) (k * Z) P.
  Proof.
    intros X Z [|x y] k Hk [H1 H2]; cbn [xrep] in *; split.
    - apply k_mul_nz; assumption.
    - rewrite H2. ring.
    - apply k_mul_nz; assumption.
    - rewrite H2. ring.
  Qed.

  Lemma padd_comm : forall P Q, onc P -> onc Q -> padd P Q = padd Q P.
  Proof.
    intros [|x1 y1] [|x2 y2] H1 H2; try reflexivity. cbn [padd].
    destruct (k_dec x1 x2) as [e|e], (k_dec x2 x1) as [e'|e']; try congruence.
    - subst x2. destruct (k_dec y1 (- y2)) as [f|f], (k_dec y2 (- y1)) as [g|g].
      + reflexivity.
      + exfalso. apply g. rewrite f. ring.
      + exfalso. apply f. rewrite g. ring.
      + destruct (same_x x1 y1 y2 H1 H2) as [->|E]; [reflexivity|contradiction].
    - assert (N1 : x2 - x1 <> 0) by (apply k_sub_nz; congruence).
      assert (N2 : x1 - x2 <> 0) by (apply k_sub_nz; congruence).
      unfold chord. assert (L : (y2 - y1) / (x2 - x1) = (y1 - y2) / (x1 - x2)) by (field; split; assumption).
      rewrite <- L. set (l := (y2 - y1) / (x2 - x1)).
      assert (D : l * (x2 - x1) = y2 - y1) by (unfold l; field; assumption). clearbody l.
      f_equal; [ring|]. nsatz.
  Qed.

  Lemma chord_onc : forall x1 y1 x2 y2 l, onc (Aff x1 y1) -> onc (Aff x2 y2) -> x1 <> x2 ->
    l * (x2 - x1) = y2 - y1 -> onc (chord x1 y1 x2 l).
  Proof.
    intros x1 y1 x2 y2 l H1 H2 ne D. unfold chord. cbn [onc] in *.
    assert (N : x1 - x2 <> 0) by (apply k_sub_nz; exact ne).
    assert (U : kinv (x1 - x2) * (x1 - x2) = 1) by (field; exact N). set (u := kinv (x1 - x2)) in *. clearbody u.
    set (x3 := b * (l * l) - a - x1 - x2). assert (E3 : x3 = b * (l * l) - a - x1 - x2) by reflexivity. clearbody x3.
    clear a_ok b_nz two_nz N ne. nsatz.
  Qed.
  Lemma tangent_onc : forall x y l, onc (Aff x y) -> y <> 0 ->
    l * (2 * b * y) = 3 * (x * x) + 2 * a * x + 1 -> onc (chord x y x l).
  Proof.
    intros x y l H ne D. unfold chord. cbn [onc] in *.
    assert (N : 2 * b * y <> 0) by (apply k_mul_nz; [apply k_mul_nz|]; assumption).
    assert (U : kinv (2 * b * y) * (2 * b * y) = 1) by (field; repeat split; assumption). set (u := kinv (2 * b * y)) in *. clearbody u.
    set (x3 := b * (l * l) - a - x - x). assert (E3 : x3 = b * (l * l) - a - x - x) by reflexivity. clearbody x3.
    clear a_ok b_nz two_nz N ne. nsatz.
  Qed.
  Lemma padd_onc : forall P Q, onc P -> onc Q -> onc (padd P Q).
  Proof.
    intros [|x1 y1] [|x2 y2] H1 H2; try assumption. cbn [padd].
    destruct (k_dec x1 x2) as [e|e].
    - subst x2. destruct (k_dec y1 (- y2)) as [f|f]; [exact I|].
      destruct (same_x x1 y1 y2 H1 H2) as [E|E]; [subst y2|contradiction].
      assert (Hy : y1 <> 0) by (intros ->; apply f; ring).
      apply tangent_onc; [exact H1|exact Hy|]. field. repeat split; assumption.
    - apply (chord_onc x1 y1 x2 y2); [exact H1|exact H2|exact e|]. field. apply k_sub_nz. congruence.
  Qed.

  (* x^2 = 1 does not happen at 2-torsion points *)
  Lemma tor2 : forall x, x * x + a * x + 1 = 0 -> x * x - 1 <> 0.
  Proof.
    intros x H E. apply a_ok.
    assert (X : x * x = 1) by (apply k_sub_eq; exact E).
    assert (A1 : a * x = - (2)).
    { assert (G : a * x = (x * x + a * x + 1) - (x * x) - 1) by ring. rewrite G, H, X. ring. }
    assert (G : a * a = a * a * (x * x)) by (rewrite X; ring). rewrite G.
    assert (G2 : a * a * (x * x) = (a * x) * (a * x)) by ring. rewrite G2, A1. ring.
  Qed.

  (* ---------- doubling ---------- *)
  Definition dblX (X Z : F) : F := (X * X - Z * Z) * (X * X - Z * Z).
  Definition dblZ (X Z : F) : F := 4 * X * Z * (X * X + a * X * Z + Z * Z).
  Lemma xdbl_ok : forall X Z P, onc P -> xrep X Z P -> xrep (dblX X Z) (dblZ X Z) (padd P P).
  Proof.
    intros X Z [|x y] H R; cbn [xrep padd] in *.
    - destruct R as [R1 ->]. unfold dblX, dblZ. split.
      + replace (X * X - 0 * 0) with (X * X) by ring. repeat apply k_mul_nz; assumption.
      + ring.
    - destruct R as [R1 ->]. destruct (k_dec x x) as [_|c]; [|contradiction].
      cbn [onc] in H. assert (H' : b * (y * y) = x * (x * x + a * x + 1)) by (rewrite H; ring).
      unfold dblX, dblZ. destruct (k_dec y (- y)) as [f|f].
      + apply y_neg in f. subst y. cbn [xrep].
        assert (T : x * (x * x + a * x + 1) = 0) by (rewrite <- H'; ring). split.
        * replace (x * Z * (x * Z) - Z * Z) with ((x * x - 1) * (Z * Z)) by ring.
          assert (Q : x * x - 1 <> 0).
          { destruct (k_integral F _ _ T) as [->|T2]; [|apply tor2; exact T2].
            intros E. apply (k_one_nz F).
            assert (G : 1 = 0 - (0 * 0 - 1) :> F) by ring. rewrite G, E. ring. }
          repeat apply k_mul_nz; assumption.
        * replace (4 * (x * Z) * Z * (x * Z * (x * Z) + a * (x * Z) * Z + Z * Z)) with (4 * (Z * Z * (Z * Z)) * (x * (x * x + a * x + 1))) by ring.
          rewrite T. ring.
      + assert (Hy : y <> 0) by (intros ->; apply f; ring). unfold chord. cbn [xrep].
        assert (T : x * (x * x + a * x + 1) <> 0) by (rewrite <- H'; repeat apply k_mul_nz; assumption).
        apply k_mul_nz_inv in T. destruct T as [T1 T2]. split.
        * replace (x * Z * (x * Z) + a * (x * Z) * Z + Z * Z) with ((Z * Z) * (x * x + a * x + 1)) by ring.
          pose proof four_nz. repeat apply k_mul_nz; assumption.
        * assert (L : (3 * (x * x) + 2 * a * x + 1) / (2 * b * y) * (2 * b * y) = 3 * (x * x) + 2 * a * x + 1) by (field; repeat split; assumption).
          set (l := (3 * (x * x) + 2 * a * x + 1) / (2 * b * y)) in *. clearbody l.
          clear f. apply (k_cancel F (y * y)); [apply k_mul_nz; exact Hy|]. 
          clear two_nz b_nz a_ok R1 Hy T1 T2 H'. nsatz.
  Qed.

  (* ---------- differential addition ---------- *)
  Definition addX (X1 Z1 X2 Z2 ZD : F) : F := ZD * ((X1 * X2 - Z1 * Z2) * (X1 * X2 - Z1 * Z2)).
  Definition addZ (X1 Z1 X2 Z2 XD : F) : F := XD * ((X1 * Z2 - Z1 * X2) * (X1 * Z2 - Z1 * X2)).
  Lemma chord_prod : forall x1 y1 x2 y2 l m, onc (Aff x1 y1) -> onc (Aff x2 y2) ->
    l * (x2 - x1) = y2 - y1 -> m * (x2 - x1) = - y2 - y1 -> x1 <> x2 ->
    (b * (l * l) - a - x1 - x2) * (b * (m * m) - a - x1 - x2) * ((x1 - x2) * (x1 - x2)) = (x1 * x2 - 1) * (x1 * x2 - 1).
  Proof.
    intros x1 y1 x2 y2 l m H1 H2 L M ne. cbn [onc] in *.
    assert (N : x2 - x1 <> 0) by (apply k_sub_nz; congruence).
    apply (k_cancel F ((x2 - x1) * (x2 - x1))); [apply k_mul_nz; assumption|].
    set (d := x2 - x1) in *.
    assert (B1 : b * (l * l) * (d * d) = b * ((y2 - y1) * (y2 - y1))) by (rewrite <- L; ring).
    assert (B2 : b * (m * m) * (d * d) = b * ((- y2 - y1) * (- y2 - y1))) by (rewrite <- M; ring).
    transitivity ((b * (l * l) * (d * d) - (a + x1 + x2) * (d * d)) * (b * (m * m) * (d * d) - (a + x1 + x2) * (d * d))).
    { unfold d. ring. }
    rewrite B1, B2.
    assert (S1 : b * ((y2 - y1) * (y2 - y1)) = b * (y1 * y1) + b * (y2 * y2) - 2 * b * (y1 * y2)) by ring.
    assert (S2 : b * ((- y2 - y1) * (- y2 - y1)) = b * (y1 * y1) + b * (y2 * y2) + 2 * b * (y1 * y2)) by ring.
    rewrite S1, S2. set (U := b * (y1 * y1) + b * (y2 * y2) - (a + x1 + x2) * (d * d)).
    transitivity (U * U - 4 * (b * (y1 * y1)) * (b * (y2 * y2))). { unfold U. ring. }
    unfold U. rewrite H1, H2. unfold d. ring.
  Qed.

  Lemma xadd_ok : forall X1 Z1 X2 Z2 XD ZD P Q, onc P -> onc Q -> xrep X1 Z1 P -> xrep X2 Z2 Q ->
    xrep XD ZD (padd P (pneg Q)) -> XD <> 0 -> ZD <> 0 ->
    xrep (addX X1 Z1 X2 Z2 ZD) (addZ X1 Z1 X2 Z2 XD) (padd P Q).
  Proof.
    intros X1 Z1 X2 Z2 XD ZD P Q HP HQ RP RQ RD ND NZ. unfold addX, addZ.
    destruct P as [|x1 y1]; [|destruct Q as [|x2 y2]].
    - destruct Q as [|x y]; cbn [padd pneg xrep] in *; [destruct RD; contradiction|].
      destruct RP as [P1 ->], RQ as [Q1 ->], RD as [_ D2]. rewrite D2 in *. apply k_mul_nz_inv in ND. destruct ND as [ND _].
      split.
      + replace (X1 * Z2 - 0 * (x * Z2)) with (X1 * Z2) by ring. repeat apply k_mul_nz; assumption.
      + ring.
    - cbn [padd pneg xrep] in *. destruct RP as [P1 ->], RQ as [Q1 ->], RD as [_ D2]. rewrite D2 in *.
      apply k_mul_nz_inv in ND. destruct ND as [ND _]. split.
      + replace (x1 * Z1 * 0 - Z1 * X2) with (- (Z1 * X2)) by ring.
        replace (- (Z1 * X2) * - (Z1 * X2)) with ((Z1 * X2) * (Z1 * X2)) by ring. repeat apply k_mul_nz; assumption.
      + ring.
    - cbn [pneg] in RD. cbn [padd] in *. destruct RP as [P1 ->], RQ as [Q1 ->].
      destruct (k_dec x1 x2) as [e|e].
      + subst x2. destruct (k_dec y1 (- - y2)) as [f|f].
        { cbn [xrep] in RD. destruct RD. contradiction. }
        destruct (same_x x1 y1 y2 HP HQ) as [E|E]; [exfalso; apply f; rewrite E; ring|].
        subst y1. destruct (k_dec (- y2) (- y2)) as [_|c]; [|contradiction]. cbn [xrep].
        unfold chord in RD. cbn [xrep] in RD. destruct RD as [_ RD]. split; [|ring].
        assert (Hx : x1 * x1 - 1 <> 0).
        { intros Hx. apply ND. rewrite RD.
          assert (Hy : - y2 <> 0) by (intros E; apply f; rewrite E; ring).
          cbn [onc] in HP, HQ.
          assert (L : (3 * (x1 * x1) + 2 * a * x1 + 1) / (2 * b * - y2) * (2 * b * - y2) = 3 * (x1 * x1) + 2 * a * x1 + 1) by (field; repeat split; assumption).
          set (l := (3 * (x1 * x1) + 2 * a * x1 + 1) / (2 * b * - y2)) in *. clearbody l.
          apply (k_cancel F (4 * b * (y2 * y2))).
          { assert (Hy' : y2 <> 0) by (intros ->; apply Hy; ring). pose proof four_nz. repeat apply k_mul_nz; assumption. }
          clear - L HQ Hx. nsatz. }
        replace (x1 * Z1 * (x1 * Z2) - Z1 * Z2) with ((x1 * x1 - 1) * (Z1 * Z2)) by ring.
        repeat apply k_mul_nz; assumption.
      + unfold chord in *. cbn [xrep] in *. destruct RD as [_ RD].
        assert (N : x2 - x1 <> 0) by (apply k_sub_nz; congruence).
        assert (N' : x1 - x2 <> 0) by (apply k_sub_nz; congruence).
        pose proof (chord_prod x1 y1 x2 y2 ((y2 - y1) / (x2 - x1)) ((- y2 - y1) / (x2 - x1)) HP HQ) as CP.
        specialize (CP ltac:(field; exact N) ltac:(field; exact N) e).
        set (x3 := b * _ - a - x1 - x2) in CP. set (x3' := b * _ - a - x1 - x2) in CP.
        fold x3. fold x3' in RD.
        split.
        * replace (x1 * Z1 * Z2 - Z1 * (x2 * Z2)) with ((x1 - x2) * (Z1 * Z2)) by ring. repeat apply k_mul_nz; assumption.
        * rewrite RD. clearbody x3 x3'.
          transitivity (ZD * (Z1 * Z2) * (Z1 * Z2) * ((x1 * x2 - 1) * (x1 * x2 - 1))). { ring. }
          rewrite <- CP. ring.
  Qed.
End Mont.
