(* The 3- and 4-isogenies of SIDH_Line.v as maps between points of Montgomery curves
   y^2 = x^3 + a x^2 + x over a field with a square root of -1.  Nothing here mentions the Go code. *)
From Coq Require Import ZArith List Lia Bool Field.
From Verif Require Import FieldAlg MontCurve MontAssoc MontLadder SIDH_Line SIDH_Points.

Section IsoPoints.
  Variable F : fld.
  Add Field Ff : (k_th F).
  Local Infix "+" := kadd. Local Infix "*" := kmul. Local Infix "-" := ksub. Local Infix "/" := kdiv.
  Local Notation "- x" := (kopp x). Local Notation "0" := k0. Local Notation "1" := k1.
  Local Notation "2" := (1 + 1). Local Notation "3" := (1 + 1 + 1). Local Notation "4" := ((1 + 1) * (1 + 1)).
  Local Notation "6" := ((1 + 1) * (1 + 1 + 1)).
  Hypothesis two_nz : 2 <> 0 :> F.
  Notation onc a := (onc F a 1). Notation padd a := (padd F a 1). Notation pmul a := (pmul F a 1). Notation pneg := (pneg F). Notation Inf := (Inf F). Notation Aff := (Aff F).
  Notation eqv := (eqv F). Notation xp := (xp F). Notation nonsing := (nonsing F).
  Ltac nz1 := repeat apply k_mul_nz; try assumption.
  Ltac fnz := repeat apply conj; nz1.

  (* ---------- kernel {O, T, -T}, x(T) = t ---------- *)
  Definition phi3 (t : F) (P : pnt F) : pnt F :=
    match P with
    | MontCurve.Inf _ => Inf
    | MontCurve.Aff _ x y =>
      if k_dec x t then Inf
      else Aff (x * ((x * t - 1) * (x * t - 1)) / ((x - t) * (x - t)))
               (t * y * (x * t - 1) * (x * x * t - 3 * x * (t * t) + x + t) / ((x - t) * (x - t) * (x - t)))
    end.
  Lemma psi3_nz : forall a t, psi3 F a t = 0 -> t <> 0.
  Proof. intros a t H ->. apply (k_one_nz F). transitivity (- (psi3 F a 0)); [unfold psi3; ring|]. rewrite H. ring. Qed.
  Lemma psi3_a : forall a t, psi3 F a t = 0 -> a = (1 - 6 * (t * t) - 3 * (t * t * (t * t))) / (4 * (t * t * t)).
  Proof.
    intros a t H. pose proof (psi3_nz a t H) as N. apply (k_cancel F (4 * (t * t * t))); [nz1|].
    transitivity (psi3 F a t - 3 * (t * t * (t * t)) - 6 * (t * t) + 1); [unfold psi3; ring|]. rewrite H. field. fnz.
  Qed.
  Lemma phi3_onc : forall a t P, psi3 F a t = 0 -> onc a P -> onc (cod3 F a t) (phi3 t P).
  Proof.
    intros a t [|x y] H HO; [exact I|]. unfold phi3. destruct (k_dec x t) as [e|e]; [exact I|]. cbn [MontCurve.onc] in *.
    pose proof (psi3_nz a t H) as N. assert (D : x - t <> 0) by (apply k_sub_nz; exact e).
    assert (E : forall g d : F, d <> 0 -> 1 * ((t * y * g) / d * ((t * y * g) / d)) = (1 * (y * y)) * (t * g / d * (t * g / d))) by (intros; field; assumption).
    replace (t * y * (x * t - 1) * (x * x * t - 3 * x * (t * t) + x + t)) with (t * y * ((x * t - 1) * (x * x * t - 3 * x * (t * t) + x + t))) by ring.
    rewrite E by nz1. rewrite HO. unfold cod3. rewrite (psi3_a a t H). field. fnz.
  Qed.
  Lemma phi3_x : forall a t P, psi3 F a t = 0 -> nonsing a -> eqv (iso3 F t (xp P)) (xp (phi3 t P)).
  Proof.
    intros a t [|x y] H NS; cbn [phi3].
    - exists (t * t). pose proof (psi3_nz a t H). cbn [SIDH_Points.xp iso3 fst snd]. split; [nz1|]. split; ring.
    - destruct (k_dec x t) as [->|e].
      + assert (N : t * t - 1 <> 0).
        { intros E. apply NS. rewrite (psi3_a a t H). pose proof (psi3_nz a t H). assert (E2 : t * t = 1) by (apply k_sub_eq; exact E).
          replace (4 * (t * t * t)) with (4 * t * (t * t)) by ring. rewrite E2. transitivity (4 * (1 / (t * t))); [field; fnz|]. rewrite E2. field. apply k_one_nz. }
        exists (t * ((t * t - 1) * (t * t - 1))). cbn [SIDH_Points.xp iso3 fst snd]. split; [nz1; apply (psi3_nz a t H)|]. split; ring.
      + assert (D : x - t <> 0) by (apply k_sub_nz; exact e).
        exists ((x - t) * (x - t)). cbn [SIDH_Points.xp iso3 fst snd]. split; [nz1|]. split; [field; assumption|ring].
  Qed.
  Lemma phi3_ker : forall a t y P, onc a (Aff t y) -> onc a P -> (phi3 t P = Inf <-> P = Inf \/ P = Aff t y \/ P = pneg (Aff t y)).
  Proof.
    intros a t y [|x z] HT HP; cbn [phi3]; [tauto|]. destruct (k_dec x t) as [->|e].
    - split; [intros _|reflexivity]. right. destruct (same_x F a 1 (k_one_nz F) t z y HP HT) as [->| ->]; [left|right]; reflexivity.
    - split; [discriminate|]. cbn [MontCurve.pneg]. intros [H|[H|H]]; [discriminate|injection H; contradiction|injection H; contradiction].
  Qed.
  Lemma psi3_of : forall a t y, nonsing a -> onc a (Aff t y) -> pmul a 3 (Aff t y) = Inf -> psi3 F a t = 0.
  Proof.
    intros a t y NS HO HI. pose proof (xp_tpls F two_nz a NS 1 (Aff t y) HO) as E. change (3 ^ Z.of_nat 1)%Z with 3%Z in E. rewrite HI in E.
    apply eqv_sym in E. pose proof (eqv_snd0 F _ _ E eq_refl) as H. unfold tpls in H. cbn [Nat.iter nat_rect SIDH_Points.xp tpl snd] in H.
    match type of H with kmul _ (kmul ?d _) = _ => assert (D : d = 0) end.
    { apply k_integral in H. destruct H as [H|H]; [exfalso; exact (k_one_nz F H)|]. apply k_sqr_0 in H. exact H. }
    rewrite <- D. unfold psi3. ring.
  Qed.

  (* ---------- kernel generated by S = (s, ys) of order 4 with 2 S <> (0, 0) ---------- *)
  Variable im : F.
  Hypothesis im_sq : im * im = - (1).
  Definition g4 (s x : F) : F :=
    let u := s * s + 1 in
    ((x * s - 1) * (2 * s - 2 * u * x) + 2 * x * s * (2 * s - u * x)) * (x - s) * (2 * s * x - u)
    - x * (x * s - 1) * (2 * s - u * x) * (6 * s * x - 2 * u - 2 * (s * s)).
  Definition phi4 (s ys : F) (P : pnt F) : pnt F :=
    match P with
    | MontCurve.Inf _ => Inf
    | MontCurve.Aff _ x y =>
      if k_dec x s then Inf else if k_dec (2 * s * x) (s * s + 1) then Inf
      else Aff (x * ((x * s - 1) * (x * s - 1)) * (2 * s - (s * s + 1) * x) / ((x - s) * (x - s) * (2 * s * x - (s * s + 1))))
               (im * (ys * (s * s + 1) / (s * s - 1)) * y * ((x * s - 1) * g4 s x) / ((x - s) * (x - s) * (x - s) * ((2 * s * x - (s * s + 1)) * (2 * s * x - (s * s + 1)))))
    end.
  Lemma q4_s : forall a s, nonsing a -> q4 F a s = 0 -> s <> 0 /\ s * s + 1 <> 0 /\ s * s - 1 <> 0.
  Proof.
    intros a s NS H. split; [|split].
    - intros ->. apply (k_one_nz F). rewrite <- H. unfold q4. ring.
    - intros E. assert (E2 : s * s = - (1)) by (apply k_sub_eq; rewrite <- E; ring).
      assert (H4 : q4 F a s = - (4)).
      { unfold q4. transitivity (s * s * (s * s) + 2 * a * s * (s * s + 1) + 6 * (s * s) + 1); [ring|]. rewrite E, E2. ring. }
      apply (k_mul_nz F 2 2 two_nz two_nz). transitivity (- - (4) : F); [ring|]. rewrite <- H4, H. ring.
    - intros E. assert (E2 : s * s = 1) by (apply k_sub_eq; exact E). apply NS.
      assert (H4 : 4 * (a * s + 2) = 0).
      { rewrite <- H. unfold q4. transitivity (1 + 2 * a * s + 6 + 2 * a * s + 1); [ring|]. transitivity (s * s * (s * s) + 2 * a * s * (s * s) + 6 * (s * s) + 2 * a * s + 1); [rewrite E2; ring|ring]. }
      destruct (k_integral F _ _ H4) as [G|G]; [destruct (k_mul_nz F 2 2 two_nz two_nz G)|].
      assert (G2 : a * s = - (2)) by (apply k_sub_eq; rewrite <- G; ring).
      transitivity ((a * s) * (a * s)); [transitivity (a * a * (s * s)); [rewrite E2; ring|ring]|]. rewrite G2. ring.
  Qed.
  Lemma q4_a : forall a s, nonsing a -> q4 F a s = 0 -> a = - (s * s * (s * s) + 6 * (s * s) + 1) / (2 * s * (s * s + 1)).
  Proof.
    intros a s NS H. destruct (q4_s a s NS H) as (N & N1 & _). apply (k_cancel F (2 * s * (s * s + 1))); [nz1|].
    transitivity (q4 F a s - (s * s * (s * s) + 6 * (s * s) + 1)); [unfold q4; ring|]. rewrite H. field. fnz.
  Qed.
  Lemma phi4_onc : forall a s ys P, nonsing a -> q4 F a s = 0 -> onc a (Aff s ys) -> onc a P -> onc (cod4 F s) (phi4 s ys P).
  Proof.
    intros a s ys [|x y] NS H HS HO; [exact I|]. unfold phi4. destruct (k_dec x s) as [e|e]; [exact I|]. destruct (k_dec (2 * s * x) (s * s + 1)) as [f|f]; [exact I|]. cbn [MontCurve.onc] in *.
    destruct (q4_s a s NS H) as (N & N1 & N2). assert (D : x - s <> 0) by (apply k_sub_nz; exact e). assert (D2 : 2 * s * x - (s * s + 1) <> 0) by (apply k_sub_nz; exact f).
    assert (E : forall g d : F, d <> 0 -> 1 * ((im * (ys * (s * s + 1) / (s * s - 1)) * y * g) / d * ((im * (ys * (s * s + 1) / (s * s - 1)) * y * g) / d))
      = (im * im) * (1 * (ys * ys)) * (1 * (y * y)) * ((s * s + 1) / (s * s - 1) * (g / d) * ((s * s + 1) / (s * s - 1) * (g / d)))) by (intros; field; fnz).
    rewrite E by nz1. rewrite HO, HS, im_sq. unfold cod4, g4. rewrite (q4_a a s NS H). field. fnz.
  Qed.
  Lemma phi4_x : forall a s ys P, nonsing a -> q4 F a s = 0 -> onc a P -> eqv (iso4 F s (xp P)) (xp (phi4 s ys P)).
  Proof.
    intros a s ys [|x y] NS H HO; cbn [phi4]; destruct (q4_s a s NS H) as (N & N1 & N2).
    - exists (- (s * s * (s * s + 1))). cbn [SIDH_Points.xp iso4 fst snd]. split; [|split; ring].
      intros E. apply (k_mul_nz F (s * s) (s * s + 1)); [nz1|assumption|]. transitivity (- - (s * s * (s * s + 1))); [ring|]. rewrite E. ring.
    - destruct (k_dec x s) as [->|e].
      + exists (s * ((s * s - 1) * (s * s - 1)) * (s * (1 - s * s))). cbn [SIDH_Points.xp iso4 fst snd]. split; [|split; ring].
        nz1. intros E. apply N2. transitivity (- (1 - s * s)); [ring|]. rewrite E. ring.
      + destruct (k_dec (2 * s * x) (s * s + 1)) as [f|f].
        * exists (x * ((x * s - 1) * (x * s - 1)) * (2 * s * 1 - (s * s + 1) * x)). cbn [SIDH_Points.xp iso4 fst snd]. split; [|split].
          2: { ring. }
          2: { replace (2 * s * x - (s * s + 1) * 1) with (2 * s * x - (s * s + 1)) by ring. rewrite f. ring. }
          assert (EX : x = (s * s + 1) / (2 * s)) by (apply (k_cancel F (2 * s)); [nz1|]; rewrite f; field; fnz).
          assert (A1 : x * s - 1 <> 0).
          { intros E. apply N2. transitivity (2 * (x * s - 1)); [|rewrite E; ring]. transitivity (2 * s * x - 2); [rewrite f; ring|ring]. }
          assert (A2 : 2 * s * 1 - (s * s + 1) * x <> 0).
          { intros E. assert (E2 : 2 * s * (2 * s * 1 - (s * s + 1) * x) = 0) by (rewrite E; ring).
            assert (E3 : (s * s - 1) * (s * s - 1) = 0).
            { transitivity (- (2 * s * (2 * s * 1 - (s * s + 1) * x))); [|rewrite E2; ring].
              transitivity (- (4 * (s * s) - (s * s + 1) * (2 * s * x))); [rewrite f; ring|ring]. }
            apply N2. apply k_sqr_0. exact E3. }
          nz1. rewrite EX. intros E. apply N1. transitivity (2 * s * ((s * s + 1) / (2 * s))); [field; fnz|rewrite E; ring].
        * assert (D : x - s <> 0) by (apply k_sub_nz; exact e). assert (D2 : 2 * s * x - (s * s + 1) <> 0) by (apply k_sub_nz; exact f).
          exists ((x - s) * (x - s) * (2 * s * x - (s * s + 1))). cbn [SIDH_Points.xp iso4 fst snd]. split; [nz1|]. split; [field; fnz|ring].
  Qed.
  Lemma dbl_s : forall a s ys, nonsing a -> q4 F a s = 0 -> onc a (Aff s ys) -> exists w, padd a (Aff s ys) (Aff s ys) = Aff w 0 /\ 2 * s * w = s * s + 1.
  Proof.
    intros a s ys NS H HS. destruct (q4_s a s NS H) as (N & N1 & N2). cbn [MontCurve.onc] in HS.
    assert (Y : ys <> 0).
    { intros E. subst ys. rewrite (q4_a a s NS H) in HS. assert (E : s * ((s * s - 1) * (s * s - 1)) = 0).
      { transitivity (2 * (s * s + 1) * (1 * (0 * 0))); [|ring]. rewrite HS. field. fnz. }
      destruct (k_integral F _ _ E) as [G|G]; [contradiction|]. apply N2, k_sqr_0, G. }
    cbn [MontCurve.padd]. destruct (k_dec s s) as [_|C]; [|congruence]. destruct (k_dec ys (- ys)) as [C|C]; [destruct Y; apply (y_neg F two_nz), C|].
    unfold chord. set (l := (3 * (s * s) + 2 * a * s + 1) / (2 * 1 * ys)).
    set (q := s * ((s * s - 1) * (s * s - 1)) / (2 * (s * s + 1))).
    assert (YQ : ys * ys = q) by (transitivity (1 * (ys * ys)); [ring|]; rewrite HS, (q4_a a s NS H); unfold q; field; fnz).
    assert (QN : q <> 0) by (rewrite <- YQ; nz1).
    set (m := 3 * (s * s) + 2 * a * s + 1) in *.
    assert (L2 : l * l = m * m / (4 * q)) by (rewrite <- YQ; unfold l; field; fnz).
    assert (LY : l * ys * 2 = m) by (unfold l; field; fnz).
    assert (W : 1 * (l * l) - a - s - s = (s * s + 1) / (2 * s)).
    { rewrite L2. unfold m, q. rewrite (q4_a a s NS H). field. fnz. }
    exists ((s * s + 1) / (2 * s)). split; [|field; fnz]. rewrite W. f_equal.
    apply (k_cancel F (2 * ys)); [nz1|]. transitivity ((l * ys * 2) * (s - (s * s + 1) / (2 * s)) - 2 * (ys * ys)); [ring|].
    rewrite LY, YQ. unfold m, q. rewrite (q4_a a s NS H). field. fnz.
  Qed.
  Lemma phi4_ker : forall a s ys P, nonsing a -> q4 F a s = 0 -> onc a (Aff s ys) -> onc a P ->
    (phi4 s ys P = Inf <-> P = Inf \/ P = Aff s ys \/ P = pneg (Aff s ys) \/ P = padd a (Aff s ys) (Aff s ys)).
  Proof.
    intros a s ys [|x y] NS H HS HP; cbn [phi4]; [tauto|]. destruct (dbl_s a s ys NS H HS) as (w & EW & W).
    destruct (q4_s a s NS H) as (N & N1 & N2). pose proof (padd_onc F a 1 two_nz (k_one_nz F) _ _ HS HS) as HW. rewrite EW in HW |- *.
    assert (WS : w <> s). { intros ->. apply N2. transitivity (2 * s * s - s * s - 1); [ring|]. rewrite W. ring. }
    destruct (k_dec x s) as [->|e].
    - split; [intros _|reflexivity]. right. destruct (same_x F a 1 (k_one_nz F) s y ys HP HS) as [->| ->]; [left|right; left]; reflexivity.
    - destruct (k_dec (2 * s * x) (s * s + 1)) as [f|f].
      + split; [intros _|reflexivity]. assert (XW : x = w) by (apply (k_cancel F (2 * s)); [nz1|congruence]). subst x.
        right; right; right. destruct (same_x F a 1 (k_one_nz F) w y 0 HP HW) as [->| ->]; [reflexivity|]. f_equal. ring.
      + split; [discriminate|]. cbn [MontCurve.pneg]. intros [G|[G|[G|G]]]; [discriminate|injection G; contradiction|injection G; contradiction|].
        injection G. intros _ E. subst x. contradiction.
  Qed.
  Lemma q4_of : forall a s ys, nonsing a -> onc a (Aff s ys) -> pmul a 4 (Aff s ys) = Inf -> pmul a 2 (Aff s ys) <> Inf -> pmul a 2 (Aff s ys) <> Aff 0 0 ->
    q4 F a s = 0.
  Proof.
    intros a s ys NS HS H4 H2 H0. change 4%Z with (2 * 2)%Z in H4. rewrite (pmul_mul F a 1 two_nz (k_one_nz F) NS) in H4 by (assumption || lia).
    rewrite MontLadder.pmul_2 in H4. pose proof (pmul_onc F a 1 two_nz (k_one_nz F) 2 _ HS) as HD. rewrite (MontLadder.pmul_2 F a 1 (Aff s ys)) in *.
    pose proof (xp_dbl F two_nz a NS _ HS) as E. destruct (padd a (Aff s ys) (Aff s ys)) as [|w z]; [contradiction|].
    apply padd_eq_inf in H4. cbn [MontCurve.pneg] in H4. assert (Z0' : z = 0) by (injection H4 as E'; apply (y_neg F two_nz), E'). subst z. cbn [MontCurve.onc] in HD.
    assert (NW : w <> 0) by (intros ->; apply H0; reflexivity).
    assert (G : w * (w * w + a * w + 1) = 0) by (transitivity (1 * (0 * 0) : F); [rewrite HD; ring|ring]).
    destruct (k_integral F _ _ G) as [G1|G1]; [contradiction|].
    destruct (q4_half F two_nz a (xp (Aff s ys)) NS (xp_nz F _)) as [_ Q].
    - apply (q2h_eqv F a _ _ (eqv_sym F _ _ E)). unfold q2h. cbn [SIDH_Points.xp fst snd]. rewrite <- G1. ring.
    - cbn [SIDH_Points.xp] in Q. rewrite aff_1 in Q. exact Q.
  Qed.

  (* ---------- the chain of isogenies, one at a time ---------- *)
  Definition xof (P : pnt F) : F := match P with MontCurve.Inf _ => 0 | MontCurve.Aff _ x _ => x end.
  Definition yof (P : pnt F) : F := match P with MontCurve.Inf _ => 0 | MontCurve.Aff _ _ y => y end.
  (* R of order 3^n: divide by [3^(n-1)]R, then by the image of [3^(n-2)]R, ...: the last curve and the map to it *)
  Fixpoint naive3 (n : nat) (a : F) (R : pnt F) : F * (pnt F -> pnt F) :=
    match n with
    | O => (a, fun Q => Q)
    | S n => let t := xof (pmul a (3 ^ Z.of_nat n) R) in
             let w := naive3 n (cod3 F a t) (phi3 t R) in (fst w, fun Q => snd w (phi3 t Q))
    end.
  Fixpoint naive4 (n : nat) (a : F) (R : pnt F) : F * (pnt F -> pnt F) :=
    match n with
    | O => (a, fun Q => Q)
    | S n => let T := pmul a (4 ^ Z.of_nat n) R in
             let w := naive4 n (cod4 F (xof T)) (phi4 (xof T) (yof T) R) in (fst w, fun Q => snd w (phi4 (xof T) (yof T) Q))
    end.
  Lemma eqv_xof : forall P t, eqv (xp P) (t, 1) -> P = Aff t (yof P).
  Proof.
    intros [|x y] t (k & NK & E1 & E2); cbn [SIDH_Points.xp fst snd yof] in *.
    - destruct NK. rewrite E2. ring.
    - f_equal. rewrite E1. transitivity (1 * t); [rewrite E2; ring|ring].
  Qed.
  Lemma pow4_2 : forall n, (4 ^ Z.of_nat n = 2 ^ Z.of_nat (2 * n))%Z.
  Proof. intros n. rewrite Nat2Z.inj_mul. change 4%Z with (2 ^ 2)%Z. rewrite <- Z.pow_mul_r by lia. reflexivity. Qed.
  Lemma naive3_walk : forall n a R, nonsing a -> onc a R -> ord3 F a n (xp R) ->
    fst (naive3 n a R) = fst (walk3 F n a (xp R)) /\
    forall Q, onc a Q -> onc (fst (naive3 n a R)) (snd (naive3 n a R) Q) /\ eqv (snd (walk3 F n a (xp R)) (xp Q)) (xp (snd (naive3 n a R) Q)).
  Proof.
    induction n as [|n IH]; intros a R NS HR O; [split; [reflexivity|]; intros Q HQ; split; [exact HQ|apply eqv_refl]|].
    pose proof (ord3_nz F two_nz _ _ _ O) as N. destruct O as (t & E & T). cbn [naive3 walk3 fst snd]. rewrite (eqv_aff1 F _ _ E).
    pose proof (eqv_trans F _ _ _ (eqv_sym F _ _ (xp_tpls F two_nz a NS n R HR)) E) as E'. apply eqv_xof in E'. rewrite E'. cbn [xof]. clear E'.
    pose proof (phi3_x a t R T NS) as ER. pose proof (phi3_onc a t R T HR) as OR.
    pose proof (xh_cod _ _ _ _ (xhom3 F two_nz a t NS T)) as NS'.
    pose proof (iso3_ord3 F two_nz a t n _ NS T N E) as O'.
    destruct (IH (cod3 F a t) (phi3 t R) NS' OR (ord3_eqv F _ _ _ _ ER O')) as [A B].
    destruct (walk3_eqv F n (cod3 F a t) _ _ ER) as [W1 W2].
    split; [rewrite W1; exact A|]. intros Q HQ. pose proof (phi3_onc a t Q T HQ) as OQ. destruct (B _ OQ) as [B1 B2]. split; [exact B1|].
    eapply eqv_trans; [|exact B2]. rewrite W2. apply (xh_eqv _ _ _ _ (proj1 (walk3_hom F two_nz n _ _ NS' (ord3_eqv F _ _ _ _ ER O')))).
    apply (phi3_x a t Q T NS).
  Qed.
  Lemma naive4_walk : forall n a R, nonsing a -> onc a R -> ord4 F a n (xp R) ->
    fst (naive4 n a R) = fst (walk4 F n a (xp R)) /\
    forall Q, onc a Q -> onc (fst (naive4 n a R)) (snd (naive4 n a R) Q) /\ eqv (snd (walk4 F n a (xp R)) (xp Q)) (xp (snd (naive4 n a R) Q)).
  Proof.
    induction n as [|n IH]; intros a R NS HR O; [split; [reflexivity|]; intros Q HQ; split; [exact HQ|apply eqv_refl]|].
    pose proof (ord4_nz F two_nz _ _ _ NS O) as N. destruct O as (t & E & T). cbn [naive4 walk4 fst snd]. rewrite (eqv_aff1 F _ _ E), pow4_2.
    pose proof (eqv_trans F _ _ _ (eqv_sym F _ _ (xp_dbls F two_nz a NS (2 * n) R HR)) E) as E'. apply eqv_xof in E'.
    assert (OT : onc a (pmul a (2 ^ Z.of_nat (2 * n)) R)) by (apply (pmul_onc F a 1 two_nz (k_one_nz F)), HR).
    set (y := yof (pmul a (2 ^ Z.of_nat (2 * n)) R)) in *. clearbody y. rewrite E' in OT |- *. cbn [xof]. clear E'.
    pose proof (phi4_x a t y R NS T HR) as ER. pose proof (phi4_onc a t y R NS T OT HR) as OR.
    pose proof (xh_cod _ _ _ _ (xhom4 F two_nz a t NS T)) as NS'.
    pose proof (iso4_ord4 F two_nz a t n _ NS T N E) as O'.
    destruct (IH (cod4 F t) (phi4 t y R) NS' OR (ord4_eqv F _ _ _ _ ER O')) as [A B].
    destruct (walk4_eqv F n (cod4 F t) _ _ ER) as [W1 W2].
    split; [rewrite W1; exact A|]. intros Q HQ. pose proof (phi4_onc a t y Q NS T OT HQ) as OQ. destruct (B _ OQ) as [B1 B2]. split; [exact B1|].
    eapply eqv_trans; [|exact B2]. rewrite W2. apply (xh_eqv _ _ _ _ (proj1 (walk4_hom F two_nz n _ _ NS' (ord4_eqv F _ _ _ _ ER O')))).
    apply (phi4_x a t y Q NS T HQ).
  Qed.
  Lemma ord3_order : forall a n R, nonsing a -> onc a R -> pmul a (3 ^ Z.of_nat n) R <> Inf -> pmul a (3 ^ Z.of_nat (S n)) R = Inf -> ord3 F a (S n) (xp R).
  Proof.
    intros a n R NS HR H1 H2. assert (P3 : (0 <= 3 ^ Z.of_nat n)%Z) by (apply Z.pow_nonneg; lia).
    rewrite Nat2Z.inj_succ, Z.pow_succ_r, (pmul_mul F a 1 two_nz (k_one_nz F) NS) in H2 by (assumption || lia).
    pose proof (xp_tpls F two_nz a NS n R HR) as E. pose proof (pmul_onc F a 1 two_nz (k_one_nz F) (3 ^ Z.of_nat n) R HR) as OT.
    destruct (pmul a (3 ^ Z.of_nat n) R) as [|t y]; [contradiction|]. exists t. split; [exact E|]. apply (psi3_of a t y); assumption.
  Qed.
  Lemma ord4_order : forall a n R, nonsing a -> onc a R ->
    pmul a (2 * 4 ^ Z.of_nat n) R <> Inf -> pmul a (2 * 4 ^ Z.of_nat n) R <> Aff 0 0 -> pmul a (4 ^ Z.of_nat (S n)) R = Inf -> ord4 F a (S n) (xp R).
  Proof.
    intros a n R NS HR H0 H1 H2. assert (P3 : (0 <= 4 ^ Z.of_nat n)%Z) by (apply Z.pow_nonneg; lia).
    rewrite Nat2Z.inj_succ, Z.pow_succ_r, (pmul_mul F a 1 two_nz (k_one_nz F) NS) in H2 by (assumption || lia).
    rewrite (pmul_mul F a 1 two_nz (k_one_nz F) NS) in H0, H1 by (assumption || lia).
    pose proof (xp_dbls F two_nz a NS (2 * n) R HR) as E. rewrite <- pow4_2 in E. pose proof (pmul_onc F a 1 two_nz (k_one_nz F) (4 ^ Z.of_nat n) R HR) as OT.
    destruct (pmul a (4 ^ Z.of_nat n) R) as [|t y]; [destruct H0; reflexivity|]. exists t. split; [exact E|]. apply (q4_of a t y); assumption.
  Qed.
End IsoPoints.

Section I.
  Variable F : fld.
  Add Field Fg : (k_th F).
  Lemma pair_i : (ksub (kmul k0 k0) (kmul k1 k1), kadd (kmul k0 k1) (kmul k1 k0)) = (kopp k1, kopp k0) :> F * F.
  Proof. f_equal; ring. Qed.
End I.
(* i = (0, 1) in GF(p^2) *)
Lemma fp2_i : forall p pp p34, exists im : Fp2 p pp p34, kmul im im = kopp k1.
Proof. intros p pp p34. exists ((k0 : Fp p pp), (k1 : Fp p pp)). exact (pair_i (Fp p pp)). Qed.
