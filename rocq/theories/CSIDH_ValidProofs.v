(* What the search of Validate (csidh.go:70-116, 295-313) establishes about the curve. *)
From Coq Require Import ZArith Znumtheory List Lia Bool Field.
From Verif Require Import Lib MP NT Instr CSIDH_Field CSIDH_FieldProofs CSIDH_FieldProofs2 CSIDH_Curve CSIDH_Model
  CSIDH_ApiProofs CSIDH_GaProofs FieldAlg MontCurve MontAssoc MontLadder MontIso CSIDH_CurveProofs.
Import ListNotations.
Open Scope Z_scope.

Add Field Fqf' : (k_th Fq).
Notation cofMul := (cofactorMul fpOps fpZero one four isZero).
Notation xMulF := (xMul fpOps fpZero one four).
Notation xMul_ipF := (xMul_ip fpOps fpZero one four).
Notation xDblF := (xDbl fpOps fpZero one four).
Definition tt (_ : nat) : bool := true.
Definition others (i j : nat) : bool := negb (j =? i)%nat.

Lemma psel_cons : forall i l, psel tt (i :: l) = lp i * psel tt l. Proof. reflexivity. Qed.
Lemma le_xyz : forall x y z, 1 <= x -> 1 <= y -> 1 <= z -> y <= 4 * (x * (y * z)).
Proof. intros x y z Hx Hy Hz. assert (1 <= x * z) by nia. replace (x * (y * z)) with (y * (x * z)) by ring. nia. Qed.
Lemma mulRange_ok : forall lo hi, (lo <= hi <= 74)%nat -> fp_ok (mulRange lo hi) /\ val (mulRange lo hi) = psel tt (seq lo (hi - lo)).
Proof.
  intros lo hi H. unfold mulRange.
  assert (G : forall n s c w, (s + n <= 74)%nat -> fp_ok c -> val c = w -> 1 <= w -> w * psel tt (seq s n) <= P + 1 ->
     let r := fold_left (fun m i => mul512 m (nth i primes 0)) (seq s n) c in fp_ok r /\ val r = w * psel tt (seq s n)).
  { induction n; intros s c w Hs Fc V W Hle; cbn zeta.
    - cbn [seq fold_left psel fold_right]. split; [exact Fc|lia].
    - change (seq s (S n)) with (s :: seq (S s) n) in *. rewrite psel_cons in *. cbn [fold_left]. change (nth s primes 0) with (lp s).
      pose proof (primes_range s ltac:(lia)) as R. pose proof (psel_pos tt (seq (S s) n) ltac:(apply idx_seq; lia)) as Ps.
      rewrite Z.mul_assoc in Hle. set (q := psel tt (seq (S s) n)) in *.
      assert (Hw : 1 <= w * lp s) by nia. assert (Hw2 : w * lp s <= w * lp s * q) by nia.
      destruct (lp_mul_exact c w s Fc V ltac:(lia)) as [F1 V1].
      destruct (IHn (S s) _ _ ltac:(lia) F1 V1 Hw Hle) as [F2 V2]. split; [exact F2|]. rewrite V2. symmetry. apply Z.mul_assoc. }
  destruct (small_ok 1 ltac:(unfold is_w64; lia)) as [F1 V1].
  assert (Bd : 1 * psel tt (seq lo (hi - lo)) <= P + 1).
  { rewrite Z.mul_1_l. rewrite <- psel_all. unfold all74. replace 74%nat with (lo + ((hi - lo) + (74 - hi)))%nat by lia.
    rewrite !seq_app, !psel_app. change (fun _ : nat => true) with tt. replace (0 + lo)%nat with lo by lia.
    pose proof (psel_pos tt (seq 0 lo) ltac:(apply idx_seq; lia)).
    pose proof (psel_pos tt (seq lo (hi - lo)) ltac:(apply idx_seq; lia)).
    pose proof (psel_pos tt (seq (lo + (hi - lo)) (74 - hi)) ltac:(apply idx_seq; lia)). apply le_xyz; assumption. }
  destruct (G (hi - lo)%nat lo (small 1) 1 ltac:(lia) F1 V1 ltac:(lia) Bd) as [F2 V2]. split; [exact F2|]. rewrite V2. apply Z.mul_1_l.
Qed.
Lemma psel_ge3 : forall l, idx l -> l <> [] -> 3 <= psel tt l.
Proof.
  intros l H N. destruct l as [|x l]; [contradiction|]. inversion H; subst. rewrite psel_cons.
  pose proof (primes_range x ltac:(assumption)). pose proof (psel_pos tt l ltac:(assumption)). nia.
Qed.
Lemma psel_none : forall l, psel (fun _ => false) l = 1.
Proof. induction l; [reflexivity|]. cbn [psel fold_right]. exact IHl. Qed.

Section Cof.
  Variables (a b : Fq) (co : list Z * list Z).
  Hypothesis b_nz : b <> k0.
  Hypothesis a_ok : smooth a.
  Hypothesis Hco : crep co a.
  Notation onc := (onc Fq a b). Notation padd := (padd Fq a b). Notation pmul := (pmul Fq a b). Notation Inf := (Inf Fq).

  (* no positive multiple of Pt is the point (0,0) *)
  Definition no_origin (Pt : pnt) : Prop := forall k, 0 < k -> pmul k Pt <> Inf -> xco Fq (pmul k Pt) <> k0.
  Definition wrep (q : list Z * list Z) (Pt : pnt) : Prop := (exists X, prep2 q X k0) \/ zrep q Pt.

  Lemma no_origin_mul : forall k Pt, onc Pt -> 0 < k -> no_origin Pt -> no_origin (pmul k Pt).
  Proof.
    intros k Pt HP Hk N j Hj. rewrite <- (pmul_mul Fq a b two_nz b_nz a_ok) by (assumption || lia). apply N. nia.
  Qed.
  Lemma no_origin_1 : forall Pt, no_origin Pt -> Pt <> Inf -> xco Fq Pt <> k0.
  Proof. intros Pt N NI. specialize (N 1 ltac:(lia)). rewrite pmul_1 in N. exact (N NI). Qed.

  (* any multiplication keeps the weak representation *)
  Lemma xMul_wrep : forall q k Pt, onc Pt -> wrep q Pt -> fp_ok k -> 1 < val k ->
    wrep (xMulF q co k) (pmul (val k) Pt) /\ wrep (xMul_ipF q co k) (pmul (val k) Pt).
  Proof.
    intros q k Pt HP HW Fk Hk.
    assert (I0 : zrep q Inf -> wrep (xMulF q co k) (pmul (val k) Pt) /\ wrep (xMul_ipF q co k) (pmul (val k) Pt)).
    { intros HZ. destruct (xMul_zrep a b b_nz a_ok q co k Inf Hco I HZ ltac:(intros h; contradiction) Fk ltac:(lia)) as [(X1 & Z1 & R1 & E1) (X2 & Z2 & R2 & E2)].
      rewrite (pmul_inf Fq a b) in E1, E2. split; left; [exists X1; rewrite <- E1; exact R1 | exists X2; rewrite <- E2; exact R2]. }
    destruct HW as [(X & HX)|HZ].
    - apply I0. exists X, k0. split; [exact HX|reflexivity].
    - destruct Pt as [|x y]; [apply I0; exact HZ|]. destruct (k_dec x k0) as [->|N].
      + destruct (xMul_origin_limb a q co k y Hco HZ Fk Hk) as [O1 O2].
        assert (W : forall q' : list Z * list Z, fp_red (fst q') -> frep (snd q') k0 -> forall Qt, wrep q' Qt).
        { intros q' F' S' Qt. left. destruct (frep_exists _ F') as [X' HX']. exists X'. split; assumption. }
        destruct HZ as (X & Z & [HX HZ] & _). destruct Hco as (A & C & [HA HC] & _).
        split; apply W; try assumption; unfold xMul, xMul_ip, get; cbn [fst snd px pz];
        match goal with |- context [run fpOps (xMul_code ?kP _ _ _) _] =>
          pose proof (run_sim _ _ _ sim_fp (xMul_code kP (mkpl 0 1) (mkpl 2 3) k) (frameL [fst q; snd q; fst co; snd co]) (frameA [X; Z; A; C])
          (xMul_pok _ _ _ _) ltac:(fs)) as S end; apply S.
      + destruct (xMul_zrep a b b_nz a_ok q co k (Aff Fq x y) Hco HP HZ ltac:(intros _; exact N) Fk ltac:(lia)) as [Z1 Z2]. split; right; assumption.
  Qed.

  Lemma zero_zrep : forall q Pt, zrep q Pt -> isZero (snd q) = true <-> Pt = Inf.
  Proof.
    intros q Pt (X & Z & [HX HZ] & R). rewrite (frep_isZero _ _ HZ). destruct Pt as [|x y]; split; intros H; auto.
    - destruct R. contradiction.
    - discriminate.
  Qed.
  Lemma nonzero_wrep : forall q Pt, wrep q Pt -> isZero (snd q) = false -> zrep q Pt /\ Pt <> Inf.
  Proof.
    intros q Pt [(X & HX & HZ)|HZ] E.
    - apply (frep_isZero _ _) in HZ. assert (T : isZero (snd q) = true) by (apply HZ; reflexivity). congruence.
    - split; [exact HZ|]. intros h. apply (zero_zrep q Pt HZ) in h. congruence.
  Qed.

  Lemma cof_ok : forall (G : Prop) fuel q Pt L R order w, (L < R <= 74)%nat -> (R - L <= fuel)%nat -> onc Pt ->
    wrep q Pt -> (G -> no_origin Pt /\ zrep q Pt) -> fp_ok order -> val order = w -> 1 <= w -> w * psel tt (seq L (R - L)) <= P + 1 ->
    let r := cofMul fuel q co L R order in
    exists f, fp_ok (snd r) /\ val (snd r) = w * psel f (seq L (R - L)) /\
      (G -> forall i, (L <= i < R)%nat -> f i = true ->
         pmul (psel (others i) (seq L (R - L))) Pt <> Inf /\ pmul (psel tt (seq L (R - L))) Pt = Inf) /\
      (snd (fst r) = true -> val fourSqrtP < val (snd r)) /\
      (fst (fst r) = true -> snd (fst r) = true \/ pmul (psel tt (seq L (R - L))) Pt <> Inf).
  Proof.
    intros G. induction fuel as [|fuel IH]; intros q Pt L R order w HLR Hfu HP HW HZ Fo Vo Ww Hle; [lia|].
    cbn [cofactorMul]. change (car fpOps) with (list Z). destruct (Nat.eqb_spec (R - L) 1) as [E1|N1].
    - (* leaf *)
      rewrite E1 in *. change (seq L 1) with [L] in *.
      assert (T1 : psel tt [L] = lp L) by (rewrite psel_cons; apply Z.mul_1_r).
      assert (T0 : psel (fun _ => false) [L] = 1) by reflexivity.
      assert (TL : psel (others L) [L] = 1) by (cbn [psel fold_right]; unfold others; rewrite Nat.eqb_refl; reflexivity).
      rewrite T1 in *.
      pose proof (primes_range L ltac:(lia)) as RL.
      destruct (isZero (snd q)) eqn:Z0; cbn [negb].
      { exists (fun _ => false). cbn [fst snd]. rewrite T0. split; [exact Fo|]. split; [lia|]. split; [intros; discriminate|]. split; intros; discriminate. }
      destruct (nonzero_wrep q Pt HW Z0) as [HZq NI].
      change (nth L primes 0) with (lp L). destruct (small_ok (lp L) (lp_w L)) as [Fs Vs].
      destruct (xMul_wrep q (small (lp L)) Pt HP HW Fs ltac:(lia)) as [_ W']. rewrite Vs in W'.
      destruct (isZero (@snd (list Z) (list Z) (xMul_ipF q co (small (lp L))))) eqn:Z1; cbn [negb].
      + destruct (lp_mul_exact order w L Fo Vo ltac:(nia)) as [F2 V2].
        assert (A : G -> forall i, (L <= i < R)%nat -> true = true -> pmul (psel (others i) [L]) Pt <> Inf /\ pmul (lp L) Pt = Inf).
        { intros g i Hi _. destruct (HZ g) as [NO _]. replace i with L by lia. rewrite TL, pmul_1. split; [exact NI|].
          destruct (xMul_zrep a b b_nz a_ok q co (small (lp L)) Pt Hco HP HZq ltac:(intros _; apply no_origin_1; assumption) Fs ltac:(lia)) as [_ Z2].
          rewrite Vs in Z2. apply (zero_zrep _ _ Z2). exact Z1. }
        exists tt. rewrite T1. rewrite (isLess_ok fourSqrtP _ ltac:(split; [|reflexivity]; unfold fourSqrtP; apply Forall_forall; intros x Hx; assert (T : forallb (fun w => (0 <=? w) && (w <? 2 ^ 64)) fourSqrtP = true) by (vm_compute; reflexivity); rewrite forallb_forall in T; specialize (T x Hx); unfold is_w64; lia) F2).
        destruct (Z.ltb_spec (val fourSqrtP) (val (mul512 order (lp L)))) as [h|h]; cbn [fst snd].
        * split; [exact F2|]. split; [exact V2|]. split; [exact A|]. split; [intros _; exact h|]. intros _. left. reflexivity.
        * split; [exact F2|]. split; [exact V2|]. split; [exact A|]. split; intros; discriminate.
      + exists (fun _ => false). cbn [fst snd]. rewrite T0. split; [exact Fo|]. split; [lia|]. split; [intros; discriminate|]. split; [discriminate|].
        intros _. right. destruct (nonzero_wrep _ _ W' Z1) as [_ NI']. exact NI'.
    - (* recursion *)
      set (mid := (L + (R - L + 1) / 2)%nat).
      assert (Hmid : (L < mid < R)%nat).
      { unfold mid. assert (2 <= R - L)%nat by lia. pose proof (Nat.div_mod (R - L + 1) 2 ltac:(lia)). pose proof (Nat.mod_upper_bound (R - L + 1) 2 ltac:(lia)). lia. }
      clearbody mid.
      destruct (mulRange_ok L mid ltac:(lia)) as [FR VR]. destruct (mulRange_ok mid R ltac:(lia)) as [FL VL].
      set (sL := seq L (mid - L)) in *. set (sR := seq mid (R - mid)) in *.
      assert (SS : seq L (R - L) = sL ++ sR).
      { unfold sL, sR. replace (R - L)%nat with ((mid - L) + (R - mid))%nat by lia. rewrite seq_app. f_equal. f_equal. lia. }
      assert (IL : idx sL) by (apply idx_seq; lia). assert (IR : idx sR) by (apply idx_seq; lia).
      pose proof (psel_ge3 sL IL ltac:(unfold sL; destruct (mid - L)%nat eqn:D; [lia|discriminate])) as GL.
      pose proof (psel_ge3 sR IR ltac:(unfold sR; destruct (R - mid)%nat eqn:D; [lia|discriminate])) as GR.
      rewrite SS in *. rewrite psel_app in *.
      set (mR := psel tt sL) in *. set (mL := psel tt sR) in *.
      destruct (xMul_wrep q (mulRange L mid) Pt HP HW FR ltac:(lia)) as [WQ _]. destruct (xMul_wrep q (mulRange mid R) Pt HP HW FL ltac:(lia)) as [_ WP].
      rewrite VR in WQ. rewrite VL in WP.
      assert (ZQ : G -> no_origin (pmul mR Pt) /\ zrep (xMulF q co (mulRange L mid)) (pmul mR Pt)).
      { intros g. destruct (HZ g) as [NO Zr]. split; [apply no_origin_mul; [exact HP|lia|exact NO]|]. destruct (xMul_zrep a b b_nz a_ok q co (mulRange L mid) Pt Hco HP Zr (no_origin_1 Pt NO) FR ltac:(lia)) as [Y _]. rewrite VR in Y. exact Y. }
      assert (ZP : G -> no_origin (pmul mL Pt) /\ zrep (xMul_ipF q co (mulRange mid R)) (pmul mL Pt)).
      { intros g. destruct (HZ g) as [NO Zr]. split; [apply no_origin_mul; [exact HP|lia|exact NO]|]. destruct (xMul_zrep a b b_nz a_ok q co (mulRange mid R) Pt Hco HP Zr (no_origin_1 Pt NO) FL ltac:(lia)) as [_ Y]. rewrite VL in Y. exact Y. }
      assert (CQ : onc (pmul mR Pt)) by (apply (pmul_onc Fq a b two_nz b_nz); exact HP).
      assert (CP : onc (pmul mL Pt)) by (apply (pmul_onc Fq a b two_nz b_nz); exact HP).
      pose proof (IH _ _ mid R order w ltac:(lia) ltac:(lia) CQ WQ ZQ Fo Vo Ww) as IQ. fold sR mL in IQ.
      assert (Q1 : w * mL <= P + 1) by nia. specialize (IQ Q1).
      destruct (cofMul fuel (xMulF q co (mulRange L mid)) co mid R order) as [[d1 r1] o1]. cbn [fst snd] in IQ.
      destruct IQ as (f1 & F1 & V1 & A1 & B1 & D1).
      pose proof (psel_pos f1 sR IR) as P1. pose proof (psel_le f1 sR IR) as P2. change (psel (fun _ => true) sR) with mL in P2.
      assert (W1 : 1 <= w * psel f1 sR) by nia.
      pose proof (IH _ _ L mid o1 (w * psel f1 sR) ltac:(lia) ltac:(lia) CP WP ZP F1 V1 W1) as IP. fold sL mR in IP.
      assert (Q2 : w * psel f1 sR * mR <= P + 1).
      { assert (w * psel f1 sR <= w * mL) by nia. assert (w * psel f1 sR * mR <= w * mL * mR) by nia. lia. }
      specialize (IP Q2).
      destruct (cofMul fuel (xMul_ipF q co (mulRange mid R)) co L mid o1) as [[d2 r2] o2]. cbn [fst snd] in IP.
      destruct IP as (f2 & F2 & V2 & A2 & B2 & D2).
      pose proof (psel_pos f2 sL IL) as P3.
      set (f := fun i => if (i <? mid)%nat then f2 i else f1 i).
      assert (EL : psel f sL = psel f2 sL).
      { apply psel_ext. intros i Hi. unfold sL in Hi. apply in_seq in Hi. unfold f. destruct (Nat.ltb_spec i mid); [reflexivity|lia]. }
      assert (ER : psel f sR = psel f1 sR).
      { apply psel_ext. intros i Hi. unfold sR in Hi. apply in_seq in Hi. unfold f. destruct (Nat.ltb_spec i mid); [lia|reflexivity]. }
      exists f. cbn [fst snd]. rewrite psel_app, EL, ER.
      split; [exact F2|]. split; [rewrite V2; ring|].
      assert (MM : forall j k, 0 <= j -> 0 <= k -> pmul j (pmul k Pt) = pmul (k * j) Pt).
      { intros j k Hj Hk. rewrite (Z.mul_comm k j). symmetry. apply (pmul_mul Fq a b two_nz b_nz a_ok); assumption. }
      split.
      { intros g i Hi Hf. unfold f in Hf. rewrite psel_app. destruct (Nat.ltb_spec i mid) as [h|h].
        - destruct (A2 g i ltac:(lia) Hf) as [X1 X2]. pose proof (psel_pos (others i) sL IL).
          assert (EO : psel (others i) sR = mL).
          { apply psel_ext. intros j Hj. unfold sR in Hj. apply in_seq in Hj. unfold others, tt. destruct (Nat.eqb_spec j i); [lia|reflexivity]. }
          rewrite EO. rewrite MM in X1, X2 by lia. split; [rewrite Z.mul_comm; exact X1|rewrite Z.mul_comm; exact X2].
        - destruct (A1 g i ltac:(lia) Hf) as [X1 X2]. pose proof (psel_pos (others i) sR IR).
          assert (EO : psel (others i) sL = mR).
          { apply psel_ext. intros j Hj. unfold sL in Hj. apply in_seq in Hj. unfold others, tt. destruct (Nat.eqb_spec j i); [lia|reflexivity]. }
          rewrite EO. rewrite MM in X1, X2 by lia. split; assumption. }
      split.
      { intros Hr. apply orb_prop in Hr. destruct Hr as [Hr|Hr]; [|apply B2; exact Hr].
        specialize (B1 Hr). rewrite V2, <- V1. pose proof (val_bound o1 (proj1 F1)). nia. }
      intros Hd. apply orb_prop in Hd. destruct Hd as [Hd|Hd].
      + destruct (D1 Hd) as [->|X]; [left; reflexivity|right]. rewrite MM in X by lia. exact X.
      + destruct (D2 Hd) as [->|X]; [left; apply orb_true_r|right]. rewrite MM in X by lia. rewrite Z.mul_comm. exact X.
  Qed.

  Lemma zperm4 : forall c L d g, c * L * d * g = c * d * g * L. Proof. intros. ring. Qed.
  (* Q has order exactly N *)
  Definition has_order (Q : pnt) (N : Z) : Prop := pmul N Q = Inf /\ forall k, 0 < k -> pmul k Q = Inf -> (N | k).

  Lemma pmul_gcd : forall Q k N, onc Q -> 0 < k -> 0 < N -> pmul k Q = Inf -> pmul N Q = Inf -> pmul (Z.gcd k N) Q = Inf.
  Proof.
    intros Q k N HQ Hk HN E1 E2. set (d := Z.gcd k N).
    pose proof (Z.gcd_divide_l k N) as [e1 D1]. pose proof (Z.gcd_divide_r k N) as D2. fold d in D1, D2.
    assert (Hd : 0 < d). { assert (0 <= d) by apply Z.gcd_nonneg. assert (d <> 0); [|lia]. intros h. rewrite h in D2. destruct D2. lia. }
    assert (Hdn : d <= N) by (apply Z.divide_pos_le; assumption).
    destruct (Z.gcd_bezout k N d eq_refl) as (u & v & UV).
    set (u' := u mod N + N). pose proof (Z.mod_pos_bound u N HN) as BU.
    assert (M : exists w, 0 <= w /\ u' * k = d + w * N).
    { exists ((u' * k - d) / N). assert (G : d <= u' * k) by (unfold u'; nia). split; [apply Z.div_pos; lia|].
      assert (X : (u' * k - d) mod N = 0).
      { apply Z.mod_divide; [lia|]. exists (k * (1 - u / N) - v).
        unfold u'. rewrite Z.mod_eq by lia. rewrite <- UV. ring. }
      pose proof (Z.div_mod (u' * k - d) N ltac:(lia)) as DM. rewrite X in DM. lia. }
    destruct M as (w & Hw & M).
    assert (R : pmul (u' * k) Q = Inf). { rewrite (pmul_mul Fq a b two_nz b_nz a_ok) by (assumption || (unfold u'; lia)). rewrite E1. apply (pmul_inf Fq a b). }
    rewrite M in R. rewrite (pmul_add Fq a b two_nz b_nz a_ok) in R by (assumption || nia).
    rewrite (pmul_mul Fq a b two_nz b_nz a_ok w N) in R by (assumption || lia). rewrite E2, (pmul_inf Fq a b) in R.
    rewrite padd_inf_r in R. exact R.
  Qed.

  Lemma psel_rel : forall f l e, (forall i, In i l -> f i = true -> rel_prime (lp i) e) -> rel_prime (psel f l) e.
  Proof.
    intros f l e. induction l as [|x l IH]; intros H; [apply rel_prime_1|]. cbn [psel fold_right]. fold (psel f l).
    assert (R : rel_prime (psel f l) e) by (apply IH; intros; apply H; [right|]; assumption).
    destruct (f x) eqn:E; [|exact R]. apply rel_prime_sym, rel_prime_mult; apply rel_prime_sym; [apply H; [left; reflexivity|exact E]|exact R].
  Qed.

  Lemma order_of : forall Pt f, onc Pt -> (forall i, (i < 74)%nat -> prime (lp i)) ->
    (exists i, (i < 74)%nat /\ f i = true) ->
    (forall i, (i < 74)%nat -> f i = true -> pmul (psel (others i) all74) Pt <> Inf /\ pmul (psel tt all74) Pt = Inf) ->
    has_order (pmul (psel (fun i => negb (f i)) all74) Pt) (psel f all74).
  Proof.
    intros Pt f HP HL (i0 & Hi0 & Hf0) H. set (g := psel (fun i => negb (f i)) all74). set (N := psel f all74).
    assert (I74 : idx all74) by (apply idx_seq; lia).
    pose proof (psel_pos f all74 I74) as PN. pose proof (psel_pos (fun i => negb (f i)) all74 I74) as PG. fold g in PG. fold N in PN.
    assert (GN : N * g = psel tt all74) by apply psel_split.
    assert (CG : onc (pmul g Pt)) by (apply (pmul_onc Fq a b two_nz b_nz); exact HP).
    assert (T : pmul N (pmul g Pt) = Inf).
    { rewrite <- (pmul_mul Fq a b two_nz b_nz a_ok) by (assumption || lia). rewrite GN. apply (H i0 Hi0 Hf0). }
    split; [exact T|]. intros k Hk Ek.
    pose proof (pmul_gcd _ k N CG Hk ltac:(lia) Ek T) as Ed. set (d := Z.gcd k N) in *.
    destruct (Z.gcd_divide_r k N) as [e De]. fold d in De.
    assert (Hd : 0 <= d) by apply Z.gcd_nonneg.
    assert (He : 0 < e) by nia.
    assert (RP : rel_prime N e).
    { apply psel_rel. intros i Hin Hf. unfold all74 in Hin. apply in_seq in Hin.
      apply prime_rel_prime; [apply HL; lia|]. intros [c Dc].
      destruct (H i ltac:(lia) Hf) as [X _]. apply X.
      (* psel (others i) = (N / lp i) * g = c * d * g *)
      assert (EO : psel tt all74 = psel (others i) all74 * lp i).
      { apply (psel_change (others i) tt all74 i); [apply seq_NoDup|apply in_seq; lia|unfold others; rewrite Nat.eqb_refl; reflexivity|reflexivity|].
        intros j Hj. unfold others, tt. destruct (Nat.eqb_spec j i); [contradiction|reflexivity]. }
      pose proof (primes_range i ltac:(lia)).
      assert (EQ : psel (others i) all74 = c * d * g).
      { apply (Z.mul_reg_r _ _ (lp i)); [lia|]. rewrite <- EO, <- GN, De, Dc. apply zperm4. }
      assert (0 < c) by nia.
      rewrite EQ. rewrite (pmul_mul Fq a b two_nz b_nz a_ok (c * d) g) by (assumption || nia).
      rewrite (pmul_mul Fq a b two_nz b_nz a_ok c d) by (assumption || lia). rewrite Ed. apply (pmul_inf Fq a b). }
    assert (E1 : e = 1).
    { apply rel_prime_sym in RP. destruct RP as [_ _ R]. assert (D : (e | 1)). { apply R; [apply Z.divide_refl|]. exists d. lia. }
      apply Z.divide_1_r_nonneg in D; lia. }
    rewrite De, E1, Z.mul_1_l. apply Z.gcd_divide_l.
  Qed.
End Cof.

(* every element of the field is plus or minus a square *)
Lemma sqrt_pm : forall z : Fq, exists y, kmul y y = z \/ kmul y y = kopp z.
Proof.
  intros z. destruct (k_dec z k0) as [->|N]; [exists k0; left; ring|].
  assert (E34 : P mod 4 = 3) by exact P_34. pose proof P_gt2 as G2.
  set (h := (P - 1) / 2). set (c := (P + 1) / 4).
  assert (Eh : P - 1 = h * 2). { unfold h. pose proof (Z.div_mod P 4 ltac:(lia)) as D. rewrite E34 in D. replace (P - 1) with ((2 * (P / 4) + 1) * 2) by lia. rewrite Z.div_mul by lia. reflexivity. }
  assert (Ec : c * 2 = h + 1). { unfold c, h. pose proof (Z.div_mod P 4 ltac:(lia)) as D. rewrite E34 in D. replace (P - 1) with ((2 * (P / 4) + 1) * 2) by lia. replace (P + 1) with ((P / 4 + 1) * 4) by lia. rewrite !Z.div_mul by lia. lia. }
  assert (F : kpow z (P - 1) = k1) by (apply (fp_fermat P P_prime z N)).
  assert (Hh : 0 <= h) by lia. assert (Hc : 0 <= c) by lia. clearbody h c.
  rewrite Eh, kpow_mul in F by lia.
  exists (kpow z c). assert (S : kmul (kpow z c) (kpow z c) = kmul z (kpow z h)).
  { rewrite <- kpow_add by lia. replace (c + c) with (h + 1) by lia. rewrite kpow_add by lia. change (kpow z 1) with z. ring. }
  set (t := kpow z h) in *. clearbody t. change (kpow t 2) with (kmul t t) in F.
  destruct (k_sqr_eq Fq t k1) as [-> | ->].
  - rewrite F. ring.
  - left. rewrite S. ring.
  - right. rewrite S. ring.
Qed.
(* every x is the abscissa of a point of the curve or of its quadratic twist *)
Lemma point_above : forall a x : Fq, exists b y, (b = k1 \/ b = kopp k1) /\ onc Fq a b (Aff Fq x y).
Proof.
  intros a x. destruct (sqrt_pm (rhs a x)) as (y & [E|E]).
  - exists k1, y. split; [left; reflexivity|]. cbn [MontCurve.onc]. rewrite E. unfold rhs. ring.
  - exists (kopp k1), y. split; [right; reflexivity|]. cbn [MontCurve.onc]. rewrite E. unfold rhs. ring.
Qed.
Lemma pm_nz : forall b : Fq, b = k1 \/ b = kopp k1 -> b <> k0.
Proof.
  intros b [-> | ->]; [apply k_one_nz|]. intros E. apply (k_one_nz Fq). transitivity (kopp (kopp (k1 : Fq))); [ring|]. rewrite E. ring.
Qed.
Lemma randFp_red : forall rng x rest, bytes rng -> randFp rng = Some (x, rest) -> fp_red x /\ bytes rest.
Proof.
  intros rng x rest Hb H. pose proof (randFp_loop_ok (S (length rng)) rng Hb ltac:(lia)) as R. unfold randFp in H. rewrite H in R.
  destruct R as (k & _ & -> & F & _). split; [exact F|]. apply Forall_skipn. exact Hb.
Qed.

(* the curve has no point Q with [4]Q = (0,0) *)
Definition no_order8 (a : Fq) : Prop := forall b Q, (b = k1 \/ b = kopp k1) -> onc Fq a b Q -> pmul Fq a b 4 Q <> Inf Fq -> xco Fq (pmul Fq a b 4 Q) <> k0.

Lemma validLoop_sem : forall fuel A a rng res rest, frep A a -> smooth a -> bytes rng -> (forall i, (i < 74)%nat -> prime (lp i)) ->
  validLoopFp fuel A rng = Some (res, rest) ->
  if res then no_order8 a -> exists b Q f, (b = k1 \/ b = kopp k1) /\ onc Fq a b Q /\
                has_order a b Q (psel f all74) /\ val fourSqrtP < psel f all74
  else exists b Q, (b = k1 \/ b = kopp k1) /\ onc Fq a b Q /\ pmul Fq a b (P + 1) Q <> Inf Fq.
Proof.
  induction fuel as [|fuel IH]; intros A a rng res rest HA Sm Hb HL H; [discriminate|].
  unfold validLoopFp in *. cbn [validLoop] in H.
  destruct (randFp rng) as [[x rng']|] eqn:ER; [|discriminate].
  destruct (randFp_red _ _ _ Hb ER) as [Fx Hb'].
  destruct (frep_exists x Fx) as [X HX]. destruct (point_above a X) as (b & y & Pb & HP). pose proof (pm_nz b Pb) as Nb.
  set (P0 := Aff Fq X y) in *.
  assert (CR : crep (A, one) a). { exists a, k1. split; [split; [exact HA|exact frep_one]|]. split; [apply k_one_nz|ring]. }
  assert (L0 : lrep (x, one) P0). { exists X, k1. split; [split; [exact HX|exact frep_one]|]. split; [apply k_one_nz|ring]. }
  pose proof (xDbl_limb a b Nb Sm _ _ P0 CR HP L0) as L1.
  assert (C1 : onc Fq a b (padd Fq a b P0 P0)) by (apply padd_onc; auto using two_nz).
  pose proof (xDbl_limb a b Nb Sm _ _ _ CR C1 L1) as L2.
  assert (E4 : padd Fq a b (padd Fq a b P0 P0) (padd Fq a b P0 P0) = pmul Fq a b 4 P0).
  { change 4 with (2 + 2). rewrite (pmul_add Fq a b two_nz Nb Sm) by (assumption || lia). reflexivity. }
  rewrite E4 in L2. set (P4 := pmul Fq a b 4 P0) in *.
  assert (C4 : onc Fq a b P4) by (apply (pmul_onc Fq a b two_nz Nb); exact HP).
  set (q := xDblF (xDblF (x, one) (A, one)) (A, one)) in *.
  destruct (small_ok 1 ltac:(unfold is_w64; lia)) as [F1 V1].
  assert (Bd : 1 * psel tt (seq 0 (74 - 0)) <= P + 1).
  { rewrite <- psel_all. change (psel (fun _ => true) all74) with (psel tt all74). change (seq 0 (74 - 0)) with all74.
    pose proof (psel_pos tt all74 ltac:(apply idx_seq; lia)). lia. }
  pose proof (cof_ok a b (A, one) Nb Sm CR (no_order8 a) 75 q P4 0 74 (small 1) 1 ltac:(lia) ltac:(lia) C4
    ltac:(right; apply lrep_zrep; exact L2)) as CO.
  assert (NO : no_order8 a -> no_origin a b P4 /\ zrep q P4).
  { intros N8. split; [|apply lrep_zrep; exact L2]. intros k Hk. unfold P4.
    rewrite <- (pmul_mul Fq a b two_nz Nb Sm) by (assumption || lia). rewrite Z.mul_comm.
    rewrite (pmul_mul Fq a b two_nz Nb Sm) by (assumption || lia). apply N8; [exact Pb|]. apply (pmul_onc Fq a b two_nz Nb). exact HP. }
  specialize (CO NO F1 V1 ltac:(lia) Bd). change (seq 0 (74 - 0)) with all74 in CO.
  change (match cofMul 75 q (A, one) 0 74 (small 1) with
          | (true, r, _) => Some (r, rng')
          | (false, _, _) => validLoop fpOps fpZero one four isZero (fun x : list Z => x) fuel A rng' end = Some (res, rest)) in H.
  destruct (cofMul 75 q (A, one) 0 74 (small 1)) as [[d r] o]. cbn [fst snd] in CO.
  destruct CO as (f & Fo & Vo & AA & BB & DD). destruct d; [|eapply (IH A a rng' res rest HA Sm Hb' HL); exact H].
  injection H as <- <-. destruct r.
  - intros N8. specialize (AA N8). specialize (BB eq_refl). rewrite Z.mul_1_l in Vo. rewrite Vo in BB.
    exists b, (pmul Fq a b (psel (fun i => negb (f i)) all74) P4), f.
    split; [exact Pb|]. split; [apply (pmul_onc Fq a b two_nz Nb); exact C4|]. split; [|exact BB].
    apply order_of; try assumption.
    + destruct (existsb f all74) eqn:Ex.
      * apply existsb_exists in Ex. destruct Ex as (i & Hi & Hf). apply in_seq in Hi. exists i. split; [lia|exact Hf].
      * exfalso. assert (N1 : psel f all74 = 1).
        { rewrite (psel_ext f (fun _ => false)); [apply psel_none|]. intros i Hi. destruct (f i) eqn:Hf; [|reflexivity].
          assert (existsb f all74 = true) by (apply existsb_exists; exists i; split; assumption). congruence. }
        rewrite N1 in BB. apply Z.ltb_lt in BB. vm_compute in BB. discriminate BB.
    + intros i Hi Hf. apply AA; [lia|exact Hf].
  - destruct (DD eq_refl) as [h|X4]; [discriminate|]. exists b, P0. split; [exact Pb|]. split; [exact HP|].
    rewrite <- psel_all. change (psel (fun _ => true) all74) with (psel tt all74).
    pose proof (psel_pos tt all74 ltac:(apply idx_seq; lia)).
    rewrite Z.mul_comm. rewrite (pmul_mul Fq a b two_nz Nb Sm) by (assumption || lia). exact X4.
Qed.
(* a curve all of whose points (and those of its twist) are killed by P+1 has no such point *)
Lemma killed_no8 : forall a, smooth a -> (forall b Q, (b = k1 \/ b = kopp k1) -> onc Fq a b Q -> pmul Fq a b (P + 1) Q = Inf Fq) -> no_order8 a.
Proof.
  intros a Sm K b Q Pb HQ NI X. pose proof (pm_nz b Pb) as Nb. specialize (K b Q Pb HQ).
  set (T := pmul Fq a b 4 Q) in *. assert (CT : onc Fq a b T) by (apply (pmul_onc Fq a b two_nz Nb); exact HQ).
  set (n := psel tt all74). assert (En : P + 1 = n * 4) by (rewrite <- psel_all; change (psel (fun _ => true) all74) with n; lia).
  assert (Hn : 1 <= n) by (apply psel_pos, idx_seq; lia).
  rewrite En, (pmul_mul Fq a b two_nz Nb Sm) in K by (assumption || lia). fold T in K.
  destruct T as [|x y] eqn:ET; [contradiction|]. cbn [xco] in X. subst x. cbn [MontCurve.onc] in CT.
  assert (Y : y = k0). { apply (k_sqr_0 Fq). apply (k_cancel Fq b); [exact Nb|]. rewrite CT. ring. }
  assert (D : padd Fq a b (Aff Fq k0 y) (Aff Fq k0 y) = Inf Fq).
  { rewrite Y. cbn [MontCurve.padd]. destruct (k_dec (k0 : Fq) k0); [|contradiction]. destruct (k_dec (k0 : Fq) (kopp k0)) as [h|h]; [reflexivity|]. exfalso. apply h. ring. }
  assert (COnc : onc Fq a b (Aff Fq k0 y)) by exact CT.
  assert (O : exists m, n = m * 2 + 1 /\ 0 <= m).
  { exists (n / 2). assert (Z.odd n = true) by (vm_compute; reflexivity). pose proof (Z.div_mod n 2 ltac:(lia)) as DM. rewrite Zmod_odd, H in DM. split; [lia|apply Z.div_pos; lia]. }
  destruct O as (m & -> & Hm). rewrite (pmul_add Fq a b two_nz Nb Sm) in K by (assumption || lia).
  rewrite (pmul_mul Fq a b two_nz Nb Sm) in K by (assumption || lia). rewrite pmul_2, D, (pmul_inf Fq a b), pmul_1 in K. discriminate.
Qed.
