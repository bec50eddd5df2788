(* curve.go and core.go over any field implementation that simulates an abstract field: the maps of
   SIDH_Line.v, the three-point ladder, key generation and secret derivation. *)
From Coq Require Import ZArith List Lia Bool Field.
From Verif Require Import Lib MP Instr FieldAlg MontCurve MontAssoc MontLadder SIDH_Consts SIDH_Field SIDH_Curve SIDH_Line SIDH_CurveProofs SIDH_Points SIDH_Traverse.
Import ListNotations.
Open Scope Z_scope.

(* the number held by little-endian bytes *)
Definition bval (l : list Z) : Z := fold_right (fun b r => b + 256 * r) 0 l.
Lemma bval_nonneg : forall l, Forall (fun b => 0 <= b < 256) l -> 0 <= bval l.
Proof. induction 1 as [|b l H _ IH]; cbn [bval fold_right]; [lia|]. fold (bval l). lia. Qed.
Lemma bval_bit : forall l i, Forall (fun b => 0 <= b < 256) l ->
  Z.testbit (bval l) (Z.of_nat i) = Z.testbit (nth (i / 8) l 0) (Z.of_nat (i mod 8)).
Proof.
  intros l i H. revert i. induction H as [|b l Hb Hl IH]; intros i.
  - cbn [bval fold_right]. replace (nth (i / 8) [] 0) with 0 by (destruct (i / 8)%nat; reflexivity). rewrite !Z.bits_0. reflexivity.
  - cbn [bval fold_right]. fold (bval l). replace (b + 256 * bval l) with (b + bval l * 2 ^ 8) by (change (2 ^ 8) with 256; ring).
    destruct (Nat.lt_ge_cases i 8) as [L|L].
    + rewrite Nat.div_small, Nat.mod_small by lia. cbn [nth].
      rewrite <- (Z.mod_pow2_bits_low _ 8) by lia. rewrite Z_mod_plus_full, Z.mod_small by (change (2 ^ 8) with 256; lia). reflexivity.
    + replace i with (i - 8 + 1 * 8)%nat at 2 3 by lia. rewrite Nat.div_add, Nat.mod_add by lia. rewrite Nat.add_1_r. cbn [nth].
      rewrite <- IH. replace (Z.of_nat i) with (Z.of_nat (i - 8) + 8) by lia. rewrite <- Z.shiftr_spec by lia.
      rewrite Z.shiftr_div_pow2 by lia. rewrite Z.div_add by (change (2 ^ 8) with 256; lia). rewrite (Z.div_small b) by (change (2 ^ 8) with 256; lia). reflexivity.
Qed.
Lemma mod_bit : forall k i, k mod 2 ^ Z.of_nat (S i) = k mod 2 ^ Z.of_nat i + 2 ^ Z.of_nat i * Z.b2z (Z.testbit k (Z.of_nat i)).
Proof.
  intros k i. rewrite Nat2Z.inj_succ, Z.pow_succ_r, Z.mul_comm by lia. assert (0 < 2 ^ Z.of_nat i) by (apply Z.pow_pos_nonneg; lia).
  rewrite Z.rem_mul_r by lia. rewrite Z.testbit_spec' by lia. reflexivity.
Qed.
Lemma land_bit : forall b n, 0 <= n -> Z.land (Z.shiftr b n) 1 = Z.b2z (Z.testbit b n).
Proof.
  intros b n H. change 1 with (Z.ones 1). rewrite Z.land_ones by lia. rewrite Z.shiftr_div_pow2, Z.testbit_spec' by lia. reflexivity.
Qed.
Lemma scalarBit_ok : forall l i, Forall (fun b => 0 <= b < 256) l -> (i < 8 * length l)%nat ->
  scalarBit l i = Ret (Z.b2z (Z.testbit (bval l) (Z.of_nat i))).
Proof.
  intros l i H L. unfold scalarBit.
  assert (L2 : (i / 8 < length l)%nat) by (apply Nat.div_lt_upper_bound; lia).
  rewrite (nth_error_nth' l 0 L2), (bval_bit l i H). f_equal. change 7 with (Z.ones 3). rewrite Z.land_ones by lia.
  rewrite land_bit by (apply Z.mod_pos_bound; reflexivity). do 2 f_equal. change (2 ^ 3) with (Z.of_nat 8). rewrite <- Nat2Z.inj_mod. reflexivity.
Qed.

Section Impl.
  Variable F : fld.
  Hypothesis two_nz : kadd k1 k1 <> (k0 : F).
  Variables half a0 : F.
  Hypothesis half_ok : kmul (kadd k1 k1) half = k1.
  Variable V : sops.
  Variable R : car (so V) -> F -> Prop.
  Record simS : Prop := {
    ss_sim : simulates (so V) (absOps F) R;
    ss_0 : R (s0 V) k0;
    ss_1 : R (sOne V) k1;
    ss_half : R (sHalf V) half;
    ss_A : R (sCA V) a0;
    ss_C : R (sCC V) k1;
    ss_swap : forall x y x' y' c, R x x' -> R y y' -> c = 0 \/ c = 1 ->
      R (fst (scswap V x y c)) (if c =? 0 then x' else y') /\ R (snd (scswap V x y c)) (if c =? 0 then y' else x')
  }.
  Hypothesis S : simS.
  Notation VA := (absS F half a0).
  Notation pt := (pt F). Notation eqv := (eqv F). Notation nz := (nz F). Notation aff := (aff F).

  Lemma call_sim : forall c l l', prog_ok c -> Forall2 R l l' -> forall i, R (call V c l i) (call VA c l' i).
  Proof.
    intros c l l' P H i. unfold call. apply (run_sim (so V) (absOps F) R (ss_sim S)); [exact P|]. unfold args. clear i.
    induction H as [|x y l l' H _ IH]; intros [|i]; cbn [nth]; try exact (ss_0 S); [exact H|apply IH].
  Qed.
  Lemma prog_rep : forall c n, prog_ok c -> prog_ok (concat (repeat c n)).
  Proof. intros c n H. induction n as [|n IH]; cbn [repeat concat]; [constructor|]. apply Forall_app. split; assumption. Qed.
  Ltac pok := repeat (constructor; [exact I|]); constructor.
  Ltac rr := repeat (constructor; [assumption|]); constructor.

  Definition RR (x : point V) (x' : F * F) : Prop := R (fst x) (fst x') /\ R (snd x) (snd x').
  Definition RP (x : point V) (p : pt) : Prop := exists x', RR x x' /\ eqv x' p.
  Definition RC (e : curve V) (a : F) : Prop := exists e', RR e e' /\ rc F e' a.
  Definition RC4 (e : curve V) (a : F) : Prop := exists e', RR e e' /\ rc4 F e' a.
  Definition RC3 (e : curve V) (a : F) : Prop := exists e', RR e e' /\ rc3 F e' a.
  Lemma RP_eqv : forall x p q, RP x p -> eqv p q -> RP x q.
  Proof. intros x p q (x' & H & E) E'. exists x'. split; [exact H|]. eapply eqv_trans; eassumption. Qed.

  Lemma lJ : forall c a, RC c a -> nonsing F a -> R (Jinvariant V c) (jinv F a).
  Proof.
    intros [A C] a ([A' C'] & [H1 H2] & H3 & H4) NS. cbn [fst snd] in *. rewrite <- (Jinvariant_jinv F half a0 a A' C' H3 H4 NS).
    unfold Jinvariant. cbn [fst snd]. apply call_sim; [unfold Jinvariant_code; pok|rr].
  Qed.
  Lemma lRecA : forall a xp xq xr xp' xq' xr', R xp xp' -> R xq xq' -> R xr xr' -> xp' <> k0 -> xq' <> k0 -> xr' <> k0 ->
    rel F a (xp', k1) (xq', k1) (xr', k1) -> RC (RecoverCoordinateA V (InitCurve V) xp xq xr) a.
  Proof.
    intros a xp xq xr xp' xq' xr' H1 H2 H3 N1 N2 N3 HR. exists (a, k1). split.
    - pose proof (RecoverCoordinateA_ok F two_nz half a0 a (InitCurve VA) xp' xq' xr' N1 N2 N3 HR) as E.
      split; [|exact (ss_C S)]. cbn [fst snd RecoverCoordinateA]. unfold RecoverCoordinateA in E.
      apply (f_equal fst) in E. cbn [fst] in E. rewrite <- E. apply call_sim; [unfold RecoverCoordinateA_code; pok|].
      pose proof (ss_1 S). rr.
    - split; cbn [fst snd]; [apply k_one_nz|]. symmetry. destruct (k_th F) as [RT _ _ _]. rewrite (Ring_theory.Rmul_comm RT). apply (Ring_theory.Rmul_1_l RT).
  Qed.
  Lemma lEquiv3 : forall c a, RC c a -> RC3 (CalcCurveParamsEquiv3 V c) a.
  Proof.
    intros c a (c' & [H1 H2] & H). exists (CalcCurveParamsEquiv3 VA c'). split; [|apply Equiv3_ok; assumption].
    split; unfold CalcCurveParamsEquiv3; cbn [fst snd]; (apply call_sim; [unfold Equiv3_code; pok|rr]).
  Qed.
  Lemma lEquiv4 : forall c a, RC c a -> RC4 (CalcCurveParamsEquiv4 V c) a.
  Proof.
    intros c a (c' & [H1 H2] & H). exists (CalcCurveParamsEquiv4 VA c'). split; [|apply Equiv4_ok; assumption].
    split; unfold CalcCurveParamsEquiv4; cbn [fst snd]; (apply call_sim; [unfold Equiv4_code; pok|rr]).
  Qed.
  Lemma lA24 : forall c a, RC c a -> R (CalcAplus2Over4 V c) (kdiv (kadd a (kadd k1 k1)) (kmul (kadd k1 k1) (kadd k1 k1))).
  Proof.
    intros c a (c' & [H1 H2] & H). rewrite <- (Aplus2Over4_ok F two_nz half a0 c' a H).
    unfold CalcAplus2Over4. apply call_sim; [unfold Aplus2Over4_code; pok|rr].
  Qed.
  Lemma lRec3 : forall c a, RC3 c a -> RC (RecoverCurveCoefficients3 V c) a.
  Proof.
    intros c a (c' & [H1 H2] & H). exists (RecoverCurveCoefficients3 VA c'). split; [|apply Recover3_ok; assumption].
    split; unfold RecoverCurveCoefficients3; cbn [fst snd]; (apply call_sim; [unfold Recover3_code; pok|rr]).
  Qed.
  Lemma lRec4 : forall c a, RC4 c a -> RC (RecoverCurveCoefficients4 V c) a.
  Proof.
    intros c a (c' & [H1 H2] & H). exists (RecoverCurveCoefficients4 VA c'). split; [|apply Recover4_ok; assumption].
    pose proof (ss_half S). split; unfold RecoverCurveCoefficients4; cbn [fst snd]; (apply call_sim; [unfold Recover4_code; pok|rr]).
  Qed.
  Lemma lDbladd : forall a a24 x y z p q d, R a24 (kdiv (kadd a (kadd k1 k1)) (kmul (kadd k1 k1) (kadd k1 k1))) ->
    RP x p -> RP y q -> RP z d -> RP (fst (xDbladd V x y z a24)) (dbl F a p) /\ RP (snd (xDbladd V x y z a24)) (dadd F p q d).
  Proof.
    intros a a24 x y z p q d H24 (x' & [X1 X2] & EX) (y' & [Y1 Y2] & EY) (z' & [Z1 Z2] & EZ).
    destruct (xDbladd_ok F two_nz half a0 a x' y' z' _ eq_refl) as (k & K & E).
    assert (H : forall i, R (call V xDbladd_code [fst x; snd x; fst y; snd y; fst z; snd z; a24] i)
      (call VA xDbladd_code [fst x'; snd x'; fst y'; snd y'; fst z'; snd z'; kdiv (kadd a (kadd k1 k1)) (kmul (kadd k1 k1) (kadd k1 k1))] i)).
    { apply call_sim; [unfold xDbladd_code; pok|]. rr. }
    split.
    - exists (fst (xDbladd VA x' y' z' (kdiv (kadd a (kadd k1 k1)) (kmul (kadd k1 k1) (kadd k1 k1))))). split.
      + split; apply H.
      + rewrite E. apply dbl_eqv. exact EX.
    - exists (snd (xDbladd VA x' y' z' (kdiv (kadd a (kadd k1 k1)) (kmul (kadd k1 k1) (kadd k1 k1))))). split.
      + split; apply H.
      + rewrite E. cbn [snd]. eapply eqv_trans; [|apply dadd_eqv; eassumption]. exists k. split; [exact K|]. split; reflexivity.
  Qed.
  Lemma lPow2k : forall x e p a k, RP x p -> RC4 e a -> RP (Pow2k V x e k) (dbls F a (Z.to_nat k) p).
  Proof.
    intros x e p a k (x' & [X1 X2] & EX) (e' & [E1 E2] & HE). exists (Pow2k VA x' e' k). split.
    - split; unfold Pow2k; cbn [fst snd]; (apply call_sim; [apply prog_rep; unfold Pow2k_code; pok|rr]).
    - eapply eqv_trans; [apply Pow2k_ok; eassumption|]. apply dbls_eqv, EX.
  Qed.
  Lemma lPow3k : forall x e p a k, RP x p -> RC3 e a -> RP (Pow3k V x e k) (tpls F a (Z.to_nat k) p).
  Proof.
    intros x e p a k (x' & [X1 X2] & EX) (e' & [E1 E2] & HE). exists (Pow3k VA x' e' k). split.
    - split; unfold Pow3k; cbn [fst snd]; (apply call_sim; [apply prog_rep; unfold Pow3k_code; pok|rr]).
    - eapply eqv_trans; [apply Pow3k_ok; eassumption|]. apply tpls_eqv, EX.
  Qed.
  Lemma lGen3 : forall x a t, RP x (t, k1) -> nonsing F a -> psi3 F a t = k0 -> RC3 (fst (GenerateCurve3 V x)) (cod3 F a t).
  Proof.
    intros x a t (x' & [X1 X2] & EX) NS T. exists (fst (GenerateCurve3 VA x')). split; [|apply gen3_ok; assumption].
    split; unfold GenerateCurve3; cbn [fst snd]; (apply call_sim; [unfold gen3_code; pok|rr]).
  Qed.
  Lemma lEval3 : forall x t y q, RP x (t, k1) -> RP y q -> RP (EvaluatePoint3 V (snd (GenerateCurve3 V x)) y) (iso3 F t q).
  Proof.
    intros x t y q (x' & [X1 X2] & EX) (y' & [Y1 Y2] & EY). exists (EvaluatePoint3 VA (snd (GenerateCurve3 VA x')) y'). split.
    - assert (H : forall i, R (call V gen3_code [fst x; snd x] i) (call VA gen3_code [fst x'; snd x'] i)) by (apply call_sim; [unfold gen3_code; pok|rr]).
      split; unfold EvaluatePoint3, GenerateCurve3; cbn [fst snd]; (apply call_sim; [unfold eval3_code; pok|]; repeat (constructor; [assumption || apply H|]); constructor).
    - eapply eqv_trans; [apply eval3_ok; eassumption|]. apply iso3_eqv, EY.
  Qed.
  Lemma lGen4 : forall x s, RP x (s, k1) -> RC4 (fst (GenerateCurve4 V x)) (cod4 F s).
  Proof.
    intros x s (x' & [X1 X2] & EX). exists (fst (GenerateCurve4 VA x')). split; [|apply gen4_ok; assumption].
    split; unfold GenerateCurve4; cbn [fst snd]; (apply call_sim; [unfold gen4_code; pok|rr]).
  Qed.
  Lemma lEval4 : forall x s y q, RP x (s, k1) -> s <> k0 -> RP y q -> RP (EvaluatePoint4 V (snd (GenerateCurve4 V x)) y) (iso4 F s q).
  Proof.
    intros x s y q (x' & [X1 X2] & EX) NS (y' & [Y1 Y2] & EY). exists (EvaluatePoint4 VA (snd (GenerateCurve4 VA x')) y'). split.
    - assert (H : forall i, R (call V gen4_code [fst x; snd x] i) (call VA gen4_code [fst x'; snd x'] i)) by (apply call_sim; [unfold gen4_code; pok|rr]).
      split; unfold EvaluatePoint4, GenerateCurve4; cbn [fst snd]; (apply call_sim; [unfold eval4_code; pok|]; repeat (constructor; [assumption || apply H|]); constructor).
    - eapply eqv_trans; [apply (eval4_ok F two_nz half a0 s x' y' EX NS)|]. apply iso4_eqv, EY.
  Qed.
  Lemma lcswap : forall x y p q c, RP x p -> RP y q -> c = 0 \/ c = 1 ->
    RP (fst (cswapPt V x y c)) (if c =? 0 then p else q) /\ RP (snd (cswapPt V x y c)) (if c =? 0 then q else p).
  Proof.
    intros [x1 x2] [y1 y2] p q c ([x1' x2'] & [X1 X2] & EX) ([y1' y2'] & [Y1 Y2] & EY) HC. cbn [fst snd] in *. unfold cswapPt. cbn [fst snd].
    destruct (ss_swap S _ _ _ _ c X1 Y1 HC) as [A B]. destruct (ss_swap S _ _ _ _ c X2 Y2 HC) as [C D].
    destruct (scswap V x1 y1 c) as [u1 u2]. destruct (scswap V x2 y2 c) as [v1 v2]. cbn [fst snd] in *.
    destruct (c =? 0).
    - split; [exists (x1', x2')|exists (y1', y2')]; (split; [split; assumption|assumption]).
    - split; [exists (y1', y2')|exists (x1', x2')]; (split; [split; assumption|assumption]).
  Qed.
  Lemma lpub3 : forall x y z p q r, RP x p -> RP y q -> RP z r -> snd p <> k0 -> snd q <> k0 -> snd r <> k0 ->
    exists u v w, pub3 V x y z = [u; v; w] /\ R u (aff p) /\ R v (aff q) /\ R w (aff r).
  Proof.
    intros x y z p q r (x' & [X1 X2] & EX) (y' & [Y1 Y2] & EY) (z' & [Z1 Z2] & EZ) NP NQ NR.
    assert (N : forall u v, eqv u v -> snd v <> k0 -> snd u <> k0) by (intros u v E N Z; apply N; eapply eqv_snd0; eassumption).
    pose proof (Batch3Inv_ok F half a0 (snd x') (snd y') (snd z') (N _ _ EX NP) (N _ _ EY NQ) (N _ _ EZ NR)) as E.
    unfold pub3. unfold Fp2Batch3Inv in *.
    assert (H : forall i, R (call V Batch3Inv_code [snd x; snd y; snd z] i) (call VA Batch3Inv_code [snd x'; snd y'; snd z'] i)) by (apply call_sim; [unfold Batch3Inv_code; pok|rr]).
    set (m := call V Batch3Inv_code [snd x; snd y; snd z]) in *. set (m' := call VA Batch3Inv_code [snd x'; snd y'; snd z']) in *.
    injection E as E3 E4 E5.
    exists (fmul (so V) (fst x) (m 3%nat)), (fmul (so V) (fst y) (m 4%nat)), (fmul (so V) (fst z) (m 5%nat)). split; [reflexivity|].
    assert (G : forall u (u' : F * F) i w, R u (fst u') -> m' i = kinv (snd u') -> eqv u' w -> R (fmul (so V) u (m i)) (aff w)).
    { intros u u' i w HU EI EW. rewrite <- (eqv_aff F _ _ EW). unfold SIDH_Line.aff. destruct (k_th F) as [_ _ DV _]. rewrite DV, <- EI.
      apply (sim_mul _ _ _ (ss_sim S)); [exact HU|apply H]. }
    split; [apply (G _ x'); assumption|]. split; [apply (G _ y'); assumption|apply (G _ z'); assumption].
  Qed.

  (* ---------- the traversals ---------- *)
  Definition mul4 (a : F) (k : nat) (p : pt) : pt := dbls F a (2 * k) p.
  Lemma side4 : side F mul4 (fun _ s => cod4 F s) (iso4 F) (fun a s => q4 F a s = k0) (ord4 F).
  Proof.
    constructor.
    - reflexivity.
    - intros a i k p. unfold mul4. rewrite Nat.mul_add_distr_l. apply dbls_add.
    - intros. apply dbls_eqv. assumption.
    - intros a s k p NS T N. apply (dbls_hom F a _ _ (xhom4 F two_nz a s NS T)).
    - intros. apply iso4_eqv. assumption.
    - intros a n p NS O. eapply ord4_nz; eassumption.
    - intros a n p NS O. pose proof (ord4_nz F two_nz a n p NS O) as N. destruct O as (s & E & T). exists s.
      split; [exact E|]. split; [exact T|]. split; [apply (cod4_nonsing F two_nz a); assumption|]. apply (iso4_ord4 F two_nz a); assumption.
  Qed.
  Lemma side3 : side F (tpls F) (cod3 F) (iso3 F) (fun a t => psi3 F a t = k0) (ord3 F).
  Proof.
    constructor.
    - reflexivity.
    - intros. apply tpls_add.
    - intros. apply tpls_eqv. assumption.
    - intros a s k p NS T N. apply (tpls_hom F two_nz a _ _ (xhom3 F two_nz a s NS T)). exact N.
    - intros. apply iso3_eqv. assumption.
    - intros a n p NS O. eapply ord3_nz; eassumption.
    - intros a n p NS O. pose proof (ord3_nz F two_nz a n p O) as N. destruct O as (s & E & T). exists s.
      split; [exact E|]. split; [exact T|]. split; [apply (cod3_nonsing F two_nz a); assumption|]. apply (iso3_ord3 F two_nz a); assumption.
  Qed.
  Lemma impl4 : impl F mul4 (fun _ s => cod4 F s) (iso4 F) (fun a s => q4 F a s = k0) V _ (pow4 V) (GenerateCurve4 V) (EvaluatePoint4 V) RP RC4.
  Proof.
    constructor.
    - exact RP_eqv.
    - intros x e p a k HX HE HK. unfold pow4, mul4. rewrite Z.mod_small by (change (2 ^ 32) with (2 * 2 ^ 31); lia).
      replace (2 * Z.to_nat k)%nat with (Z.to_nat (2 * k)) by lia. apply lPow2k; assumption.
    - intros. apply lGen4. assumption.
    - intros x a s y q HX NS T HY. apply lEval4; [assumption| |assumption]. apply (q4_s F two_nz a s NS T).
  Qed.
  Lemma impl3 : impl F (tpls F) (cod3 F) (iso3 F) (fun a t => psi3 F a t = k0) V _ (Pow3k V) (GenerateCurve3 V) (EvaluatePoint3 V) RP RC3.
  Proof.
    constructor.
    - exact RP_eqv.
    - intros. apply lPow3k; assumption.
    - intros. apply lGen3; assumption.
    - intros. apply lEval3; assumption.
  Qed.
  Lemma gwalk4 : forall n a p, gwalk F mul4 (fun _ s => cod4 F s) (iso4 F) n a p = walk4 F n a p.
  Proof. induction n as [|n IH]; intros a p; [reflexivity|]. cbn [gwalk walk4]. rewrite IH. reflexivity. Qed.
  Lemma gwalk3 : forall n a p, gwalk F (tpls F) (cod3 F) (iso3 F) n a p = walk3 F n a p.
  Proof. induction n as [|n IH]; intros a p; [reflexivity|]. cbn [gwalk walk3]. rewrite IH. reflexivity. Qed.
  Theorem trav4 : forall strat, strat_ok strat = true -> forall c a p xR ps ps0,
    nonsing F a -> RC c a -> RP xR p -> ord4 F a (Datatypes.S (length strat)) p -> Forall2 RP ps ps0 ->
    exists xR' ps', traverse V (pow4 V) (GenerateCurve4 V) (EvaluatePoint4 V) strat (CalcCurveParamsEquiv4 V c) xR ps = Ret (xR', ps') /\
      RC4 (fst (GenerateCurve4 V xR')) (fst (walk4 F (Datatypes.S (length strat)) a p)) /\
      Forall2 (fun q' q => RP (EvaluatePoint4 V (snd (GenerateCurve4 V xR')) q') (snd (walk4 F (Datatypes.S (length strat)) a p) q)) ps' ps0.
  Proof.
    intros strat OK c a p xR ps ps0 NS HC HX HO HP. rewrite <- gwalk4. eapply (traverse_ok F mul4 (fun _ s => cod4 F s)); try eassumption.
    - exact side4. - exact impl4. - apply lEquiv4. exact HC.
  Qed.
  Theorem trav3 : forall strat, strat_ok strat = true -> forall c a p xR ps ps0,
    nonsing F a -> RC c a -> RP xR p -> ord3 F a (Datatypes.S (length strat)) p -> Forall2 RP ps ps0 ->
    exists xR' ps', traverse V (Pow3k V) (GenerateCurve3 V) (EvaluatePoint3 V) strat (CalcCurveParamsEquiv3 V c) xR ps = Ret (xR', ps') /\
      RC3 (fst (GenerateCurve3 V xR')) (fst (walk3 F (Datatypes.S (length strat)) a p)) /\
      Forall2 (fun q' q => RP (EvaluatePoint3 V (snd (GenerateCurve3 V xR')) q') (snd (walk3 F (Datatypes.S (length strat)) a p) q)) ps' ps0.
  Proof.
    intros strat OK c a p xR ps ps0 NS HC HX HO HP. rewrite <- gwalk3. eapply (traverse_ok F (tpls F) (cod3 F)); try eassumption.
    - exact side3. - exact impl3. - apply lEquiv3. exact HC.
  Qed.
End Impl.
