(* curve.go and core.go are parametric in the field implementation: two implementations related value by value give related keys and secrets. *)
From Coq Require Import ZArith List Lia Bool.
From Verif Require Import Lib MP Instr SIDH_Consts SIDH_Field SIDH_Curve.
Import ListNotations.
Open Scope Z_scope.

(* both return related values, or both panic *)
Inductive rr {A A' : Type} (Q : A -> A' -> Prop) : res A -> res A' -> Prop :=
| rrRet : forall a a', Q a a' -> rr Q (Ret a) (Ret a')
| rrPanic : rr Q Panic Panic.
Lemma rr_bind {A A' C C'} (Q : A -> A' -> Prop) (S : C -> C' -> Prop) x x' k k' : rr Q x x' -> (forall a a', Q a a' -> rr S (k a) (k' a')) -> rr S (bind x k) (bind x' k').
Proof. intros [a a' H|] K; cbn [bind]; [apply K, H|constructor]. Qed.

Section Sim.
Variables V V' : sops.
Variable R : car (so V) -> car (so V') -> Prop.
Record sim : Prop := {
  si_ops : simulates (so V) (so V') R;
  si_0 : R (s0 V) (s0 V');
  si_one : R (sOne V) (sOne V');
  si_half : R (sHalf V) (sHalf V');
  si_A : R (sCA V) (sCA V');
  si_C : R (sCC V) (sCC V');
  si_swap : forall x x' y y' c, R x x' -> R y y' -> c = 0 \/ c = 1 ->
    R (fst (scswap V x y c)) (fst (scswap V' x' y' c)) /\ R (snd (scswap V x y c)) (snd (scswap V' x' y' c))
}.
Hypothesis H : sim.
Definition RP (p : point V) (p' : point V') : Prop := R (fst p) (fst p') /\ R (snd p) (snd p').
Lemma call_sim c l l' : forallb (fun i => match i with IPow _ _ _ => false | _ => true end) c = true -> Forall2 R l l' -> forall i, R (call V c l i) (call V' c l' i).
Proof.
  intros Hc Hl i. unfold call. apply (run_sim _ _ _ (si_ops H)).
  - unfold prog_ok. apply Forall_forall. intros x Hx. rewrite forallb_forall in Hc. specialize (Hc x Hx). destruct x; cbn; auto; discriminate.
  - intros j. unfold args. revert j. induction Hl as [|a a' l l' Ha _ IH]; intros [|j]; cbn [nth]; auto using (si_0 H).
Qed.
Ltac cs := apply call_sim; [reflexivity|repeat (constructor; [first [assumption|apply (si_one H)|apply (si_half H)]|]); constructor].
Lemma Jinvariant_sim c c' : RP c c' -> R (Jinvariant V c) (Jinvariant V' c').
Proof. intros [A C]. unfold Jinvariant. cs. Qed.
Lemma RecoverA_sim c c' x x' y y' z z' : RP c c' -> R x x' -> R y y' -> R z z' -> RP (RecoverCoordinateA V c x y z) (RecoverCoordinateA V' c' x' y' z').
Proof. intros [A C] ? ? ?. split; cbn [RecoverCoordinateA fst snd]; [cs|exact C]. Qed.
Lemma Equiv3_sim c c' : RP c c' -> RP (CalcCurveParamsEquiv3 V c) (CalcCurveParamsEquiv3 V' c').
Proof. intros [A C]. split; cbn [CalcCurveParamsEquiv3 fst snd]; cs. Qed.
Lemma Equiv4_sim c c' : RP c c' -> RP (CalcCurveParamsEquiv4 V c) (CalcCurveParamsEquiv4 V' c').
Proof. intros [A C]. split; cbn [CalcCurveParamsEquiv4 fst snd]; cs. Qed.
Lemma Aplus_sim c c' : RP c c' -> R (CalcAplus2Over4 V c) (CalcAplus2Over4 V' c').
Proof. intros [A C]. unfold CalcAplus2Over4. cs. Qed.
Lemma Recover3_sim c c' : RP c c' -> RP (RecoverCurveCoefficients3 V c) (RecoverCurveCoefficients3 V' c').
Proof. intros [A C]. split; cbn [RecoverCurveCoefficients3 fst snd]; cs. Qed.
Lemma Recover4_sim c c' : RP c c' -> RP (RecoverCurveCoefficients4 V c) (RecoverCurveCoefficients4 V' c').
Proof. intros [A C]. split; cbn [RecoverCurveCoefficients4 fst snd]; cs. Qed.
Lemma xDbladd_sim P P' Q Q' D D' a a' : RP P P' -> RP Q Q' -> RP D D' -> R a a' ->
  RP (fst (xDbladd V P Q D a)) (fst (xDbladd V' P' Q' D' a')) /\ RP (snd (xDbladd V P Q D a)) (snd (xDbladd V' P' Q' D' a')).
Proof. intros [? ?] [? ?] [? ?] ?. repeat split; cbn [xDbladd fst snd]; cs. Qed.
Lemma nopow_repeat c k : forallb (fun i => match i with IPow _ _ _ => false | _ => true end) c = true ->
  forallb (fun i => match i with IPow _ _ _ => false | _ => true end) (concat (repeat c k)) = true.
Proof. intros Hc. induction k as [|k IH]; cbn [repeat concat]; [reflexivity|]. rewrite forallb_app, Hc, IH. reflexivity. Qed.
Lemma Pow2k_sim P P' e e' k : RP P P' -> RP e e' -> RP (Pow2k V P e k) (Pow2k V' P' e' k).
Proof. intros [? ?] [? ?]. split; cbn [Pow2k fst snd]; (apply call_sim; [apply nopow_repeat; reflexivity|repeat (constructor; [assumption|]); constructor]). Qed.
Lemma Pow3k_sim P P' e e' k : RP P P' -> RP e e' -> RP (Pow3k V P e k) (Pow3k V' P' e' k).
Proof. intros [? ?] [? ?]. split; cbn [Pow3k fst snd]; (apply call_sim; [apply nopow_repeat; reflexivity|repeat (constructor; [assumption|]); constructor]). Qed.
Lemma pow4_sim P P' e e' k : RP P P' -> RP e e' -> RP (pow4 V P e k) (pow4 V' P' e' k).
Proof. apply Pow2k_sim. Qed.
Lemma Batch_sim x x' y y' z z' : R x x' -> R y y' -> R z z' ->
  R (fst (fst (Fp2Batch3Inv V x y z))) (fst (fst (Fp2Batch3Inv V' x' y' z'))) /\ R (snd (fst (Fp2Batch3Inv V x y z))) (snd (fst (Fp2Batch3Inv V' x' y' z'))) /\
  R (snd (Fp2Batch3Inv V x y z)) (snd (Fp2Batch3Inv V' x' y' z')).
Proof. intros ? ? ?. repeat split; cbn [Fp2Batch3Inv fst snd]; cs. Qed.
Definition R3 (k : phi3 V) (k' : phi3 V') : Prop := RP k k'.
Definition R4 (k : phi4 V) (k' : phi4 V') : Prop := R (fst (fst k)) (fst (fst k')) /\ R (snd (fst k)) (snd (fst k')) /\ R (snd k) (snd k').
Lemma Gen3_sim P P' : RP P P' -> RP (fst (GenerateCurve3 V P)) (fst (GenerateCurve3 V' P')) /\ R3 (snd (GenerateCurve3 V P)) (snd (GenerateCurve3 V' P')).
Proof. intros [? ?]. repeat split; cbn [GenerateCurve3 fst snd]; cs. Qed.
Lemma Gen4_sim P P' : RP P P' -> RP (fst (GenerateCurve4 V P)) (fst (GenerateCurve4 V' P')) /\ R4 (snd (GenerateCurve4 V P)) (snd (GenerateCurve4 V' P')).
Proof. intros [? ?]. repeat split; cbn [GenerateCurve4 fst snd]; cs. Qed.
Lemma Eval3_sim k k' P P' : R3 k k' -> RP P P' -> RP (EvaluatePoint3 V k P) (EvaluatePoint3 V' k' P').
Proof. intros [? ?] [? ?]. split; cbn [EvaluatePoint3 fst snd]; cs. Qed.
Lemma Eval4_sim k k' P P' : R4 k k' -> RP P P' -> RP (EvaluatePoint4 V k P) (EvaluatePoint4 V' k' P').
Proof. destruct k as [[k1 k2] k3], k' as [[k1' k2'] k3']. intros (? & ? & ?) [? ?]. cbn [fst snd] in *. split; cbn [EvaluatePoint4 fst snd]; cs. Qed.
Lemma cswap_sim P P' Q Q' c : RP P P' -> RP Q Q' -> c = 0 \/ c = 1 ->
  RP (fst (cswapPt V P Q c)) (fst (cswapPt V' P' Q' c)) /\ RP (snd (cswapPt V P Q c)) (snd (cswapPt V' P' Q' c)).
Proof.
  intros [P1 P2] [Q1 Q2] Hc. unfold cswapPt. pose proof (si_swap H _ _ _ _ c P1 Q1 Hc) as [A1 A2]. pose proof (si_swap H _ _ _ _ c P2 Q2 Hc) as [B1 B2].
  destruct (scswap V (fst P) (fst Q) c), (scswap V' (fst P') (fst Q') c), (scswap V (snd P) (snd Q) c), (scswap V' (snd P') (snd Q') c). cbn [fst snd] in *. repeat split; assumption.
Qed.
Lemma bit01 z : Z.land z 1 = 0 \/ Z.land z 1 = 1.
Proof. change 1 with (Z.ones 1) at 1 2. rewrite Z.land_ones by lia. change (2 ^ 1) with 2. pose proof (Z.mod_pos_bound z 2 ltac:(lia)). lia. Qed.
Definition RL (s : point V * point V * point V * Z) (s' : point V' * point V' * point V' * Z) : Prop :=
  let '(a, b, c, z) := s in let '(a', b', c', z') := s' in RP a a' /\ RP b b' /\ RP c c' /\ z = z' /\ (z = 0 \/ z = 1).
Lemma ScalarMul3Pt_sim c c' P P' Q Q' D D' nb sc : RP c c' -> RP P P' -> RP Q Q' -> RP D D' -> rr RP (ScalarMul3Pt V c P Q D nb sc) (ScalarMul3Pt V' c' P' Q' D' nb sc).
Proof.
  intros Hc HP HQ HD. unfold ScalarMul3Pt. pose proof (Aplus_sim _ _ Hc) as Ha. set (a := CalcAplus2Over4 V c) in *. set (a' := CalcAplus2Over4 V' c') in *. clearbody a a'.
  apply (rr_bind RL).
  - assert (G : rr RL (Ret (Q, P, D, 0)) (Ret (Q', P', D', 0))) by (constructor; repeat split; try apply HP; try apply HQ; try apply HD; auto).
    revert G. generalize (Ret (Q, P, D, 0)), (Ret (Q', P', D', 0)). generalize (seq 0 (Z.to_nat nb)). induction l as [|i l IH]; intros s s' G; cbn [fold_left]; [exact G|].
    apply IH. unfold ladder_step. apply (rr_bind RL); [exact G|]. intros [[[r0 r1] r2] z] [[[r0' r1'] r2'] z'] (H0 & H1 & H2 & <- & Hz).
    apply (rr_bind (fun b b' => b = b' /\ (b = 0 \/ b = 1))).
    { unfold scalarBit. destruct (nth_error sc (i / 8)); constructor. split; [reflexivity|apply bit01]. }
    intros b b' [<- Hb]. assert (Hx : Z.lxor z b = 0 \/ Z.lxor z b = 1) by (destruct Hz as [-> | ->], Hb as [-> | ->]; cbn; auto).
    pose proof (cswap_sim _ _ _ _ _ H1 H2 Hx) as [C1 C2]. destruct (cswapPt V r1 r2 _) as [q1 q2], (cswapPt V' r1' r2' _) as [q1' q2']. cbn [fst snd] in *.
    pose proof (xDbladd_sim _ _ _ _ _ _ _ _ H0 C2 C1 Ha) as [D1 D2]. destruct (xDbladd V r0 q2 q1 a) as [s1 s2], (xDbladd V' r0' q2' q1' a') as [s1' s2']. cbn [fst snd] in *.
    constructor. repeat split; try apply D1; try apply C1; try apply D2; assumption.
  - intros [[[r0 r1] r2] z] [[[r0' r1'] r2'] z'] (H0 & H1 & H2 & <- & Hz).
    pose proof (cswap_sim _ _ _ _ _ H1 H2 Hz) as [C1 C2]. destruct (cswapPt V r1 r2 _) as [q1 q2], (cswapPt V' r1' r2' _) as [q1' q2']. constructor. exact C1.
Qed.
Section Trav.
  Context {PHI PHI' : Type}.
  Variable RPHI : PHI -> PHI' -> Prop.
  Variables (pw : point V -> curve V -> Z -> point V) (pw' : point V' -> curve V' -> Z -> point V').
  Variables (gn : point V -> curve V * PHI) (gn' : point V' -> curve V' * PHI').
  Variables (ev : PHI -> point V -> point V) (ev' : PHI' -> point V' -> point V').
  Hypothesis Hpw : forall P P' e e' k, RP P P' -> RP e e' -> RP (pw P e k) (pw' P' e' k).
  Hypothesis Hgn : forall P P', RP P P' -> RP (fst (gn P)) (fst (gn' P')) /\ RPHI (snd (gn P)) (snd (gn' P')).
  Hypothesis Hev : forall k k' P P', RPHI k k' -> RP P P' -> RP (ev k P) (ev' k' P').
  Variable strat : list Z.
  Definition RI (s : point V * list (point V) * list Z * Z * nat) (s' : point V' * list (point V') * list Z * Z * nat) : Prop :=
    let '(x, ps, is, i, k) := s in let '(x', ps', is', i', k') := s' in RP x x' /\ Forall2 RP ps ps' /\ is = is' /\ i = i' /\ k = k'.
  Lemma inner_sim fuel : forall j cp cp' x x' ps ps' is i k, RP cp cp' -> RP x x' -> Forall2 RP ps ps' ->
    rr RI (trav_inner V pw strat fuel j cp x ps is i k) (trav_inner V' pw' strat fuel j cp' x' ps' is i k).
  Proof.
    induction fuel as [|fuel IH]; intros j cp cp' x x' ps ps' is i k Hcp Hx Hps; cbn [trav_inner]; [constructor|].
    destruct (i <=? Z.of_nat (length strat) - j).
    - destruct (nth_error strat k) as [q|]; [|constructor]. apply IH; [exact Hcp|apply Hpw; assumption|constructor; assumption].
    - constructor. repeat split; try apply Hx; assumption.
  Qed.
  Definition RT (s : trav_state V) (s' : trav_state V') : Prop :=
    let '(cp, x, pts, is, i, k, ps) := s in let '(cp', x', pts', is', i', k', ps') := s' in
    RP cp cp' /\ RP x x' /\ Forall2 RP pts pts' /\ is = is' /\ i = i' /\ k = k' /\ Forall2 RP ps ps'.
  Lemma map_ev k k' ps ps' : RPHI k k' -> Forall2 RP ps ps' -> Forall2 RP (map (ev k) ps) (map (ev' k') ps').
  Proof. intros Hk. induction 1; cbn [map]; constructor; auto. Qed.
  Lemma traverse_sim cp cp' x x' ps ps' : RP cp cp' -> RP x x' -> Forall2 RP ps ps' ->
    rr (fun s s' => RP (fst s) (fst s') /\ Forall2 RP (snd s) (snd s')) (traverse V pw gn ev strat cp x ps) (traverse V' pw' gn' ev' strat cp' x' ps').
  Proof.
    intros Hcp Hx Hps. unfold traverse. apply (rr_bind RT).
    - assert (G : rr RT (Ret (cp, x, [], [], 0, 0%nat, ps)) (Ret (cp', x', [], [], 0, 0%nat, ps'))).
      { constructor. split; [exact Hcp|]. split; [exact Hx|]. split; [constructor|]. repeat split; assumption. }
      enough (K : forall l s s', rr RT s s' -> rr RT (fold_left (trav_step V pw gn ev strat) l s) (fold_left (trav_step V' pw' gn' ev' strat) l s')) by (apply K; exact G).
      clear G. induction l as [|j l IH]; intros s s' G; cbn [fold_left]; [exact G|].
      apply IH. unfold trav_step. apply (rr_bind RT); [exact G|].
      intros [[[[[[c1 x1] pt1] is1] i1] k1] ps1] [[[[[[c2 x2] pt2] is2] i2] k2] ps2] (Ac & Ax & Apt & <- & <- & <- & Aps).
      apply (rr_bind RI); [apply inner_sim; assumption|].
      intros [[[[x3 pt3] is3] i3] k3] [[[[x4 pt4] is4] i4] k4] (Bx & Bpt & <- & <- & <-).
      pose proof (Hgn _ _ Bx) as [Gc Gk]. destruct (gn x3) as [c5 ph5], (gn' x4) as [c6 ph6]. cbn [fst snd] in *.
      pose proof (map_ev _ _ _ _ Gk Bpt) as M1. pose proof (map_ev _ _ _ _ Gk Aps) as M2.
      destruct M1 as [|a a' r r' Ma Mr]; [constructor|]. destruct is3 as [|i5 is5]; constructor.
      split; [exact Gc|]. split; [exact Ma|]. repeat split; assumption.
    - intros [[[[[[c1 x1] pt1] is1] i1] k1] ps1] [[[[[[c2 x2] pt2] is2] i2] k2] ps2] (Ac & Ax & Apt & _ & _ & _ & Aps). constructor. split; assumption.
  Qed.
End Trav.

Variables (DA DB : dom (car (so V))) (DA' DB' : dom (car (so V'))).
Definition RD (d : dom (car (so V))) (d' : dom (car (so V'))) : Prop := R (dP d) (dP d') /\ R (dQ d) (dQ d') /\ R (dR d) (dR d') /\ dBits d = dBits d' /\ dStrat d = dStrat d'.
Hypothesis HA : RD DA DA'.
Hypothesis HB : RD DB DB'.
Lemma aff_sim x x' : R x x' -> RP (affPt V x) (affPt V' x'). Proof. intros Hx. split; [exact Hx|apply (si_one H)]. Qed.
Lemma init_sim : RP (InitCurve V) (InitCurve V'). Proof. split; [apply (si_A H)|apply (si_C H)]. Qed.
Lemma pub3_sim P P' Q Q' D D' : RP P P' -> RP Q Q' -> RP D D' -> Forall2 R (pub3 V P Q D) (pub3 V' P' Q' D').
Proof.
  intros [P1 P2] [Q1 Q2] [D1 D2]. unfold pub3. pose proof (Batch_sim _ _ _ _ _ _ P2 Q2 D2) as (A1 & A2 & A3).
  destruct (Fp2Batch3Inv V (snd P) (snd Q) (snd D)) as [[a b] c], (Fp2Batch3Inv V' (snd P') (snd Q') (snd D')) as [[a' b'] c']. cbn [fst snd] in *.
  repeat (constructor; [apply (sim_mul _ _ _ (si_ops H)); assumption|]). constructor.
Qed.
Theorem PublicKeyGenA_sim prv : rr (Forall2 R) (PublicKeyGenA V DA DB prv) (PublicKeyGenA V' DA' DB' prv).
Proof.
  destruct HA as (A1 & A2 & A3 & A4 & A5), HB as (B1 & B2 & B3 & _ & _). unfold PublicKeyGenA. rewrite A4.
  apply (rr_bind RP); [apply ScalarMul3Pt_sim; auto using init_sim, aff_sim|]. intros x x' Hx. unfold traverseTreePublicKeyA. rewrite A5.
  eapply rr_bind; [apply (traverse_sim R4); auto using pow4_sim, Gen4_sim, Eval4_sim, Equiv4_sim, init_sim, aff_sim|].
  intros [y ps] [y' ps'] [Hy Hps]. cbn [fst snd] in *.
  destruct Hps as [|a a' r r' Ha [|b b' s s' Hb [|c c' t t' Hc [|? ? ? ? ? ?]]]]; try apply rrPanic.
  pose proof (Gen4_sim _ _ Hy) as [_ G]. destruct (GenerateCurve4 V y) as [e k], (GenerateCurve4 V' y') as [e' k']. cbn [fst snd] in *.
  constructor. apply pub3_sim; apply Eval4_sim; assumption.
Qed.
Theorem PublicKeyGenB_sim prv : rr (Forall2 R) (PublicKeyGenB V DA DB prv) (PublicKeyGenB V' DA' DB' prv).
Proof.
  destruct HA as (A1 & A2 & A3 & _ & _), HB as (B1 & B2 & B3 & B4 & B5). unfold PublicKeyGenB. rewrite B4.
  apply (rr_bind RP); [apply ScalarMul3Pt_sim; auto using init_sim, aff_sim|]. intros x x' Hx. unfold traverseTreePublicKeyB. rewrite B5.
  eapply rr_bind; [apply (traverse_sim R3); auto using Pow3k_sim, Gen3_sim, Eval3_sim, Equiv3_sim, init_sim, aff_sim|].
  intros [y ps] [y' ps'] [Hy Hps]. cbn [fst snd] in *.
  destruct Hps as [|a a' r r' Ha [|b b' s s' Hb [|c c' t t' Hc [|? ? ? ? ? ?]]]]; try apply rrPanic.
  pose proof (Gen3_sim _ _ Hy) as [_ G]. destruct (GenerateCurve3 V y) as [e k], (GenerateCurve3 V' y') as [e' k']. cbn [fst snd] in *.
  constructor. apply pub3_sim; apply Eval3_sim; assumption.
Qed.
Theorem DeriveJA_sim prv x x' y y' z z' : R x x' -> R y y' -> R z z' -> rr R (DeriveJA V DA prv (x, y, z)) (DeriveJA V' DA' prv (x', y', z')).
Proof.
  intros Hx Hy Hz. destruct HA as (_ & _ & _ & A4 & A5). unfold DeriveJA. rewrite A4.
  pose proof (RecoverA_sim _ _ _ _ _ _ _ _ init_sim Hx Hy Hz) as Hc. set (c := RecoverCoordinateA V _ _ _ _) in *. set (c' := RecoverCoordinateA V' _ _ _ _) in *. clearbody c c'.
  apply (rr_bind RP); [apply ScalarMul3Pt_sim; auto using aff_sim|]. intros q q' Hq. unfold traverseTreeSharedKeyA. rewrite A5.
  eapply rr_bind; [apply (traverse_sim R4); auto using pow4_sim, Gen4_sim, Eval4_sim, Equiv4_sim|].
  intros [r ps] [r' ps'] [Hr _]. cbn [fst snd] in *. pose proof (Gen4_sim _ _ Hr) as [G _]. destruct (GenerateCurve4 V r) as [e k], (GenerateCurve4 V' r') as [e' k']. cbn [fst snd] in *.
  constructor. apply Jinvariant_sim, Recover4_sim, G.
Qed.
Theorem DeriveJB_sim prv x x' y y' z z' : R x x' -> R y y' -> R z z' -> rr R (DeriveJB V DB prv (x, y, z)) (DeriveJB V' DB' prv (x', y', z')).
Proof.
  intros Hx Hy Hz. destruct HB as (_ & _ & _ & A4 & A5). unfold DeriveJB. rewrite A4.
  pose proof (RecoverA_sim _ _ _ _ _ _ _ _ init_sim Hx Hy Hz) as Hc. set (c := RecoverCoordinateA V _ _ _ _) in *. set (c' := RecoverCoordinateA V' _ _ _ _) in *. clearbody c c'.
  apply (rr_bind RP); [apply ScalarMul3Pt_sim; auto using aff_sim|]. intros q q' Hq. unfold traverseTreeSharedKeyB. rewrite A5.
  eapply rr_bind; [apply (traverse_sim R3); auto using Pow3k_sim, Gen3_sim, Eval3_sim, Equiv3_sim|].
  intros [r ps] [r' ps'] [Hr _]. cbn [fst snd] in *. pose proof (Gen3_sim _ _ Hr) as [G _]. destruct (GenerateCurve3 V r) as [e k], (GenerateCurve3 V' r') as [e' k']. cbn [fst snd] in *.
  constructor. apply Jinvariant_sim, Recover3_sim, G.
Qed.
End Sim.
