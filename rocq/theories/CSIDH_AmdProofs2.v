(* Curve, group action and API of the amd64 build of dh/csidh equal those of the portable build. *)
From Coq Require Import ZArith List Lia Bool.
From Verif Require Import Lib MP Instr CSIDH_Field CSIDH_FieldProofs CSIDH_FieldProofs2 CSIDH_Curve CSIDH_Model CSIDH_ApiProofs CSIDH_GaProofs
  CSIDH_CurveProofs CSIDH_ValidProofs CSIDH_AmdKern CSIDH_AmdProofs CSIDH_Amd.
Import ListNotations.
Open Scope Z_scope.

Definition canon (m : nat -> list Z) : Prop := forall l, fp_red (m l).
Definition swap_ok (i : instr) : Prop := match i with ISwap a b _ => a <> b | _ => True end.
Definition swaps_ok (p : list instr) : Prop := Forall swap_ok p.
Lemma red_add x y : fp_red x -> fp_red y -> fp_red (addRdc x y).
Proof. intros Hx Hy. exact (proj1 (mrep_add _ _ _ _ (mrep_fv _ Hx) (mrep_fv _ Hy))). Qed.
Lemma red_sub x y : fp_red x -> fp_red y -> fp_red (subRdc x y).
Proof. intros Hx Hy. exact (proj1 (mrep_sub _ _ _ _ (mrep_fv _ Hx) (mrep_fv _ Hy))). Qed.
Lemma zero_red : fp_red fpZero. Proof. exact (proj1 frep_zero). Qed.
Lemma four_red : fp_red four. Proof. exact (proj1 frep_four). Qed.
Lemma canon_set m d v : canon m -> fp_red v -> canon (mset m d v).
Proof. intros Hm Hv l. unfold mset. destruct (Nat.eqb l d); [exact Hv|apply Hm]. Qed.
Lemma canon_frame l : Forall fp_red l -> canon (frameF l).
Proof.
  intros H. unfold frameF, frame. apply canon_set; [apply canon_set|exact one_red]; [|exact four_red].
  intro i. unfold args. destruct (Nat.lt_ge_cases i (length l)) as [h|h].
  - rewrite Forall_forall in H. apply H, nth_In, h.
  - rewrite nth_overflow by exact h. exact zero_red.
Qed.

Section Curve.
Variable M : amd.
Hypothesis HM : is_w64 (aBP M).

Lemma stepA_ok m i : canon m -> swap_ok i -> exists m', stepA M m i = Some m' /\ (forall l, m' l = step fpOps m i l) /\ canon m'.
Proof.
  intros Hm Hs. destruct i as [d a b|d a b|d a b|d a|d a|d a|a b c|d a k]; cbn [stepA step].
  - eexists. split; [reflexivity|]. split; [intro l; reflexivity|]. apply canon_set; [exact Hm|]. apply red_add; apply Hm.
  - eexists. split; [reflexivity|]. split; [intro l; reflexivity|]. apply canon_set; [exact Hm|]. apply red_sub; apply Hm.
  - rewrite (mulRdcA_ok M HM d a b m) by (first [apply Hm | destruct (Hm b) as [_ V]; lia]). cbn [ob].
    eexists. split; [reflexivity|]. split; [intro l; reflexivity|]. apply canon_set; [exact Hm|]. apply red_mul; apply Hm.
  - rewrite (mulRdcA_ok M HM d a a m) by (first [apply Hm | destruct (Hm a) as [_ V]; lia]). cbn [ob].
    eexists. split; [reflexivity|]. split; [intro l; reflexivity|]. apply canon_set; [exact Hm|]. apply red_mul; apply Hm.
  - unfold modExp512A. destruct (modExpA_ok M HM (m a) pMin1 512 (Hm a)) as [E F]. rewrite E. cbn [ob].
    eexists. split; [reflexivity|]. split; [intro l; reflexivity|]. apply canon_set; [exact Hm|exact F].
  - eexists. split; [reflexivity|]. split; [intro l; reflexivity|]. apply canon_set; [exact Hm|]. apply Hm.
  - cbn [swap_ok] in Hs. rewrite (proj2 (Nat.eqb_neq a b) Hs). rewrite (cswap512A_ok M (m a) (m b) c (proj1 (Hm a)) (proj1 (Hm b))). cbn [ob].
    destruct c.
    + eexists. split; [reflexivity|]. split; [intro l; reflexivity|]. apply canon_set; [apply canon_set; [exact Hm|]|]; apply Hm.
    + eexists. split; [reflexivity|]. split.
      * intro l. unfold mset. destruct (Nat.eqb_spec l b) as [->|_]; [reflexivity|]. destruct (Nat.eqb_spec l a) as [->|_]; reflexivity.
      * apply canon_set; [apply canon_set; [exact Hm|]|]; apply Hm.
  - unfold modExp64A. destruct (modExpA_ok M HM (m a) [k; 0; 0; 0; 0; 0; 0; 0] 64 (Hm a)) as [E F]. rewrite E. cbn [ob].
    eexists. split; [reflexivity|]. split; [intro l; reflexivity|]. apply canon_set; [exact Hm|exact F].
Qed.
Lemma runA_ok p : forall m, canon m -> swaps_ok p -> exists m', runA M p m = Some m' /\ (forall l, m' l = run fpOps p m l) /\ canon m'.
Proof.
  induction p as [|i p IH]; intros m Hm Hs; [exists m; repeat split; try reflexivity; apply Hm|].
  apply Forall_cons_iff in Hs. destruct Hs as [Hi Hp].
  destruct (stepA_ok m i Hm Hi) as (m1 & E1 & Q1 & C1). destruct (IH m1 C1 Hp) as (m2 & E2 & Q2 & C2).
  exists m2. cbn [runA run]. rewrite E1. cbn [ob]. split; [exact E2|]. split; [|exact C2].
  intro l. rewrite Q2. apply (run_ext fpOps p m1 (step fpOps m i)). exact Q1.
Qed.

Lemma swaps_app p q : swaps_ok p -> swaps_ok q -> swaps_ok (p ++ q). Proof. intros. apply Forall_app. split; assumption. Qed.
Ltac sok := unfold swaps_ok; repeat (apply Forall_cons; [cbn [swap_ok]; try exact I; try discriminate|]); apply Forall_nil.
Lemma xDbl_sok a b c : swaps_ok (xDbl_code a b c). Proof. unfold xDbl_code. sok. Qed.
Lemma xAdd_sok a b c d : swaps_ok (xAdd_code a b c d). Proof. unfold xAdd_code. sok. Qed.
Lemma xDblAdd_sok a b c d e f : swaps_ok (xDblAdd_code a b c d e f). Proof. unfold xDblAdd_code. sok. Qed.
Lemma cswap_sok c : swaps_ok (cswappoint_code mQ mR c).
Proof. unfold cswappoint_code, mQ, mR. cbn [px pz]. sok. Qed.
Lemma ladder_sok P k i : forall b, swaps_ok (ladder_code P k i b).
Proof.
  induction i as [|i IH]; intro b; [apply Forall_nil|]. cbn [ladder_code]. cbv zeta.
  apply swaps_app; [apply cswap_sok|]. apply swaps_app; [apply xDblAdd_sok|apply IH].
Qed.
Lemma xMul_sok kP P co k : swaps_ok (xMul_code kP P co k).
Proof.
  unfold xMul_code. cbv zeta. apply swaps_app; [sok|]. apply swaps_app; [sok|]. apply swaps_app; [apply xDbl_sok|]. apply swaps_app; [apply ladder_sok|].
  apply swaps_app; [apply cswap_sok|sok].
Qed.
Lemma xIso_sok img co kern n : swaps_ok (xIso_code img co kern n).
Proof.
  unfold xIso_code. apply swaps_app; [unfold xIso_pre; cbv zeta; apply swaps_app; [sok|apply swaps_app; [sok|apply xDbl_sok]]|].
  apply swaps_app; [|unfold xIso_post; cbv zeta; sok].
  generalize (seq 1 (Z.to_nat (Z.shiftr n 1) - 1)). intro l. induction l as [|i l IH]; [apply Forall_nil|]. cbn [flat_map]. apply swaps_app; [|exact IH].
  unfold xIso_body. cbv zeta. apply swaps_app; [destruct (2 <=? i)%nat; [apply xAdd_sok|apply Forall_nil]|sok].
Qed.
Lemma montEval_sok r a x : swaps_ok (montEval_code r a x). Proof. unfold montEval_code. cbv zeta. apply swaps_app; sok. Qed.

Definition pred (q : fpt) : Prop := fp_red (fst q) /\ fp_red (snd q).
Notation xDblF := (xDbl fpOps fpZero one four). Notation xMulF := (xMul fpOps fpZero one four).
Notation xMul_ipF := (xMul_ip fpOps fpZero one four). Notation xIsoF := (xIso fpOps fpZero one four).
Notation montEvalF := (montEval fpOps fpZero one four).
Lemma getF_eq m m' q : (forall l, m l = m' l) -> getF m q = get fpOps m' q.
Proof. intro H. unfold getF, get. rewrite !H. reflexivity. Qed.
Lemma fr4 P A : pred P -> pred A -> canon (frameF [fst P; snd P; fst A; snd A]).
Proof. intros [] []. apply canon_frame. repeat (apply Forall_cons; [assumption|]). apply Forall_nil. Qed.
Lemma getF_pred m m' q : (forall l, m l = m' l) -> canon m -> pred (get fpOps m' q).
Proof. intros H C. rewrite <- (getF_eq m m' q H). split; apply C. Qed.
Lemma xDblA_ok P A : pred P -> pred A -> xDblA M P A = Some (xDblF P A) /\ pred (xDblF P A).
Proof.
  intros HP HA. unfold xDblA, xDbl. destruct (runA_ok (xDbl_code (mkpl 0 1) (mkpl 0 1) (mkpl 2 3)) _ (fr4 P A HP HA) (xDbl_sok _ _ _)) as (m & E & Q & C).
  rewrite E. cbn [ob]. rewrite (getF_eq _ _ _ Q). split; [reflexivity|]. exact (getF_pred _ _ _ Q C).
Qed.
Lemma xMulA_ok P A k : pred P -> pred A -> xMulA M P A k = Some (xMulF P A k) /\ pred (xMulF P A k).
Proof.
  intros HP HA. unfold xMulA, xMul. destruct (runA_ok (xMul_code (mkpl 4 5) (mkpl 0 1) (mkpl 2 3) k) _ (fr4 P A HP HA) (xMul_sok _ _ _ _)) as (m & E & Q & C).
  rewrite E. cbn [ob]. rewrite (getF_eq _ _ _ Q). split; [reflexivity|]. exact (getF_pred _ _ _ Q C).
Qed.
Lemma xMulA_ip_ok P A k : pred P -> pred A -> xMulA_ip M P A k = Some (xMul_ipF P A k) /\ pred (xMul_ipF P A k).
Proof.
  intros HP HA. unfold xMulA_ip, xMul_ip. destruct (runA_ok (xMul_code (mkpl 0 1) (mkpl 0 1) (mkpl 2 3) k) _ (fr4 P A HP HA) (xMul_sok _ _ _ _)) as (m & E & Q & C).
  rewrite E. cbn [ob]. rewrite (getF_eq _ _ _ Q). split; [reflexivity|]. exact (getF_pred _ _ _ Q C).
Qed.
Lemma xIsoA_ok P A K n : pred P -> pred A -> pred K -> xIsoA M P A K n = Some (xIsoF P A K n) /\ pred (fst (xIsoF P A K n)) /\ pred (snd (xIsoF P A K n)).
Proof.
  intros HP HA HK. unfold xIsoA, xIso. cbv zeta.
  assert (Hf : canon (frameF [fst P; snd P; fst A; snd A; fst K; snd K])).
  { destruct HP, HA, HK. apply canon_frame. repeat (apply Forall_cons; [assumption|]). apply Forall_nil. }
  destruct (runA_ok (xIso_code (mkpl 0 1) (mkpl 2 3) (mkpl 4 5) n) _ Hf (xIso_sok _ _ _ _)) as (m & E & Q & C).
  rewrite E. cbn [ob fst snd]. rewrite !(getF_eq _ _ _ Q). split; [reflexivity|]. split; exact (getF_pred _ _ _ Q C).
Qed.
Lemma montEvalA_ok A x : fp_red A -> fp_red x -> montEvalA M A x = Some (montEvalF A x) /\ fp_red (montEvalF A x).
Proof.
  intros HA Hx. unfold montEvalA, montEval.
  assert (Hf : canon (frameF [A; x])) by (apply canon_frame; repeat (apply Forall_cons; [assumption|]); apply Forall_nil).
  destruct (runA_ok (montEval_code 2 0 1) _ Hf (montEval_sok _ _ _)) as (m & E & Q & C).
  rewrite E. cbn [ob]. rewrite Q. split; [reflexivity|]. fold frameF. rewrite <- Q. apply C.
Qed.

Lemma mulsA_ok sel is : forall k, fp_ok k ->
  mulsA M sel is k = Some (fold_left (fun k i => if sel i then mul512 k (nth i primes 0) else k) is k) /\
  fp_ok (fold_left (fun k i => if sel i then mul512 k (nth i primes 0) else k) is k).
Proof.
  induction is as [|i is IH]; intros k Hk; [split; [reflexivity|exact Hk]|]. cbn [mulsA fold_left].
  destruct (sel i); [|apply IH, Hk]. rewrite (mul512A_ok M HM k (nth i primes 0) Hk (lp_w i)). cbn [ob]. apply IH. exact (proj1 (mul512_spec k _ Hk (lp_w i))).
Qed.
Lemma fold_ext {A C : Type} (f g : A -> C -> A) l : (forall a c, f a c = g a c) -> forall a, fold_left f l a = fold_left g l a.
Proof. intro H. induction l as [|c l IH]; intro a; [reflexivity|]. cbn [fold_left]. rewrite H. apply IH. Qed.
Lemma small1 : fp_ok (small 1). Proof. apply small_ok. unfold is_w64. lia. Qed.
Lemma small4 : fp_ok (small 4). Proof. apply small_ok. unfold is_w64. lia. Qed.
Lemma mulRangeA_ok lo hi : mulsA M (fun _ => true) (seq lo (hi - lo)) (small 1) = Some (mulRange lo hi).
Proof. exact (proj1 (mulsA_ok (fun _ => true) (seq lo (hi - lo)) (small 1) small1)). Qed.
Lemma cofactorA_ok e i : mulsA M (fun j => negb (nth j e 0 =? 0)) (seq (S i) (primeCount - S i)) (small 1) = Some (cofactor e i).
Proof. exact (proj1 (mulsA_ok (fun j => negb (nth j e 0 =? 0)) _ (small 1) small1)). Qed.
Lemma initKA_ok e s : initKA M e s = Some (initK e s) /\ fp_ok (initK e s).
Proof.
  set (sel := fun i => let t := expOf e i in if 0 <? t then s else if t <? 0 then negb s else true).
  destruct (mulsA_ok sel (seq 0 primeCount) (small 4) small4) as [E F].
  assert (X : initK e s = fold_left (fun k i => if sel i then mul512 k (nth i primes 0) else k) (seq 0 primeCount) (small 4)).
  { unfold initK. apply fold_ext. intros k i. unfold sel. cbv zeta. destruct (0 <? expOf e i), (expOf e i <? 0), s; reflexivity. }
  rewrite X. split; [exact E|exact F].
Qed.

Notation cofactorMulF := (cofactorMul fpOps fpZero one four isZero).
Lemma cofactorMulA_ok f : forall P a lo hi o, pred P -> pred a -> fp_ok o ->
  cofactorMulA M f P a lo hi o = Some (cofactorMulF f P a lo hi o) /\ fp_ok (snd (cofactorMulF f P a lo hi o)).
Proof.
  induction f as [|f IH]; intros P a lo hi o HP Ha Ho; [split; [reflexivity|exact Ho]|]. cbn [cofactorMulA cofactorMul]. change (car fpOps) with (list Z).
  destruct (hi - lo =? 1)%nat.
  - destruct (negb (isZero (snd P))); [|split; [reflexivity|exact Ho]].
    destruct (xMulA_ip_ok P a (small (nth lo primes 0)) HP Ha) as [E _]. rewrite E. cbn [ob]. cbv zeta. change (car fpOps) with (list Z).
    generalize (xMul_ipF P a (small (nth lo primes 0))). intro W. change (pt fpOps) with fpt in W. destruct (negb (isZero (snd W))); [split; [reflexivity|exact Ho]|].
    rewrite (mul512A_ok M HM o (nth lo primes 0) Ho (lp_w lo)). cbn [ob]. pose proof (proj1 (mul512_spec o _ Ho (lp_w lo))) as H1.
    destruct (isLess fourSqrtP (mul512 o (nth lo primes 0))); (split; [reflexivity|exact H1]).
  - cbv zeta. set (mid := (lo + (hi - lo + 1) / 2)%nat). rewrite !mulRangeA_ok. cbn [ob].
    destruct (xMulA_ok P a (mulRange lo mid) HP Ha) as [E1 Q1]. rewrite E1. cbn [ob].
    destruct (xMulA_ip_ok P a (mulRange mid hi) HP Ha) as [E2 Q2]. rewrite E2. cbn [ob].
    destruct (IH (xMulF P a (mulRange lo mid)) a mid hi o Q1 Ha Ho) as [E3 Q3]. rewrite E3. cbn [ob].
    destruct (cofactorMulF f (xMulF P a (mulRange lo mid)) a mid hi o) as [[d1 r1] o1]. cbn [snd] in Q3.
    destruct (IH (xMul_ipF P a (mulRange mid hi)) a lo mid o1 Q2 Ha Q3) as [E4 Q4]. rewrite E4. cbn [ob].
    destruct (cofactorMulF f (xMul_ipF P a (mulRange mid hi)) a lo mid o1) as [[d2 r2] o2]. split; [reflexivity|exact Q4].
Qed.

Notation passStepF := (passStep fpOps fpZero one four isZero).
Definition passOk (st : pass fpOps) : Prop := pred (pP _ st) /\ pred (pA _ st) /\ fp_ok (pk _ st).
Lemma passStepA_ok st i : passOk st -> passStepA M st i = Some (passStepF st i) /\ passOk (passStepF st i).
Proof.
  intros (HP & HA & Hk). unfold passStepA, passStep. cbv zeta. change (car fpOps) with (list Z).
  destruct (negb (nth i (pe fpOps st) 0 =? 0)); [|split; [reflexivity|split; [exact HP|split; [exact HA|exact Hk]]]].
  rewrite cofactorA_ok. cbn [ob].
  destruct (xMulA_ok (pP _ st) (pA _ st) (cofactor (pe _ st) i) HP HA) as [E1 Q1]. rewrite E1. cbn [ob].
  set (K := xMulF (pP _ st) (pA _ st) (cofactor (pe _ st) i)) in *. clearbody K. change (pt fpOps) with fpt in K. change (car fpOps) with (list Z).
  destruct (negb (isZero (snd K))); [|split; [reflexivity|split; [exact HP|split; [exact HA|exact Hk]]]].
  destruct (xIsoA_ok (pP _ st) (pA _ st) K (nth i primes 0) HP HA Q1) as (E2 & Q2 & Q3). rewrite E2. cbn [ob].
  destruct (xIsoF (pP _ st) (pA _ st) K (nth i primes 0)) as [P' A']. cbn [fst snd] in Q2, Q3.
  destruct (wrap8 (nth i (pe fpOps st) 0 - 1) =? 0).
  - rewrite (mul512A_ok M HM _ (nth i primes 0) Hk (lp_w i)). cbn [ob]. split; [reflexivity|]. split; [exact Q2|split; [exact Q3|exact (proj1 (mul512_spec _ _ Hk (lp_w i)))]].
  - cbn [ob]. split; [reflexivity|]. split; [exact Q2|split; [exact Q3|exact Hk]].
Qed.
Lemma passA_ok is : forall st, passOk st -> passA M is st = Some (fold_left passStepF is st) /\ passOk (fold_left passStepF is st).
Proof.
  induction is as [|i is IH]; intros st H; [split; [reflexivity|exact H]|]. cbn [passA fold_left].
  destruct (passStepA_ok st i H) as [E Q]. rewrite E. cbn [ob]. apply IH, Q.
Qed.

Notation gaRoundF := (gaRound fpOps fpZero one four isZero isNonQuadRes).
Notation gaLoopF := (gaLoop fpOps fpZero one four isZero isNonQuadRes (fun x => x)).
(* the two states agree and are well-formed *)
Definition same (s t : gaState fpOps) : Prop :=
  (forall b, gE _ s b = gE _ t b) /\ (forall b, gK _ s b = gK _ t b) /\ (forall b, gDone _ s b = gDone _ t b) /\ gA _ s = gA _ t /\ gLog _ s = gLog _ t /\
  fp_red (gA _ s) /\ (forall b, fp_ok (gK _ s b)).
Lemma gaRoundA_ok s t x sg : same s t -> fp_red x -> negb (isNonQuadRes (montEvalF (gA _ t) x) =? 0) = sg -> gDone _ t sg = false ->
  exists s', gaRoundA M s sg x = Some s' /\ same s' (gaRoundF t x).
Proof.
  intros (HE & HK & HD & HA & HL & Ra & Rk) Hx Hsg Hd. unfold gaRoundA, gaRound. cbv zeta. rewrite Hsg, Hd. clear Hsg Hd.
  rewrite <- HA, <- HL, <- (HE sg), <- (HK sg).
  assert (QA : pred (gA _ s, one)) by (split; [exact Ra|exact one_red]).
  assert (QX : pred (x, one)) by (split; [exact Hx|exact one_red]).
  destruct (xMulA_ip_ok (x, one) (gA _ s, one) (gK _ s sg) QX QA) as [E1 Q1]. rewrite E1. cbn [ob].
  destruct (passA_ok (seq 0 primeCount) (mkpass fpOps (xMul_ipF (x, one) (gA _ s, one) (gK _ s sg)) (gA _ s, one) (gE _ s sg) (gK _ s sg) true [])) as [E2 Q2].
  { split; [exact Q1|split; [exact QA|apply Rk]]. }
  rewrite E2. cbn [ob]. set (r := fold_left passStepF (seq 0 primeCount) _) in *. clearbody r. destruct Q2 as (_ & [R1 R2] & R3).
  unfold modExp512A. destruct (modExpA_ok M HM (snd (pA _ r)) pMin1 512 R2) as [E3 Q3]. rewrite E3. cbn [ob].
  rewrite (mulL_ok M HM 0 0 1 [fst (pA _ r); modExpRdcCommon (snd (pA _ r)) pMin1 512] (proj1 R1) R1 Q3). cbn [ob nth].
  eexists. split; [reflexivity|]. unfold same. cbn [gE gK gDone gA gLog].
  split; [intro b; unfold setB; destruct (Bool.eqb b sg); [reflexivity|apply HE]|].
  split; [intro b; unfold setB; destruct (Bool.eqb b sg); [reflexivity|apply HK]|].
  split; [intro b; unfold setB; destruct (Bool.eqb b sg); [reflexivity|apply HD]|].
  split; [reflexivity|]. split; [reflexivity|]. split; [apply red_mul; assumption|].
  intro b; unfold setB; destruct (Bool.eqb b sg); [exact R3|apply Rk].
Qed.
Definition agree (r : option (option (gaState fpOps * list Z))) (q : option (gaState fpOps * list Z)) : Prop :=
  match r, q with Some None, None => True | Some (Some (s, a)), Some (t, b) => same s t /\ a = b | _, _ => False end.
Lemma gaLoopA_ok f : forall s t rng, same s t -> bytes rng -> agree (gaLoopA M f s rng) (gaLoopF f t rng).
Proof.
  induction f as [|f IH]; intros s t rng H Hb; [exact I|]. cbn [gaLoopA gaLoop].
  destruct (randFp rng) as [[x rng']|] eqn:ER; [|exact I]. destruct (randFp_red _ _ _ Hb ER) as [Hx Hb'].
  pose proof H as (HE & HK & HD & HA & HL & Ra & Rk).
  destruct (montEvalA_ok (gA _ s) x Ra Hx) as [E1 Q1]. rewrite E1. cbn [ob]. rewrite (isNonQuadResA_ok M HM _ Q1). cbn [ob]. cbv zeta.
  rewrite HA. remember (negb (isNonQuadRes (montEvalF (gA _ t) x) =? 0)) as sg eqn:Hsg. symmetry in Hsg.
  rewrite (HD sg). destruct (gDone fpOps t sg) eqn:Ed; [apply IH; assumption|].
  destruct (gaRoundA_ok s t x sg H Hx Hsg Ed) as (s' & E & Q). rewrite E. cbn [ob].
  pose proof Q as (_ & _ & HD' & _). rewrite !HD'. destruct (andb (gDone fpOps (gaRoundF t x) false) (gDone fpOps (gaRoundF t x) true)); [split; [exact Q|reflexivity]|apply IH; assumption].
Qed.
Lemma groupActionA_ok a e rng : fp_red a -> bytes rng -> groupActionA M a e rng = Some (groupActionFp a e rng).
Proof.
  intros Ha Hb. unfold groupActionA, groupActionFp, groupAction, groupAction_st, gaInit.
  destruct (initKA_ok e false) as [E0 Q0]. destruct (initKA_ok e true) as [E1 Q1]. rewrite E0. cbn [ob]. rewrite E1. cbn [ob].
  set (s := mkga fpOps (initE e) (fun s : bool => if s then initK e true else initK e false) (fun _ => false) a []).
  set (t := mkga fpOps (initE e) (initK e) (fun _ => false) a []).
  assert (H : same s t).
  { unfold same, s, t. cbn [gE gK gDone gA gLog]. do 6 (split; [first [exact Ha | reflexivity | intros []; reflexivity]|]). intros []; [exact Q1|exact Q0]. }
  pose proof (gaLoopA_ok (S (length rng)) s t rng H Hb) as A. unfold agree in A.
  destruct (gaLoopA M (S (length rng)) s rng) as [[[s' r']|]|], (gaLoopF (S (length rng)) t rng) as [[t' q']|]; try contradiction; cbn [ob].
  - destruct A as [(_ & _ & _ & EA & _) ->]. rewrite EA. reflexivity.
  - reflexivity.
Qed.

Lemma validLoopA_ok f : forall a rng, fp_red a -> bytes rng -> validLoopA M f a rng = Some (validLoopFp f a rng).
Proof.
  unfold validLoopFp. induction f as [|f IH]; intros a rng Ha Hb; [reflexivity|]. cbn [validLoopA validLoop].
  destruct (randFp rng) as [[x rng']|] eqn:ER; [|reflexivity]. destruct (randFp_red _ _ _ Hb ER) as [Hx Hb']. cbv zeta.
  assert (QA : pred (a, one)) by (split; [exact Ha|exact one_red]).
  assert (QX : pred (x, one)) by (split; [exact Hx|exact one_red]).
  destruct (xDblA_ok (x, one) (a, one) QX QA) as [E1 Q1]. rewrite E1. cbn [ob].
  destruct (xDblA_ok _ (a, one) Q1 QA) as [E2 Q2]. rewrite E2. cbn [ob].
  destruct (cofactorMulA_ok 75 _ (a, one) 0 primeCount (small 1) Q2 QA small1) as [E3 _]. rewrite E3. cbn [ob]. clear E1 E2 E3 Q1 Q2. change (car fpOps) with (list Z) in *.
  destruct (cofactorMulF 75 (xDblF (xDblF (x, one) (a, one)) (a, one)) (a, one) 0 primeCount (small 1)) as [[d r] o].
  destruct d; [reflexivity|apply IH; assumption].
Qed.
Lemma generatePublicKeyA_ok e rng : bytes rng -> generatePublicKeyA M e rng = Some (generatePublicKey e rng).
Proof.
  intro Hb. unfold generatePublicKeyA, generatePublicKey. change (repeat 0 numWords) with fpZero. rewrite (groupActionA_ok fpZero e rng zero_red Hb). cbn [ob].
  destruct (groupActionFp fpZero e rng); reflexivity.
Qed.
Lemma isLess_red a : fp_ok a -> isLess a p = true -> fp_red a.
Proof. intros Ha E. split; [exact Ha|]. rewrite (isLess_ok a p Ha p_ok) in E. apply Z.ltb_lt in E. exact E. Qed.
Lemma validateA_ok a rng : fp_ok a -> bytes rng -> validateA M a rng = Some (validate a rng).
Proof.
  intros Ha Hb. unfold validateA, validate. destruct (isLess a p) eqn:E; [|reflexivity]. cbn [negb].
  destruct (orb (equal a two) (equal a twoNeg)); [reflexivity|].
  rewrite (validLoopA_ok _ a rng (isLess_red a Ha E) Hb). cbn [ob]. destruct (validLoopFp (S (length rng)) a rng); reflexivity.
Qed.
Lemma validLoop_rest f : forall a rng r rest, bytes rng -> validLoopFp f a rng = Some (r, rest) -> bytes rest.
Proof.
  unfold validLoopFp. induction f as [|f IH]; intros a rng r rest Hb; [discriminate|]. cbn [validLoop].
  destruct (randFp rng) as [[x rng']|] eqn:ER; [|discriminate]. destruct (randFp_red _ _ _ Hb ER) as [_ Hb']. cbv zeta.
  destruct (cofactorMulF _ _ _ _ _ _) as [[d r'] o]. destruct d; [intro E; injection E as _ <-; exact Hb'|apply IH, Hb'].
Qed.
Lemma deriveSecretA_ok out a e rng : fp_ok a -> bytes rng -> deriveSecretA M out a e rng = Some (deriveSecret out a e rng).
Proof.
  intros Ha Hb. unfold deriveSecretA, deriveSecret. rewrite (validateA_ok a rng Ha Hb). cbn [ob].
  destruct (validate a rng) as [[[] rng']|] eqn:E; [|reflexivity|reflexivity].
  assert (H : fp_red a /\ bytes rng').
  { unfold validate in E. destruct (isLess a p) eqn:E1; [|discriminate]. cbn [negb] in E. split; [exact (isLess_red a Ha E1)|].
    destruct (orb (equal a two) (equal a twoNeg)); [discriminate|].
    destruct (validLoopFp (S (length rng)) a rng) as [[r rest]|] eqn:E2; [|discriminate]. injection E as -> ->. exact (validLoop_rest _ _ _ _ _ Hb E2). }
  destruct H as [H1 H2]. rewrite (groupActionA_ok a e rng' H1 H2). cbn [ob]. destruct (groupActionFp a e rng') as [[s r]|]; reflexivity.
Qed.
End Curve.
