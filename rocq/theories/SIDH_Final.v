(* The three SIDH parameter sets: the constants of SIDH_Consts.v are the torsion bases assumed in
   SIDH_Agree.v, so both parties agree, for limb vectors as the code has them. *)
From Coq Require Import ZArith List Lia Bool Znumtheory Field.
From Verif Require Import Lib MP NT Instr Prime63 PrimeCerts FieldAlg MontCurve MontAssoc MontLadder SIDH_Consts SIDH_Field SIDH_FieldProofs SIDH_Fp2Proofs SIDH_Inst
  SIDH_Curve SIDH_Line SIDH_CurveProofs SIDH_Points SIDH_Traverse SIDH_Impl SIDH_Agree SIDH_Basis63 SIDH_BasisCerts P_SIDH_Field SIDH_Bytes.
Import ListNotations.
Open Scope Z_scope.

Record bdata : Type := mkB { b_xP : G; b_yP : G; b_xQ : G; b_yQ : G; b_xR : G }.
Definition geq (p : Z) (g h : G) : bool := ((fst g - fst h) mod p =? 0) && ((snd g - snd h) mod p =? 0).
(* l is a vector of FpWords words below 2p holding c in Montgomery form *)
Definition mrep_b (F : fieldParams) (p : Z) (l : list Z) (c : Z) : bool :=
  words_b l && Nat.eqb (length l) (FpWords F) && (val l <? 2 * p) && ((val l - c * B ^ Z.of_nat (FpWords F)) mod p =? 0).
Definition rep_b (F : fieldParams) (p : Z) (x : fp2) (g : G) : bool := mrep_b F p (fst x) (fst g) && mrep_b F p (snd x) (snd g).
Definition g6 : G := (6, 0).
Definition curve_b (p : Z) (x y : G) : bool :=
  geq p (gmul y y) (gadd (gadd (gmul (gmul x x) x) (gmul g6 (gmul x x))) x).
Definition diff_b (p : Z) (d : bdata) : bool :=
  let dx := gsub (b_xP d) (b_xQ d) in let sy := gadd (b_yP d) (b_yQ d) in
  geq p (gmul (gadd (gadd (gadd (b_xR d) g6) (b_xP d)) (b_xQ d)) (gmul dx dx)) (gmul sy sy).
Definition dom_b (F : fieldParams) (p : Z) (D : domainParams) (d : bdata) : bool :=
  rep_b F p (AffineP D) (b_xP d) && rep_b F p (AffineQ D) (b_xQ d) && rep_b F p (AffineR D) (b_xR d) &&
  curve_b p (b_xP d) (b_yP d) && curve_b p (b_xQ d) (b_yQ d) && diff_b p d && negb (geq p (b_xP d) (b_xQ d)) && strat_ok (IsogenyStrategy D).
Definition param_b (P : sidhParams) (p : Z) (dA dB : bdata) : bool :=
  let F := pField P in
  rep_b F p (OneFp2 P) (1, 0) && rep_b F p (HalfFp2 P) ((p + 1) / 2, 0) && rep_b F p (InitA P) g6 && rep_b F p (InitC P) (1, 0) &&
  dom_b F p (pA P) dA && dom_b F p (pB P) dB && (snd (b_xP dB) =? 0) && (snd (b_xQ dB) =? 0) && (32 <? p).

(* two limb vectors holding the same residues; a limb vector holding some pair of residues *)
Definition same2 (F : fieldParams) (p : Z) (x y : fp2) : Prop := exists a b, holds2 F p x a b /\ holds2 F p y a b.
Definition valid2 (F : fieldParams) (p : Z) (x : fp2) : Prop := exists a b, 0 <= a < p /\ 0 <= b < p /\ holds2 F p x a b.
(* a secret of at least the bit length the ladder reads *)
Definition long (D : domainParams) (prv : list Z) : Prop := bytes prv /\ 0 <= SecretBitLen D <= 8 * Z.of_nat (length prv).

Section Inst.
  Variable P : sidhParams.
  Variable k : ctx.
  Variables dA dB : bdata.
  Notation FP := (pField P).
  Notation p := (cN k).
  Hypothesis OK : field_ok FP p.
  Hypothesis S34 : strategy34_ok FP p.
  Hypothesis CK : ctx_b k = true.
  Let m := length (IsogenyStrategy (pA P)).
  Let n := length (IsogenyStrategy (pB P)).
  Hypothesis CA : checkA k (b_xP dA) (b_xQ dA) (2 * m + 1) = true.
  Hypothesis CB : checkB k (fst (b_xP dB)) (fst (b_xQ dB)) n = true.
  Hypothesis PB : param_b P p dA dB = true.
  Notation pp := (fo_prime _ _ OK). Notation p34 := (fo_34 _ _ OK).
  Notation K := (K2 FP p OK).
  Notation ph := (phi p pp p34).
  Notation rep := (SIDH_Fp2Proofs.rep FP p OK).
  Add Field KF : (k_th K).
  Let pos : 0 < p. Proof. pose proof (p_gt1 p pp). lia. Qed.
  Definition a6 : K := kmul (kadd k1 k1) (kadd (kadd k1 k1) k1).
  Definition hlf : K := ph ((p + 1) / 2, 0).

  Lemma mrep_b_ok : forall l c, mrep_b FP p l c = true -> mrep FP p l c.
  Proof.
    intros l c H. unfold mrep_b in H. repeat (apply andb_prop in H; destruct H as [H ?]).
    split; [split; [apply words_b_ok; assumption|split; [apply Nat.eqb_eq; assumption|apply Z.ltb_lt; assumption]]|].
    apply Z.eqb_eq in H0. apply Z.mod_divide in H0; [exact H0|lia].
  Qed.
  Lemma rep_b_ok : forall x g, rep_b FP p x g = true -> rep x (ph g).
  Proof.
    intros x g H. unfold rep_b in H. apply andb_prop in H. destruct H as [H1 H2].
    split; cbn [fst snd phi]; rewrite fpv_fpm; (eapply mrep_cg; [apply mrep_b_ok; eassumption|apply cg_sym, (cg_mod FP p OK)]).
  Qed.
  Lemma geq_ok : forall g h, geq p g h = true <-> ph g = ph h.
  Proof.
    intros g h. unfold geq. rewrite andb_true_iff, !Z.eqb_eq. split.
    - intros [H1 H2]. apply phi_eq; apply Z.mod_divide; (exact H1 || exact H2 || lia).
    - intros E. pose proof (f_equal (fun x : F2_t p => fpv p (fst x)) E) as E1. pose proof (f_equal (fun x : F2_t p => fpv p (snd x)) E) as E2.
      change (fst g mod p = fst h mod p) in E1. change (snd g mod p = snd h mod p) in E2.
      split; rewrite Zminus_mod; [rewrite E1|rewrite E2]; rewrite Z.sub_diag; apply Z.mod_0_l; lia.
  Qed.
  Lemma ph6 : ph g6 = a6.
  Proof.
    unfold a6. change (@k1 K) with (ph g1). unfold K2. rewrite <- !phi_add, <- phi_mul. reflexivity.
  Qed.
  Lemma curve_ok : forall x y, curve_b p x y = true -> onc K a6 k1 (Aff K (ph x) (ph y)).
  Proof.
    intros x y H. apply geq_ok in H. rewrite ?phi_add, ?phi_mul, ?phi_add, ?phi_mul, ph6 in H.
    assert (G : forall X Y : K, kmul Y Y = kadd (kadd (kmul (kmul X X) X) (kmul a6 (kmul X X))) X -> onc K a6 k1 (Aff K X Y)).
    { intros X Y E. cbn [onc]. rewrite E. ring. }
    exact (G _ _ H).
  Qed.
  Lemma two_nz : kadd k1 k1 <> (k0 : K).
  Proof.
    intros E. change (@k1 K) with (ph g1) in E. unfold K2 in E. rewrite <- phi_add in E. change (@k0 (Fp2 p pp p34)) with (ph (0, 0)) in E.
    apply geq_ok in E. unfold geq in E. apply andb_prop in E. destruct E as [E _]. apply Z.eqb_eq in E.
    change (2 mod p = 0) in E. pose proof (fo_34 _ _ OK) as H. assert (2 < p) by (pose proof (Z.div_mod p 4 ltac:(lia)); pose proof (Z.div_pos p 4 ltac:(lia) ltac:(lia)); lia).
    rewrite Z.mod_small in E by lia. discriminate E.
  Qed.
  Record pfacts : Prop := {
    f_one : rep (OneFp2 P) k1; f_half : rep (HalfFp2 P) hlf; f_A : rep (InitA P) a6; f_C : rep (InitC P) k1;
    f_A' : dom_b FP p (pA P) dA = true; f_B' : dom_b FP p (pB P) dB = true;
    f_Px : snd (b_xP dB) = 0; f_Qx : snd (b_xQ dB) = 0; f_32 : 32 < p
  }.
  Lemma pf : pfacts.
  Proof.
    pose proof PB as H. unfold param_b in H. do 8 (apply andb_prop in H; destruct H as [H ?]).
    constructor; try assumption; try (apply Z.eqb_eq; assumption); try (apply Z.ltb_lt; assumption).
    - exact (rep_b_ok _ _ H).
    - exact (rep_b_ok _ _ H7).
    - rewrite <- ph6. exact (rep_b_ok _ _ H6).
    - exact (rep_b_ok _ _ H5).
  Qed.
  Lemma half_ok : kmul (kadd k1 k1) hlf = (k1 : K).
  Proof.
    unfold hlf. change (@k1 K) with (ph g1). unfold K2. rewrite <- phi_add, <- phi_mul. apply phi_eq; unfold gmul, gadd, g1; cbn [fst snd].
    - pose proof (fo_34 _ _ OK) as H. exists 1. pose proof (Z.div_mod p 4 ltac:(lia)). assert (E : (p + 1) / 2 = 2 * (p / 4) + 2).
      { replace (p + 1) with ((2 * (p / 4) + 2) * 2) by lia. apply Z.div_mul. lia. }
      rewrite E. lia.
    - exists 0. ring.
  Qed.
  Lemma ns6 : nonsing K a6.
  Proof.
    intros E. unfold a6 in E. change (@k1 K) with (ph g1) in E. unfold K2 in E. rewrite <- ?phi_add, <- ?phi_mul, <- ?phi_add, <- ?phi_mul in E.
    try change (@k0 (Fp2 p pp p34)) with (ph (0, 0)) in E. apply geq_ok in E. unfold geq in E. apply andb_prop in E. destruct E as [E _]. apply Z.eqb_eq in E.
    match type of E with ?x mod _ = _ => change x with 32 in E end. pose proof (f_32 pf). rewrite Z.mod_small in E by lia. discriminate E.
  Qed.
  Lemma rep_fpok : forall x a, rep x a -> fpok FP p (fst x) /\ fpok FP p (snd x).
  Proof. intros x a [[H1 _] [H2 _]]. split; assumption. Qed.
  Lemma simL : simS K hlf a6 (limbOps P) rep.
  Proof.
    destruct pf. constructor; cbn [limbOps so s0 sOne sHalf sCA sCC scswap]; try assumption.
    - apply sim_sidh; assumption.
    - split; cbn [fst snd]; apply (mrep_zero FP p OK).
    - intros x y x' y' c HX HY HC. destruct (rep_fpok _ _ HX) as [(W1 & L1 & _) (W2 & L2 & _)]. destruct (rep_fpok _ _ HY) as [(W3 & L3 & _) (W4 & L4 & _)].
      destruct (C39_cswap (fst x) (fst y) W1 W3) as [A0 A1]; [congruence|]. destruct (C39_cswap (snd x) (snd y) W2 W4) as [B0 B1]; [congruence|].
      unfold fp2cswap. destruct HC as [-> | ->]; cbn [Z.eqb].
      + rewrite A0, B0. cbn [fst snd]. rewrite <- !surjective_pairing. split; assumption.
      + rewrite A1, B1. cbn [fst snd]. rewrite <- !surjective_pairing. split; assumption.
  Qed.
  Notation V := (limbOps P).
  Notation LA := (limbDom (pA P)). Notation LB := (limbDom (pB P)).
  Definition PA : pnt K := Aff K (ph (b_xP dA)) (ph (b_yP dA)).
  Definition QA : pnt K := Aff K (ph (b_xQ dA)) (ph (b_yQ dA)).
  Definition PB' : pnt K := Aff K (ph (b_xP dB)) (ph (b_yP dB)).
  Definition QB : pnt K := Aff K (ph (b_xQ dB)) (ph (b_yQ dB)).
  Lemma aff1 : forall x : K, aff K (x, k1) = x. Proof. intros. unfold aff. cbn [fst snd]. field. apply k_one_nz. Qed.
  Lemma RX_ok : forall x g y, rep_b FP p x g = true -> RX K V rep x (Aff K (ph g) y).
  Proof. intros x g y H. split; cbn [xp snd]; [apply k_one_nz|]. rewrite aff1. apply rep_b_ok. exact H. Qed.
  Lemma xdiff : forall x1 y1 x2 y2 x3 : K, x1 <> x2 ->
    kmul (kadd (kadd (kadd x3 a6) x1) x2) (kmul (ksub x1 x2) (ksub x1 x2)) = kmul (kadd y1 y2) (kadd y1 y2) ->
    xp K (padd K a6 k1 (Aff K x1 y1) (pneg K (Aff K x2 y2))) = (x3, k1).
  Proof.
    intros x1 y1 x2 y2 x3 NE E. cbn [padd pneg]. destruct (k_dec x1 x2) as [e|e]; [contradiction|]. unfold chord. cbn [xp].
    f_equal. assert (N1 : ksub x2 x1 <> (k0 : K)) by (apply k_sub_nz; auto).
    apply (k_cancel K (kmul (ksub x2 x1) (ksub x2 x1))); [apply k_mul_nz; assumption|].
    transitivity (ksub (kmul (kadd (kadd (kadd x3 a6) x1) x2) (kmul (ksub x1 x2) (ksub x1 x2))) (kmul (kadd (kadd a6 x1) x2) (kmul (ksub x2 x1) (ksub x2 x1))) : K); [|ring].
    rewrite E. field. exact N1.
  Qed.
  Lemma RX_diff : forall D d, dom_b FP p D d = true ->
    RX K V rep (AffineR D) (padd K a6 k1 (Aff K (ph (b_xP d)) (ph (b_yP d))) (pneg K (Aff K (ph (b_xQ d)) (ph (b_yQ d))))).
  Proof.
    intros D d H. unfold dom_b in H. do 7 (apply andb_prop in H; destruct H as [H ?]).
    apply negb_true_iff in H1. assert (NE : ph (b_xP d) <> ph (b_xQ d)) by (intros E; apply geq_ok in E; congruence).
    apply geq_ok in H2. rewrite ?phi_mul, ?phi_add, ?phi_sub, ph6 in H2.
    unfold RX. rewrite (xdiff _ _ _ _ (ph (b_xR d)) NE H2). split; cbn [snd]; [apply k_one_nz|].
    rewrite aff1. apply rep_b_ok. exact H5.
  Qed.
  Lemma emb_ph : forall g, snd g = 0 -> emb k pp p34 (fst g) = ph g.
  Proof. intros [a b] H. cbn [snd fst] in *. subst. reflexivity. Qed.
  Lemma bas : basis K a6 V LA LB PA QA PB' QB.
  Proof.
    destruct pf. pose proof f_A'0 as HA. pose proof f_B'0 as HB. unfold dom_b in HA, HB.
    do 7 (apply andb_prop in HA; destruct HA as [HA ?]). do 7 (apply andb_prop in HB; destruct HB as [HB ?]).
    destruct (checkA_ok k CK pp p34 _ _ _ CA) as [A1 A2]. destruct (checkB_ok k CK pp p34 _ _ _ CB) as (B1 & B2 & B3 & B4 & B5).
    rewrite !emb_ph in * by assumption.
    constructor; try assumption; try (apply curve_ok; assumption).
  Qed.

  Definition wA (prv : list Z) := walk4 K (S m) a6 (kerA K a6 V LA PA QA prv).
  Definition wB (prv : list Z) := walk3 K (S n) a6 (kerB K a6 V LB PB' QB prv).
  Definition img3 (w : K * (pt K -> pt K)) (X Y : pnt K) : K * K * K :=
    (aff K (snd w (xp K X)), aff K (snd w (xp K Y)), aff K (snd w (xp K (padd K a6 k1 X (pneg K Y))))).
  Definition rep3 (l : list fp2) (a : K * K * K) : Prop :=
    exists u v t, l = [u; v; t] /\ rep u (fst (fst a)) /\ rep v (snd (fst a)) /\ rep t (snd a).
  Definition jAB (ka kb : list Z) : K := jinv K (fst (walk3 K (S n) (fst (wA ka)) (snd (wA ka) (kerB K a6 V LB PB' QB kb)))).
  Ltac doms := destruct pf as [_ _ _ _ HA HB _ _ _]; pose proof HA as HA'; pose proof HB as HB'; unfold dom_b in HA', HB';
    do 7 (apply andb_prop in HA'; destruct HA' as [HA' ?]); do 7 (apply andb_prop in HB'; destruct HB' as [HB' ?]).
  Theorem final_pubA : forall ka, long (pA P) ka -> exists l, PublicKeyGenA_l P ka = Ret l /\ rep3 l (img3 (wA ka) PB' QB).
  Proof.
    intros ka HK. doms.
    destruct (pubA_ok K two_nz hlf a6 ns6 V rep simL LA LB PA QA PB' QB bas) with (prv := ka) as (u & v & t & E & R1 & R2 & R3);
      try assumption; try (apply RX_ok; assumption); try (apply RX_diff; assumption).
    exists [u; v; t]. split; [exact E|]. exists u, v, t. split; [reflexivity|]. split; [exact R1|]. split; [exact R2|exact R3].
  Qed.
  Theorem final_pubB : forall kb, long (pB P) kb -> exists l, PublicKeyGenB_l P kb = Ret l /\ rep3 l (img3 (wB kb) PA QA).
  Proof.
    intros kb HK. doms.
    destruct (pubB_ok K two_nz hlf a6 ns6 V rep simL LA LB PA QA PB' QB bas) with (prv := kb) as (u & v & t & E & R1 & R2 & R3);
      try assumption; try (apply RX_ok; assumption); try (apply RX_diff; assumption).
    exists [u; v; t]. split; [exact E|]. exists u, v, t. split; [reflexivity|]. split; [exact R1|]. split; [exact R2|exact R3].
  Qed.
  Theorem final_A : forall ka kb u v t, long (pA P) ka -> long (pB P) kb -> rep3 [u; v; t] (img3 (wB kb) PA QA) ->
    exists j, DeriveJA V LA ka (u, v, t) = Ret j /\ rep j (jAB ka kb).
  Proof.
    intros ka kb u v t HKA HKB (u' & v' & t' & E & R1 & R2 & R3). injection E as <- <- <-. doms.
    pose proof (kerA_ord K two_nz a6 ns6 V LA LB PA QA PB' QB bas ka HKA) as KA. pose proof (kerB_ord K two_nz a6 ns6 V LA LB PA QA PB' QB bas kb HKB) as KB.
    destruct (walk3_hom K two_nz (S n) a6 _ ns6 KB) as [HH3 O3].
    destruct (deriveA_ok K two_nz hlf a6 half_ok ns6 V rep simL LA LB PA QA PB' QB bas) with (prv := ka) (a' := fst (wB kb)) (h := snd (wB kb)) (u := u) (v := v) (t := t)
      as (j & EJ & RJ); try assumption.
    { exact (O3 (S m)). }
    exists j. split; [exact EJ|]. pose proof (walks_agree K two_nz (S m) (S n) a6 _ _ ns6 KA KB) as W.
    unfold jAB. unfold wA, wB in *. rewrite <- W. exact RJ.
  Qed.
  Theorem final_B : forall ka kb u v t, long (pA P) ka -> long (pB P) kb -> rep3 [u; v; t] (img3 (wA ka) PB' QB) ->
    exists j, DeriveJB V LB kb (u, v, t) = Ret j /\ rep j (jAB ka kb).
  Proof.
    intros ka kb u v t HKA HKB (u' & v' & t' & E & R1 & R2 & R3). injection E as <- <- <-. doms.
    pose proof (kerA_ord K two_nz a6 ns6 V LA LB PA QA PB' QB bas ka HKA) as KA.
    destruct (walk4_hom K two_nz (S m) a6 _ ns6 KA) as [HH4 O4].
    destruct (deriveB_ok K two_nz hlf a6 ns6 V rep simL LA LB PA QA PB' QB bas) with (prv := kb) (a' := fst (wA ka)) (h := snd (wA ka)) (u := u) (v := v) (t := t)
      as (j & EJ & RJ); try assumption.
    { exact (O4 (S n)). }
    exists j. split; [exact EJ|exact RJ].
  Qed.

  (* the bytes written for a field element *)
  Hypothesis BL : 0 <= Bytelen P <= 8 * Z.of_nat (FpWords FP).
  Definition enc (v : K) : list Z := le_enc (Z.to_nat (Bytelen P)) (fpv p (fst v)) ++ le_enc (Z.to_nat (Bytelen P)) (fpv p (snd v)).
  Lemma enc_ok : forall ss j v, rep j v -> 2 * Bytelen P <= Z.of_nat (length ss) ->
    Fp2ToBytes ss (FromMontgomery FP j) (Bytelen P) = Ret (enc v ++ skipn (Z.to_nat (2 * Bytelen P)) ss).
  Proof.
    intros ss j v [M1 M2] L. destruct (fromMont1 FP p OK _ _ M1) as (A1 & A2 & A3). destruct (fromMont1 FP p OK _ _ M2) as (B1 & B2 & B3).
    rewrite Fp2ToBytes_ok; cbn [FromMontgomery fst snd]; try assumption; try (rewrite ?A2, ?B2; lia).
    rewrite A3, B3. unfold enc. rewrite <- app_assoc. rewrite !(fpv_mod p). reflexivity.
  Qed.
  Theorem final_DA : forall ka kb u v t ss, long (pA P) ka -> long (pB P) kb -> rep3 [u; v; t] (img3 (wB kb) PA QA) -> 2 * Bytelen P <= Z.of_nat (length ss) ->
    DeriveSecretA_l P ss ka (u, v, t) = Ret (enc (jAB ka kb) ++ skipn (Z.to_nat (2 * Bytelen P)) ss).
  Proof.
    intros ka kb u v t ss HA HB R3 L. destruct (final_A ka kb u v t HA HB R3) as (j & E & RJ). unfold DeriveSecretA_l. rewrite E. cbn [bind].
    apply enc_ok; assumption.
  Qed.
  Theorem final_DB : forall ka kb u v t ss, long (pA P) ka -> long (pB P) kb -> rep3 [u; v; t] (img3 (wA ka) PB' QB) -> 2 * Bytelen P <= Z.of_nat (length ss) ->
    DeriveSecretB_l P ss kb (u, v, t) = Ret (enc (jAB ka kb) ++ skipn (Z.to_nat (2 * Bytelen P)) ss).
  Proof.
    intros ka kb u v t ss HA HB R3 L. destruct (final_B ka kb u v t HA HB R3) as (j & E & RJ). unfold DeriveSecretB_l. rewrite E. cbn [bind].
    apply enc_ok; assumption.
  Qed.
  (* two limb vectors holding the same residues represent the same field element *)
  Notation same := (same2 FP p).
  Lemma same_rep : forall x y v, rep x v -> same x y -> rep y v.
  Proof.
    intros x y v RX (a & b & [H1 H2] & [H3 H4]). apply (holds_mrep _ _ _ _ OK) in H1, H2, H3, H4.
    destruct RX as [R1 R2]. split.
    - eapply mrep_cg; [exact H3|]. eapply mrep_inj; [exact OK|exact H1|exact R1].
    - eapply mrep_cg; [exact H4|]. eapply mrep_inj; [exact OK|exact H2|exact R2].
  Qed.
  Lemma rep_holds : forall x v, rep x v -> holds2 FP p x (fpv p (fst v)) (fpv p (snd v)).
  Proof. intros x v [H1 H2]. split; apply (holds_mrep _ _ _ _ OK); assumption. Qed.
  Notation valid := (valid2 FP p).
  Lemma rep_valid : forall x v, rep x v -> valid x.
  Proof. intros x v H. exists (fpv p (fst v)), (fpv p (snd v)). split; [apply (fpv_range p pp)|]. split; [apply (fpv_range p pp)|]. apply rep_holds. exact H. Qed.
  Theorem final : forall ka kb, long (pA P) ka -> long (pB P) kb ->
    exists uA vA tA uB vB tB s,
      PublicKeyGenA_l P ka = Ret [uA; vA; tA] /\ PublicKeyGenB_l P kb = Ret [uB; vB; tB] /\
      (valid uA /\ valid vA /\ valid tA) /\ (valid uB /\ valid vB /\ valid tB) /\
      bytes s /\ Z.of_nat (length s) = 2 * Bytelen P /\
      (forall u v t ss, same uB u -> same vB v -> same tB t -> 2 * Bytelen P <= Z.of_nat (length ss) ->
        DeriveSecretA_l P ss ka (u, v, t) = Ret (s ++ skipn (Z.to_nat (2 * Bytelen P)) ss)) /\
      (forall u v t ss, same uA u -> same vA v -> same tA t -> 2 * Bytelen P <= Z.of_nat (length ss) ->
        DeriveSecretB_l P ss kb (u, v, t) = Ret (s ++ skipn (Z.to_nat (2 * Bytelen P)) ss)).
  Proof.
    intros ka kb HA HB. destruct (final_pubA ka HA) as (lA & EA & uA & vA & tA & -> & A1 & A2 & A3).
    destruct (final_pubB kb HB) as (lB & EB & uB & vB & tB & -> & B1 & B2 & B3).
    exists uA, vA, tA, uB, vB, tB, (enc (jAB ka kb)). split; [exact EA|]. split; [exact EB|].
    split; [exact (conj (rep_valid _ _ A1) (conj (rep_valid _ _ A2) (rep_valid _ _ A3)))|].
    split; [exact (conj (rep_valid _ _ B1) (conj (rep_valid _ _ B2) (rep_valid _ _ B3)))|].
    split; [unfold enc; apply bytes_app; apply le_enc_bytes|]. split; [unfold enc; rewrite app_length, !le_enc_length; lia|]. split.
    - intros u v t ss S1 S2 S3 L. apply final_DA; try assumption. exists u, v, t. split; [reflexivity|].
      split; [exact (same_rep uB u _ B1 S1)|]. split; [exact (same_rep vB v _ B2 S2)|exact (same_rep tB t _ B3 S3)].
    - intros u v t ss S1 S2 S3 L. apply final_DB; try assumption. exists u, v, t. split; [reflexivity|].
      split; [exact (same_rep uA u _ A1 S1)|]. split; [exact (same_rep vA v _ A2 S2)|exact (same_rep tA t _ A3 S3)].
  Qed.
End Inst.

Definition dA434 := mkB xPA434 yPA434 xQA434 yQA434 xRA434. Definition dB434 := mkB xPB434 yPB434 xQB434 yQB434 xRB434.
Definition dA503 := mkB xPA503 yPA503 xQA503 yQA503 xRA503. Definition dB503 := mkB xPB503 yPB503 xQB503 yQB503 xRB503.
Definition dA751 := mkB xPA751 yPA751 xQA751 yQA751 xRA751. Definition dB751 := mkB xPB751 yPB751 xQB751 yQB751 xRB751.
Lemma pb434 : param_b params434 (cN p434_ctx) dA434 dB434 = true. Proof. vm_compute. reflexivity. Qed.
Lemma pb503 : param_b params503 (cN p503b_ctx) dA503 dB503 = true. Proof. vm_compute. reflexivity. Qed.
Lemma pb751 : param_b params751 (cN p751_ctx) dA751 dB751 = true. Proof. vm_compute. reflexivity. Qed.
Lemma cN434 : cN p434_ctx = p434. Proof. vm_compute. reflexivity. Qed.
Lemma cN503 : cN p503b_ctx = p503. Proof. vm_compute. reflexivity. Qed.
Lemma cN751 : cN p751_ctx = p751. Proof. vm_compute. reflexivity. Qed.

Lemma lA434 : checkA p434_ctx xPA434 xQA434 (2 * length (IsogenyStrategy (pA params434)) + 1) = true. Proof. exact checkA434. Qed.
Lemma lA503 : checkA p503b_ctx xPA503 xQA503 (2 * length (IsogenyStrategy (pA params503)) + 1) = true. Proof. exact checkA503. Qed.
Lemma lA751 : checkA p751_ctx xPA751 xQA751 (2 * length (IsogenyStrategy (pA params751)) + 1) = true. Proof. exact checkA751. Qed.
Lemma lB434 : checkB p434_ctx (fst xPB434) (fst xQB434) (length (IsogenyStrategy (pB params434))) = true. Proof. exact checkB434. Qed.
Lemma lB503 : checkB p503b_ctx (fst xPB503) (fst xQB503) (length (IsogenyStrategy (pB params503))) = true. Proof. exact checkB503. Qed.
Lemma lB751 : checkB p751_ctx (fst xPB751) (fst xQB751) (length (IsogenyStrategy (pB params751))) = true. Proof. exact checkB751. Qed.
Lemma okc434 : field_ok (pField params434) (cN p434_ctx). Proof. rewrite cN434. exact ok434. Qed.
Lemma okc503 : field_ok (pField params503) (cN p503b_ctx). Proof. rewrite cN503. exact ok503. Qed.
Lemma okc751 : field_ok (pField params751) (cN p751_ctx). Proof. rewrite cN751. exact ok751. Qed.
Lemma s34c434 : strategy34_ok (pField params434) (cN p434_ctx). Proof. rewrite cN434. exact s34_434. Qed.
Lemma s34c503 : strategy34_ok (pField params503) (cN p503b_ctx). Proof. rewrite cN503. exact s34_503. Qed.
Lemma s34c751 : strategy34_ok (pField params751) (cN p751_ctx). Proof. rewrite cN751. exact s34_751. Qed.
Lemma bl434 : 0 <= Bytelen params434 <= 8 * Z.of_nat (FpWords (pField params434)). Proof. cbn; lia. Qed.
Lemma bl503 : 0 <= Bytelen params503 <= 8 * Z.of_nat (FpWords (pField params503)). Proof. cbn; lia. Qed.
Lemma bl751 : 0 <= Bytelen params751 <= 8 * Z.of_nat (FpWords (pField params751)). Proof. cbn; lia. Qed.
(* the three parameter sets and their primes *)
Definition sidh_set (P : sidhParams) (p : Z) : Prop :=
  (P = params434 /\ p = p434) \/ (P = params503 /\ p = p503) \/ (P = params751 /\ p = p751).
Definition sidh_agrees (P : sidhParams) (p : Z) : Prop := forall ka kb, long (pA P) ka -> long (pB P) kb ->
  exists uA vA tA uB vB tB s,
    PublicKeyGenA_l P ka = Ret [uA; vA; tA] /\ PublicKeyGenB_l P kb = Ret [uB; vB; tB] /\
    (valid2 (pField P) p uA /\ valid2 (pField P) p vA /\ valid2 (pField P) p tA) /\ (valid2 (pField P) p uB /\ valid2 (pField P) p vB /\ valid2 (pField P) p tB) /\
    bytes s /\ Z.of_nat (length s) = 2 * Bytelen P /\
    (forall u v t ss, same2 (pField P) p uB u -> same2 (pField P) p vB v -> same2 (pField P) p tB t -> 2 * Bytelen P <= Z.of_nat (length ss) ->
      DeriveSecretA_l P ss ka (u, v, t) = Ret (s ++ skipn (Z.to_nat (2 * Bytelen P)) ss)) /\
    (forall u v t ss, same2 (pField P) p uA u -> same2 (pField P) p vA v -> same2 (pField P) p tA t -> 2 * Bytelen P <= Z.of_nat (length ss) ->
      DeriveSecretB_l P ss kb (u, v, t) = Ret (s ++ skipn (Z.to_nat (2 * Bytelen P)) ss)).
Theorem agrees434 : sidh_agrees params434 p434.
Proof. rewrite <- cN434. exact (final params434 p434_ctx dA434 dB434 okc434 s34c434 ctx434 lA434 lB434 pb434 bl434). Qed.
Theorem agrees503 : sidh_agrees params503 p503.
Proof. rewrite <- cN503. exact (final params503 p503b_ctx dA503 dB503 okc503 s34c503 ctx503 lA503 lB503 pb503 bl503). Qed.
Theorem agrees751 : sidh_agrees params751 p751.
Proof. rewrite <- cN751. exact (final params751 p751_ctx dA751 dB751 okc751 s34c751 ctx751 lA751 lB751 pb751 bl751). Qed.
Theorem sidh_set_agrees : forall P p, sidh_set P p -> sidh_agrees P p.
Proof. intros P p [[-> ->]|[[-> ->]|[-> ->]]]; [exact agrees434|exact agrees503|exact agrees751]. Qed.
Print Assumptions sidh_set_agrees.
