(* The three-point ladder, key generation and secret derivation of core.go, and agreement of the two
   parties, over any field implementation that simulates an abstract field. *)
From Coq Require Import ZArith List Lia Bool Field.
From Verif Require Import Lib MP Instr FieldAlg MontCurve MontAssoc MontLadder SIDH_Consts SIDH_Field SIDH_Curve SIDH_Line SIDH_CurveProofs SIDH_Points SIDH_Traverse SIDH_Impl.
Import ListNotations.
Open Scope Z_scope.

Definition bytes (l : list Z) : Prop := Forall (fun b => 0 <= b < 256) l.
(* the scalar the ladder uses: the low nbits bits of the little-endian secret *)
Definition secret (nbits : Z) (prv : list Z) : Z := bval prv mod 2 ^ nbits.

Section Agree.
  Variable F : fld.
  Hypothesis two_nz : kadd k1 k1 <> (k0 : F).
  Variables half a0 : F.
  Hypothesis half_ok : kmul (kadd k1 k1) half = k1.
  Hypothesis NS0 : nonsing F a0.
  Variable V : sops.
  Variable R : car (so V) -> F -> Prop.
  Hypothesis SS : simS F half a0 V R.
  Notation pt := (pt F). Notation eqv := (eqv F). Notation nz := (nz F). Notation aff := (aff F).
  Notation RP := (RP F V R). Notation RC := (RC F V R).
  Notation pnt := (pnt F). Notation onc := (onc F a0 k1). Notation padd := (padd F a0 k1). Notation pneg := (pneg F).
  Notation pmul := (pmul F a0 k1). Notation comb := (comb F a0). Notation xp := (xp F). Notation Inf := (Inf F).
  Let one_nz := k_one_nz F.
  Add Field FA : (k_th F).
  Let onc_add := padd_onc F a0 k1 two_nz one_nz.
  Let onc_mul := pmul_onc F a0 k1 two_nz one_nz.
  Let onc_neg := pneg_onc F a0 k1.

  Section Ladder.
    Variables (a' : F) (h : pt -> pt).
    Hypothesis H : xhom F a0 a' h.
    Variables (P Q : pnt) (N : Z).
    Hypothesis HP : onc P. Hypothesis HQ : onc Q.
    Hypothesis N1 : 1 <= N. Hypothesis NQ : pmul N Q = Inf.
    Hypothesis good : forall j, 0 <= j -> fst (h (xp (comb P Q j))) <> k0 /\ snd (h (xp (comb P Q j))) <> k0.
    Variable scalar : list Z.
    Hypothesis HS : bytes scalar.
    Let k := bval scalar.
    Let k_pos : 0 <= k. Proof. apply bval_nonneg. exact HS. Qed.
    (* differential addition through h *)
    Lemma h_add : forall A B, onc A -> onc B -> fst (h (xp (padd A (pneg B)))) <> k0 -> snd (h (xp (padd A (pneg B)))) <> k0 ->
      eqv (dadd F (h (xp A)) (h (xp B)) (h (xp (padd A (pneg B))))) (h (xp (padd A B))).
    Proof.
      intros A B HA HB N2 N3. eapply eqv_trans.
      - apply (xh_add F _ _ _ H); [|exact N2|exact N3]. rewrite <- (xp_neg F B) at 1. apply rel_points; auto.
      - apply (xh_eqv F _ _ _ H). apply xp_add; auto.
        + intros E. apply N2. apply (xh_zero F _ _ _ H). exact E.
        + intros E. apply N3. apply (xh_inf F _ _ _ H). exact E.
    Qed.
    Lemma h_dbl : forall A, onc A -> eqv (dbl F a' (h (xp A))) (h (xp (padd A A))).
    Proof.
      intros A HA. eapply eqv_trans; [apply (xh_dbl F _ _ _ H)|]. apply (xh_eqv F _ _ _ H). apply xp_dbl; auto.
    Qed.
    Let bit (i : nat) : Z := Z.b2z (Z.testbit k (Z.of_nat i)).
    Let bitv : forall i, bit i = 0 \/ bit i = 1.
    Proof. intros i. unfold bit. destruct (Z.testbit k (Z.of_nat i)); cbn; auto. Qed.
    Let Ai (i : nat) : pnt := comb P Q (k mod 2 ^ Z.of_nat i).
    Let Bi (i : nat) : pnt := pmul (2 ^ Z.of_nat i) Q.
    Definition lst (i : nat) (pb : Z) (st : point V * point V * point V * Z) : Prop :=
      let '(R0, R1, R2, b) := st in b = pb /\ RP R0 (h (xp (Bi i))) /\
      RP R1 (if pb =? 0 then h (xp (Ai i)) else h (xp (padd (Bi i) (pneg (Ai i))))) /\
      RP R2 (if pb =? 0 then h (xp (padd (Bi i) (pneg (Ai i)))) else h (xp (Ai i))).
    Lemma HAi : forall i, onc (Ai i). Proof. intros. apply comb_onc; auto. Qed.
    Lemma HBi : forall i, onc (Bi i). Proof. intros. unfold Bi. auto. Qed.
    Lemma Ai_mod : forall i, 0 <= k mod 2 ^ Z.of_nat i.
    Proof. intros i. apply Z.mod_pos_bound. apply Z.pow_pos_nonneg; lia. Qed.
    Lemma goodA : forall i, fst (h (xp (Ai i))) <> k0 /\ snd (h (xp (Ai i))) <> k0.
    Proof. intros i. apply good, Ai_mod. Qed.
    Lemma goodD : forall i, fst (h (xp (padd (Bi i) (pneg (Ai i))))) <> k0 /\ snd (h (xp (padd (Bi i) (pneg (Ai i))))) <> k0.
    Proof.
      intros i. pose proof (HAi i) as HA. pose proof (HBi i) as HB. rewrite <- xp_neg. rewrite (neg_sub F two_nz a0) by assumption.
      assert (E : padd (Ai i) (pneg (Bi i)) = comb P Q (k mod 2 ^ Z.of_nat i + (N - 1) * 2 ^ Z.of_nat i)).
      { assert (0 < 2 ^ Z.of_nat i) by (apply Z.pow_pos_nonneg; lia). pose proof (Ai_mod i).
        assert (G : padd (Bi i) (pmul ((N - 1) * 2 ^ Z.of_nat i) Q) = Inf).
        { unfold Bi. rewrite <- (pmul_add F a0 k1) by (auto; nia).
          replace (2 ^ Z.of_nat i + (N - 1) * 2 ^ Z.of_nat i) with (2 ^ Z.of_nat i * N) by ring.
          rewrite (pmul_mul F a0 k1) by (auto; lia). rewrite NQ. apply pmul_inf. }
        apply padd_eq_inf in G. unfold Ai, SIDH_Points.comb. rewrite (pmul_add F a0 k1) by (auto; nia).
        rewrite <- G. apply padd_assoc; auto. }
      rewrite E. apply good. pose proof (Ai_mod i). assert (0 < 2 ^ Z.of_nat i) by (apply Z.pow_pos_nonneg; lia). nia.
    Qed.
    Lemma A_step : forall i, Ai (S i) = if bit i =? 0 then Ai i else padd (Bi i) (Ai i).
    Proof.
      intros i. unfold Ai at 1. rewrite mod_bit. fold (bit i). pose proof (Ai_mod i). assert (0 < 2 ^ Z.of_nat i) by (apply Z.pow_pos_nonneg; lia).
      destruct (bitv i) as [-> | ->]; cbn [Z.eqb].
      - rewrite Z.mul_0_r, Z.add_0_r. reflexivity.
      - rewrite Z.mul_1_r. unfold Ai, SIDH_Points.comb. rewrite (pmul_add F a0 k1) by (auto; lia). fold (Bi i).
        rewrite <- (padd_assoc F a0 k1) by (auto; apply HBi). apply padd_comm; auto; apply HBi.
    Qed.
    Lemma B_step : forall i, Bi (S i) = padd (Bi i) (Bi i).
    Proof.
      intros i. unfold Bi. rewrite Nat2Z.inj_succ, Z.pow_succ_r by lia. assert (0 < 2 ^ Z.of_nat i) by (apply Z.pow_pos_nonneg; lia).
      rewrite (pmul_mul F a0 k1) by (auto; lia). symmetry. apply pmul_2; auto.
    Qed.
    Lemma step_ok : forall a24 i pb st, (i < 8 * length scalar)%nat -> pb = 0 \/ pb = 1 ->
      R a24 (kdiv (kadd a' (kadd k1 k1)) (kmul (kadd k1 k1) (kadd k1 k1))) -> lst i pb st ->
      exists st', ladder_step V a24 scalar (Ret st) i = Ret st' /\ lst (S i) (bit i) st'.
    Proof.
      intros a24 i pb [[[R0 R1] R2] b] LI HB H24 (-> & I0 & I1 & I2). unfold ladder_step. cbn [bind].
      rewrite (scalarBit_ok scalar i HS LI). fold k. fold (bit i). cbn [bind].
      assert (XB : Z.lxor pb (bit i) = 0 \/ Z.lxor pb (bit i) = 1) by (destruct HB as [-> | ->], (bitv i) as [-> | ->]; cbn; auto).
      destruct (lcswap F half a0 V R SS _ _ _ _ _ I1 I2 XB) as [S1 S2].
      destruct (cswapPt V R1 R2 (Z.lxor pb (bit i))) as [T1 T2]. cbn [fst snd] in S1, S2.
      pose proof (HAi i) as HA. pose proof (HBi i) as HBB. destruct (goodA i) as [GA1 GA2]. destruct (goodD i) as [GD1 GD2].
      set (A := Ai i) in *. set (B := Bi i) in *. set (D := padd B (pneg A)) in *. assert (HD : onc D) by (unfold D; auto).
      assert (S1' : RP T1 (if bit i =? 0 then h (xp A) else h (xp D))) by (destruct HB as [-> | ->], (bitv i) as [E | E]; rewrite E in *; exact S1).
      assert (S2' : RP T2 (if bit i =? 0 then h (xp D) else h (xp A))) by (destruct HB as [-> | ->], (bitv i) as [E | E]; rewrite E in *; exact S2).
      destruct (lDbladd F two_nz half a0 V R SS a' a24 R0 T2 T1 _ _ _ H24 I0 S2' S1') as [U0 U2].
      destruct (xDbladd V R0 T2 T1 a24) as [W0 W2]. cbn [fst snd] in U0, U2.
      exists (W0, T1, W2, bit i). split; [reflexivity|]. split; [reflexivity|]. rewrite B_step. fold B. split.
      - eapply RP_eqv; [exact U0|]. apply h_dbl. exact HBB.
      - rewrite A_step. fold A B. destruct (bitv i) as [E | E]; rewrite E in *; cbn [Z.eqb Pos.eqb] in *.
        + split; [exact S1'|]. eapply RP_eqv; [exact U2|].
          pose proof (h_add B D HBB HD) as G. unfold D in G at 1 2 4. rewrite (sub_sub F two_nz a0 NS0 A B) in G by assumption.
          specialize (G GA1 GA2). unfold D in G at 2. rewrite (dbl_sub F two_nz a0 NS0) in G by assumption. exact G.
        + split.
          * rewrite (sub_dbl F two_nz a0 NS0) by assumption. exact S1'.
          * eapply RP_eqv; [exact U2|]. apply (h_add B A HBB HA GD1 GD2).
    Qed.
    Lemma steps_ok : forall a24 n, (n <= 8 * length scalar)%nat -> forall st,
      R a24 (kdiv (kadd a' (kadd k1 k1)) (kmul (kadd k1 k1) (kadd k1 k1))) -> lst 0 0 st ->
      exists st' pb, (pb = 0 \/ pb = 1) /\ fold_left (ladder_step V a24 scalar) (seq 0 n) (Ret st) = Ret st' /\ lst n pb st'.
    Proof.
      intros a24 n Hn st H24 I0. induction n as [|n IH].
      - exists st, 0. split; [auto|]. split; [reflexivity|exact I0].
      - destruct IH as (st1 & pb & HB & E & I1); [lia|]. destruct (step_ok a24 n pb st1) as (st2 & E2 & I2); [lia|assumption|assumption|assumption|].
        exists st2, (bit n). split; [apply bitv|]. split; [|exact I2]. rewrite seq_S, fold_left_app, E. cbn [fold_left Nat.add]. exact E2.
    Qed.
    Theorem ladder3_ok : forall c xP xQ xR nbits, RC c a' -> RP xP (h (xp P)) -> RP xQ (h (xp Q)) -> RP xR (h (xp (padd P (pneg Q)))) ->
      0 <= nbits <= 8 * Z.of_nat (length scalar) ->
      exists x, ScalarMul3Pt V c xP xQ xR nbits scalar = Ret x /\ RP x (h (xp (comb P Q (secret nbits scalar)))).
    Proof.
      intros c xP xQ xR nbits HC IP IQ IR HN. unfold ScalarMul3Pt.
      pose proof (lA24 F two_nz half a0 V R SS c a' HC) as H24.
      destruct (steps_ok (CalcAplus2Over4 V c) (Z.to_nat nbits) ltac:(lia) (xQ, xP, xR, 0) H24) as ([[[R0 R1] R2] b] & pb & HB & E & (-> & _ & I1 & I2)).
      - split; [reflexivity|]. unfold Ai, Bi. change (2 ^ Z.of_nat 0) with 1. rewrite pmul_1, Z.mod_1_r. cbn [Z.eqb].
        assert (E0 : comb P Q 0 = P) by apply padd_inf_r. rewrite E0. split; [exact IQ|]. split; [exact IP|].
        rewrite <- xp_neg. rewrite (neg_sub F two_nz a0) by assumption. exact IR.
      - rewrite E. cbn [bind]. destruct (lcswap F half a0 V R SS _ _ _ _ _ I1 I2 HB) as [S1 _].
        destruct (cswapPt V R1 R2 pb) as [T1 T2]. cbn [fst] in S1. exists T1. split; [reflexivity|].
        unfold secret. fold k. replace nbits with (Z.of_nat (Z.to_nat nbits)) by lia. destruct HB as [-> | ->]; exact S1.
    Qed.
  End Ladder.

  (* ---------- the protocol ---------- *)
  (* a field element of the implementation holding the x-coordinate of a point *)
  Definition RX (x : car (so V)) (P : pnt) : Prop := snd (xp P) <> k0 /\ R x (aff (xp P)).
  Lemma RX_RP : forall x P, RX x P -> RP (affPt V x) (xp P).
  Proof.
    intros x P [N H]. exists (aff (xp P), k1). split; [split; [exact H|exact (ss_1 _ _ _ _ _ SS)]|]. apply eqv_sym, aff_eqv, N.
  Qed.
  Lemma aff_RP : forall x p, snd p <> k0 -> R x (aff p) -> RP (affPt V x) p.
  Proof.
    intros x p N H. exists (aff p, k1). split; [split; [exact H|exact (ss_1 _ _ _ _ _ SS)]|]. apply eqv_sym, aff_eqv, N.
  Qed.
  Lemma aff_nz : forall p, fst p <> k0 -> snd p <> k0 -> aff p <> (k0 : F).
  Proof.
    intros p N1 N2 E. apply N1. destruct (aff_eqv F p N2) as (k & K & E1 & E2). cbn [fst snd] in E1. rewrite E1, E. ring.
  Qed.

  Variables DA DB : dom (car (so V)).
  Variables PA QA PB QB : pnt.
  Let m := length (dStrat DA).
  Let n := length (dStrat DB).
  (* the torsion bases: PA, QA of order 2^(2m+2), [2^(2m+1)]QA = (0,0), [2^(2m+1)]PA a root of x^2+ax+1;
     PB, QB of order 3^(n+1), independent; the third point of each parameter set is the difference *)
  Record basis : Prop := {
    bPA : onc PA; bQA : onc QA; bPB : onc PB; bQB : onc QB;
    bA_Q : fst (dbls F a0 (2 * m + 1) (xp QA)) = k0;
    bA_P : q2h F a0 (dbls F a0 (2 * m + 1) (xp PA)) = k0;
    bB_P : snd (tpls F a0 (S n) (xp PB)) = k0;
    bB_Q : snd (tpls F a0 (S n) (xp QB)) = k0;
    bB_P1 : snd (tpls F a0 n (xp PB)) <> k0;
    bB_Q1 : snd (tpls F a0 n (xp QB)) <> k0;
    bB_X : kmul (fst (tpls F a0 n (xp PB))) (snd (tpls F a0 n (xp QB))) <> kmul (fst (tpls F a0 n (xp QB))) (snd (tpls F a0 n (xp PB)))
  }.
  Hypothesis BAS : basis.
  Hypothesis OKA : strat_ok (dStrat DA) = true. Hypothesis OKB : strat_ok (dStrat DB) = true.
  Hypothesis xPA : RX (dP DA) PA. Hypothesis xQA : RX (dQ DA) QA. Hypothesis xRA : RX (dR DA) (padd PA (pneg QA)).
  Hypothesis xPB : RX (dP DB) PB. Hypothesis xQB : RX (dQ DB) QB. Hypothesis xRB : RX (dR DB) (padd PB (pneg QB)).

  Let NA : Z := 2 ^ Z.of_nat (2 * (m + 1)).
  Let NB : Z := 3 ^ Z.of_nat (S n).
  Lemma NA1 : 1 <= NA. Proof. unfold NA. assert (0 < 2 ^ Z.of_nat (2 * (m + 1))) by (apply Z.pow_pos_nonneg; lia). lia. Qed.
  Lemma NB1 : 1 <= NB. Proof. unfold NB. assert (0 < 3 ^ Z.of_nat (S n)) by (apply Z.pow_pos_nonneg; lia). lia. Qed.
  Lemma NA_Q : pmul NA QA = Inf. Proof. apply (A_N F two_nz a0 NS0); apply BAS. Qed.
  Lemma NB_Q : pmul NB QB = Inf. Proof. apply (B_N F two_nz a0 NS0); apply BAS. Qed.
  Lemma ordA : forall j, 0 <= j -> ord4 F a0 (S m) (xp (comb PA QA j)).
  Proof. apply (A_ord F two_nz a0 NS0); apply BAS. Qed.
  Lemma ordB : forall j, 0 <= j -> ord3 F a0 (S n) (xp (comb PB QB j)).
  Proof. apply (B_ord F two_nz a0 NS0); apply BAS. Qed.
  Lemma ordB_Q : ord3 F a0 (S n) (xp QB).
  Proof.
    rewrite <- (padd_inf_r F a0 k1 QB). change (padd QB Inf) with (comb QB PB 0).
    apply (B_ord F two_nz a0 NS0); try apply BAS; [|lia]. apply not_eq_sym. apply BAS.
  Qed.
  (* P - Q as one of the P + [j]Q *)
  Lemma diff_comb : forall P Q N, onc P -> onc Q -> 1 <= N -> pmul N Q = Inf -> padd P (pneg Q) = comb P Q (N - 1).
  Proof.
    intros P Q N HP HQ HN E. unfold SIDH_Points.comb. f_equal. symmetry. apply (padd_eq_inf F a0 k1).
    rewrite <- E. replace N with (1 + (N - 1)) at 2 by ring. rewrite (pmul_add F a0 k1) by (auto; lia). rewrite pmul_1. reflexivity.
  Qed.
  Lemma comb_0 : forall P Q, comb P Q 0 = P. Proof. intros. apply padd_inf_r. Qed.
  Lemma xp_QA : forall a' h, xhom F a0 a' h -> fst (h (xp QA)) <> k0 /\ snd (h (xp QA)) <> k0.
  Proof.
    intros a' h H.
    assert (ED : forall i p, eqv (dbls F a' i (h p)) (h (dbls F a0 i p))).
    { induction i; intros p; [apply eqv_refl|]. change (dbls F a' (S i) (h p)) with (dbl F a' (dbls F a' i (h p))).
      change (dbls F a0 (S i) p) with (dbl F a0 (dbls F a0 i p)).
      eapply eqv_trans; [apply dbl_eqv, IHi|]. apply (xh_dbl F _ _ _ H). }
    assert (NI : snd (dbls F a' (2 * m + 1) (h (xp QA))) <> k0).
    { intros E. pose proof (eqv_snd0 F _ _ (ED _ _) E) as E2.
      assert (N : nz (h (dbls F a0 (2 * m + 1) (xp QA)))).
      { apply (xh_nz F _ _ _ H). apply dbls_nz; auto. apply xp_nz. }
      apply N. split; [|exact E2]. apply (xh_zero F _ _ _ H). apply BAS. }
    split; intros E; apply NI.
    - rewrite Nat.add_1_r. replace (S (2 * m)) with (2 * m + 1)%nat by lia. rewrite dbls_add. apply dbls_inf. exact (dbl_0 F a' _ E).
    - apply dbls_inf, E.
  Qed.

  Lemma RC0 : RC (InitCurve V) a0.
  Proof.
    exists (a0, k1). split; [split; [exact (ss_A _ _ _ _ _ SS)|exact (ss_C _ _ _ _ _ SS)]|]. split; cbn [fst snd]; [exact one_nz|ring].
  Qed.

  Definition kerA (prv : list Z) : pt := xp (comb PA QA (secret (dBits DA) prv)).
  Definition kerB (prv : list Z) : pt := xp (comb PB QB (secret (dBits DB) prv)).
  Definition fits (D : dom (car (so V))) (prv : list Z) : Prop := bytes prv /\ 0 <= dBits D <= 8 * Z.of_nat (length prv).
  Lemma sec_pos : forall b prv, bytes prv -> 0 <= b -> 0 <= secret b prv.
  Proof. intros b prv H Hb. apply Z.mod_pos_bound. apply Z.pow_pos_nonneg; lia. Qed.
  Lemma kerA_ord : forall prv, fits DA prv -> ord4 F a0 (S m) (kerA prv).
  Proof. intros prv [H1 [H2 _]]. apply ordA. apply sec_pos; assumption. Qed.
  Lemma kerB_ord : forall prv, fits DB prv -> ord3 F a0 (S n) (kerB prv).
  Proof. intros prv [H1 [H2 _]]. apply ordB. apply sec_pos; assumption. Qed.

  (* PublicKeyGenA: the x-coordinates of the images of B's basis under the walk with kernel PA + [kA]QA *)
  Theorem pubA_ok : forall prv, fits DA prv ->
    let w := walk4 F (S m) a0 (kerA prv) in
    exists u v t, PublicKeyGenA V DA DB prv = Ret [u; v; t] /\
      R u (aff (snd w (xp PB))) /\ R v (aff (snd w (xp QB))) /\ R t (aff (snd w (xp (padd PB (pneg QB))))).
  Proof.
    intros prv HF w. pose proof (kerA_ord prv HF) as HK. destruct HF as [HB HL].
    destruct (walk4_hom F two_nz (S m) a0 (kerA prv) NS0 HK) as [HH HO]. fold w in HH, HO.
    unfold PublicKeyGenA.
    destruct (ladder3_ok a0 (fun p => p) (xhom_id F a0 NS0) PA QA NA (bPA BAS) (bQA BAS) NA1 NA_Q) with (scalar := prv) (c := InitCurve V)
      (xP := affPt V (dP DA)) (xQ := affPt V (dQ DA)) (xR := affPt V (dR DA)) (nbits := dBits DA) as (x & E & HX).
    { intros j Hj. apply (ord4_parts F two_nz a0 m); auto. apply ordA, Hj. }
    { exact HB. } { exact RC0. } { apply RX_RP, xPA. } { apply RX_RP, xQA. } { apply RX_RP, xRA. } { exact HL. }
    rewrite E. cbn [bind]. unfold traverseTreePublicKeyA.
    destruct (trav4 F two_nz half a0 V R SS (dStrat DA) OKA (InitCurve V) a0 (kerA prv) x
      [affPt V (dP DB); affPt V (dQ DB); affPt V (dR DB)] [xp PB; xp QB; xp (padd PB (pneg QB))] NS0 RC0 HX HK) as (xR' & ps' & E2 & _ & HP).
    { repeat constructor; apply RX_RP; assumption. }
    rewrite E2. cbn [bind]. fold m in HP. fold w in HP.
    inversion HP as [|p1 q1 l1 l2 G1 HP1]; subst. inversion HP1 as [|p2 q2 l3 l4 G2 HP2]; subst. inversion HP2 as [|p3 q3 l5 l6 G3 HP3]; subst. inversion HP3; subst.
    destruct (GenerateCurve4 V xR') as [c phi]. cbn [snd] in G1, G2, G3.
    destruct (lpub3 F half a0 V R SS _ _ _ _ _ _ G1 G2 G3) as (u & v & t & E3 & HU & HV & HT).
    - apply (ord3_parts F two_nz (fst w) n). apply HO. rewrite <- (comb_0 PB QB). apply ordB. lia.
    - apply (ord3_parts F two_nz (fst w) n). apply HO. exact ordB_Q.
    - apply (ord3_parts F two_nz (fst w) n). apply HO. rewrite (diff_comb PB QB NB (bPB BAS) (bQB BAS) NB1 NB_Q). apply ordB. pose proof NB1. lia.
    - exists u, v, t. rewrite E3. auto.
  Qed.
  Theorem pubB_ok : forall prv, fits DB prv ->
    let w := walk3 F (S n) a0 (kerB prv) in
    exists u v t, PublicKeyGenB V DA DB prv = Ret [u; v; t] /\
      R u (aff (snd w (xp PA))) /\ R v (aff (snd w (xp QA))) /\ R t (aff (snd w (xp (padd PA (pneg QA))))).
  Proof.
    intros prv HF w. pose proof (kerB_ord prv HF) as HK. destruct HF as [HB HL].
    destruct (walk3_hom F two_nz (S n) a0 (kerB prv) NS0 HK) as [HH HO]. fold w in HH, HO.
    unfold PublicKeyGenB.
    destruct (ladder3_ok a0 (fun p => p) (xhom_id F a0 NS0) PB QB NB (bPB BAS) (bQB BAS) NB1 NB_Q) with (scalar := prv) (c := InitCurve V)
      (xP := affPt V (dP DB)) (xQ := affPt V (dQ DB)) (xR := affPt V (dR DB)) (nbits := dBits DB) as (x & E & HX).
    { intros j Hj. apply (ord3_parts F two_nz a0 n). apply ordB, Hj. }
    { exact HB. } { exact RC0. } { apply RX_RP, xPB. } { apply RX_RP, xQB. } { apply RX_RP, xRB. } { exact HL. }
    rewrite E. cbn [bind]. unfold traverseTreePublicKeyB.
    destruct (trav3 F two_nz half a0 V R SS (dStrat DB) OKB (InitCurve V) a0 (kerB prv) x
      [affPt V (dP DA); affPt V (dQ DA); affPt V (dR DA)] [xp PA; xp QA; xp (padd PA (pneg QA))] NS0 RC0 HX HK) as (xR' & ps' & E2 & _ & HP).
    { repeat constructor; apply RX_RP; assumption. }
    rewrite E2. cbn [bind]. fold n in HP. fold w in HP.
    inversion HP as [|p1 q1 l1 l2 G1 HP1]; subst. inversion HP1 as [|p2 q2 l3 l4 G2 HP2]; subst. inversion HP2 as [|p3 q3 l5 l6 G3 HP3]; subst. inversion HP3; subst.
    destruct (GenerateCurve3 V xR') as [c phi]. cbn [snd] in G1, G2, G3.
    pose proof (xh_cod F _ _ _ HH) as NS'.
    destruct (lpub3 F half a0 V R SS _ _ _ _ _ _ G1 G2 G3) as (u & v & t & E3 & HU & HV & HT).
    - apply (ord4_parts F two_nz (fst w) m); [exact NS'|]. apply HO. rewrite <- (comb_0 PA QA). apply ordA. lia.
    - apply (xp_QA _ _ HH).
    - apply (ord4_parts F two_nz (fst w) m); [exact NS'|]. apply HO. rewrite (diff_comb PA QA NA (bPA BAS) (bQA BAS) NA1 NA_Q). apply ordA. pose proof NA1. lia.
    - exists u, v, t. rewrite E3. auto.
  Qed.

  (* recovering the curve from the affine images *)
  Lemma rec_curve : forall a' h P Q u v t, xhom F a0 a' h -> onc P -> onc Q ->
    fst (h (xp P)) <> k0 /\ snd (h (xp P)) <> k0 -> fst (h (xp Q)) <> k0 /\ snd (h (xp Q)) <> k0 ->
    fst (h (xp (padd P (pneg Q)))) <> k0 /\ snd (h (xp (padd P (pneg Q)))) <> k0 ->
    R u (aff (h (xp P))) -> R v (aff (h (xp Q))) -> R t (aff (h (xp (padd P (pneg Q))))) ->
    RC (RecoverCoordinateA V (InitCurve V) u v t) a'.
  Proof.
    intros a' h P Q u v t H HP HQ [P1 P2] [Q1 Q2] [D1 D2] RU RV RT.
    apply (lRecA F two_nz half a0 V R SS a' _ _ _ _ _ _ RU RV RT); try (apply aff_nz; assumption).
    eapply rel_eqv; [apply aff_eqv; exact P2|apply aff_eqv; exact Q2|apply aff_eqv; exact D2|].
    apply (xh_rel F _ _ _ H); [apply xp_nz|]. rewrite <- (xp_neg F Q). apply rel_points; auto.
  Qed.

  (* DeriveSecretA on the images of A's basis under any x-only homomorphism that keeps order 4^(m+1) *)
  Theorem deriveA_ok : forall prv a' h u v t, fits DA prv -> xhom F a0 a' h ->
    (forall q, ord4 F a0 (S m) q -> ord4 F a' (S m) (h q)) ->
    R u (aff (h (xp PA))) -> R v (aff (h (xp QA))) -> R t (aff (h (xp (padd PA (pneg QA))))) ->
    exists j, DeriveJA V DA prv (u, v, t) = Ret j /\ R j (jinv F (fst (walk4 F (S m) a' (h (kerA prv))))).
  Proof.
    intros prv a' h u v t HF H HO RU RV RT. pose proof (kerA_ord prv HF) as HK. destruct HF as [HB HL].
    pose proof (xh_cod F _ _ _ H) as NS'.
    assert (good : forall j, 0 <= j -> fst (h (xp (comb PA QA j))) <> k0 /\ snd (h (xp (comb PA QA j))) <> k0).
    { intros j Hj. apply (ord4_parts F two_nz a' m); [exact NS'|]. apply HO, ordA, Hj. }
    assert (gP : fst (h (xp PA)) <> k0 /\ snd (h (xp PA)) <> k0) by (rewrite <- (comb_0 PA QA); apply good; lia).
    assert (gQ := xp_QA _ _ H).
    assert (gD : fst (h (xp (padd PA (pneg QA)))) <> k0 /\ snd (h (xp (padd PA (pneg QA)))) <> k0).
    { rewrite (diff_comb PA QA NA (bPA BAS) (bQA BAS) NA1 NA_Q). apply good. pose proof NA1. lia. }
    pose proof (rec_curve a' h PA QA u v t H (bPA BAS) (bQA BAS) gP gQ gD RU RV RT) as HC.
    unfold DeriveJA.
    destruct (ladder3_ok a' h H PA QA NA (bPA BAS) (bQA BAS) NA1 NA_Q good prv HB (RecoverCoordinateA V (InitCurve V) u v t)
      (affPt V u) (affPt V v) (affPt V t) (dBits DA) HC) as (x & E & HX);
      [apply aff_RP; tauto|apply aff_RP; tauto|apply aff_RP; tauto|exact HL|].
    rewrite E. cbn [bind]. unfold traverseTreeSharedKeyA. apply HO in HK.
    destruct (trav4 F two_nz half a0 V R SS (dStrat DA) OKA _ a' (h (kerA prv)) x [] [] NS' HC HX HK (Forall2_nil _)) as (xR' & ps' & E2 & HC2 & _).
    rewrite E2. cbn [bind]. fold m in HC2.
    destruct (GenerateCurve4 V xR') as [c phi]. cbn [fst] in HC2. eexists. split; [reflexivity|].
    apply (lJ F half a0 V R SS); [apply (lRec4 F half a0 half_ok V R SS); exact HC2|].
    destruct (walk4_hom F two_nz (S m) a' _ NS' HK) as [HH _]. exact (xh_cod F _ _ _ HH).
  Qed.
  Theorem deriveB_ok : forall prv a' h u v t, fits DB prv -> xhom F a0 a' h ->
    (forall q, ord3 F a0 (S n) q -> ord3 F a' (S n) (h q)) ->
    R u (aff (h (xp PB))) -> R v (aff (h (xp QB))) -> R t (aff (h (xp (padd PB (pneg QB))))) ->
    exists j, DeriveJB V DB prv (u, v, t) = Ret j /\ R j (jinv F (fst (walk3 F (S n) a' (h (kerB prv))))).
  Proof.
    intros prv a' h u v t HF H HO RU RV RT. pose proof (kerB_ord prv HF) as HK. destruct HF as [HB HL].
    pose proof (xh_cod F _ _ _ H) as NS'.
    assert (good : forall j, 0 <= j -> fst (h (xp (comb PB QB j))) <> k0 /\ snd (h (xp (comb PB QB j))) <> k0).
    { intros j Hj. apply (ord3_parts F two_nz a' n). apply HO, ordB, Hj. }
    assert (gP : fst (h (xp PB)) <> k0 /\ snd (h (xp PB)) <> k0) by (rewrite <- (comb_0 PB QB); apply good; lia).
    assert (gQ : fst (h (xp QB)) <> k0 /\ snd (h (xp QB)) <> k0) by (apply (ord3_parts F two_nz a' n); apply HO, ordB_Q).
    assert (gD : fst (h (xp (padd PB (pneg QB)))) <> k0 /\ snd (h (xp (padd PB (pneg QB)))) <> k0).
    { rewrite (diff_comb PB QB NB (bPB BAS) (bQB BAS) NB1 NB_Q). apply good. pose proof NB1. lia. }
    pose proof (rec_curve a' h PB QB u v t H (bPB BAS) (bQB BAS) gP gQ gD RU RV RT) as HC.
    unfold DeriveJB.
    destruct (ladder3_ok a' h H PB QB NB (bPB BAS) (bQB BAS) NB1 NB_Q good prv HB (RecoverCoordinateA V (InitCurve V) u v t)
      (affPt V u) (affPt V v) (affPt V t) (dBits DB) HC) as (x & E & HX);
      [apply aff_RP; tauto|apply aff_RP; tauto|apply aff_RP; tauto|exact HL|].
    rewrite E. cbn [bind]. unfold traverseTreeSharedKeyB. apply HO in HK.
    destruct (trav3 F two_nz half a0 V R SS (dStrat DB) OKB _ a' (h (kerB prv)) x [] [] NS' HC HX HK (Forall2_nil _)) as (xR' & ps' & E2 & HC2 & _).
    rewrite E2. cbn [bind]. fold n in HC2.
    destruct (GenerateCurve3 V xR') as [c phi]. cbn [fst] in HC2. eexists. split; [reflexivity|].
    apply (lJ F half a0 V R SS); [apply (lRec3 F two_nz half a0 V R SS); exact HC2|].
    destruct (walk3_hom F two_nz (S n) a' _ NS' HK) as [HH _]. exact (xh_cod F _ _ _ HH).
  Qed.

  (* both parties derive the same j-invariant *)
  Theorem agree_ok : forall ka kb, fits DA ka -> fits DB kb ->
    exists u v t u' v' t' j j', PublicKeyGenA V DA DB ka = Ret [u; v; t] /\ PublicKeyGenB V DA DB kb = Ret [u'; v'; t'] /\
      DeriveJA V DA ka (u', v', t') = Ret j /\ DeriveJB V DB kb (u, v, t) = Ret j' /\
      exists a', nonsing F a' /\ R j (jinv F a') /\ R j' (jinv F a') .
  Proof.
    intros ka kb HA HB. pose proof (kerA_ord ka HA) as KA. pose proof (kerB_ord kb HB) as KB.
    destruct (walk4_hom F two_nz (S m) a0 _ NS0 KA) as [H4 O4]. destruct (walk3_hom F two_nz (S n) a0 _ NS0 KB) as [H3 O3].
    destruct (pubA_ok ka HA) as (u & v & t & EA & RU & RV & RT). destruct (pubB_ok kb HB) as (u' & v' & t' & EB & RU' & RV' & RT').
    destruct (deriveA_ok ka _ _ u' v' t' HA H3 (O3 (S m)) RU' RV' RT') as (j & EJ & RJ).
    destruct (deriveB_ok kb _ _ u v t HB H4 (O4 (S n)) RU RV RT) as (j' & EJ' & RJ').
    exists u, v, t, u', v', t', j, j'. do 4 (split; [assumption|]).
    pose proof (walks_agree F two_nz (S m) (S n) a0 _ _ NS0 KA KB) as W. rewrite W in RJ.
    eexists. split; [|split; [exact RJ|exact RJ']].
    destruct (walk3_hom F two_nz (S n) _ _ (xh_cod F _ _ _ H4) (O4 _ _ KB)) as [HH _]. exact (xh_cod F _ _ _ HH).
  Qed.
End Agree.
