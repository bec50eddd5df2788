(* Multiples of a point, and the Montgomery ladder of dh/csidh/curve.go over an abstract field. *)
From Coq Require Import ZArith List Lia Bool Field.
From Verif Require Import Lib MP Instr CSIDH_Curve FieldAlg MontCurve MontAssoc.
Import ListNotations.

Section Mul.
  Variable F : fld.
  Add Field Ff : (k_th F).
  Local Infix "+" := kadd. Local Infix "*" := kmul. Local Infix "-" := ksub.
  Local Notation "0" := k0. Local Notation "1" := k1.
  Variables (a b : F).
  Hypothesis two_nz : 1 + 1 <> 0 :> F.
  Hypothesis b_nz : b <> 0.
  Hypothesis a_ok : a * a <> (1 + 1) * (1 + 1).
  Notation pnt := (pnt F). Notation Aff := (Aff F). Notation Inf := (Inf F).
  Notation onc := (onc F a b). Notation padd := (padd F a b). Notation pneg := (pneg F).
  Notation xrep := (xrep F).

  Fixpoint pmuln (n : nat) (P : pnt) : pnt := match n with O => Inf | S n => padd (pmuln n P) P end.
  Definition pmul (n : Z) (P : pnt) : pnt := pmuln (Z.to_nat n) P.

  Lemma pmuln_onc : forall n P, onc P -> onc (pmuln n P).
  Proof. induction n; intros P H; [exact I|]. cbn [pmuln]. apply padd_onc; auto. Qed.
  Lemma pmuln_add : forall n m P, onc P -> pmuln (n + m) P = padd (pmuln n P) (pmuln m P).
  Proof.
    intros n m P H. induction m.
    - rewrite Nat.add_0_r. cbn [pmuln]. symmetry. apply padd_inf_r.
    - rewrite Nat.add_succ_r. cbn [pmuln]. rewrite IHm. apply padd_assoc; auto using pmuln_onc.
  Qed.
  Lemma pmul_onc : forall n P, onc P -> onc (pmul n P).
  Proof. intros. apply pmuln_onc. assumption. Qed.
  Lemma pmul_add : forall n m P, onc P -> (0 <= n)%Z -> (0 <= m)%Z -> pmul (n + m) P = padd (pmul n P) (pmul m P).
  Proof. intros n m P H Hn Hm. unfold pmul. rewrite Z2Nat.inj_add by assumption. apply pmuln_add. exact H. Qed.
  Lemma pmul_1 : forall P, pmul 1 P = P. Proof. intros P. reflexivity. Qed.
  Lemma pmul_2 : forall P, pmul 2 P = padd P P. Proof. intros P. reflexivity. Qed.
  Lemma pmul_mul : forall n m P, onc P -> (0 <= n)%Z -> (0 <= m)%Z -> pmul (n * m) P = pmul n (pmul m P).
  Proof.
    intros n m P H Hn Hm. unfold pmul. rewrite Z2Nat.inj_mul by assumption. induction (Z.to_nat n) as [|k IH]; [reflexivity|].
    cbn [Nat.mul]. rewrite Nat.add_comm, pmuln_add by exact H. rewrite IH. cbn [pmuln]. reflexivity.
  Qed.
  (* [n+1]P - [n]P = P *)
  Lemma pmul_diff : forall n P, onc P -> (0 <= n)%Z -> padd (pmul (n + 1) P) (pneg (pmul n P)) = P.
  Proof.
    intros n P H Hn. rewrite pmul_add by (assumption || lia). rewrite pmul_1.
    rewrite (padd_comm F a b b_nz (pmul n P) P) by (auto using pmul_onc).
    apply cancel; auto using pmul_onc.
  Qed.
  Lemma pmul_diff' : forall n P, onc P -> (0 <= n)%Z -> padd (pmul n P) (pneg (pmul (n + 1) P)) = pneg P.
  Proof.
    intros n P H Hn. pose proof (pmul_diff n P H Hn) as D. rewrite <- D at 3.
    rewrite pneg_padd by (auto using pmul_onc, pneg_onc). rewrite pneg_pneg.
    apply padd_comm; auto using pmul_onc, pneg_onc.
  Qed.

  (* one ladder step: doubling of the first, differential addition of the two *)
  Lemma ladder_step0 : forall X1 Z1 X2 Z2 XD ZD P n, onc P -> (0 <= n)%Z -> xrep XD ZD P -> XD <> 0 -> ZD <> 0 ->
    xrep X1 Z1 (pmul n P) -> xrep X2 Z2 (pmul (n + 1) P) ->
    xrep (dblX F X1 Z1) (dblZ F a X1 Z1) (pmul (2 * n) P) /\
    xrep (addX F X1 Z1 X2 Z2 ZD) (addZ F X1 Z1 X2 Z2 XD) (pmul (2 * n + 1) P).
  Proof.
    intros X1 Z1 X2 Z2 XD ZD P n H Hn RD NX NZ R1 R2. split.
    - replace (2 * n)%Z with (n + n)%Z by lia. rewrite pmul_add by assumption. apply (xdbl_ok F a b); auto using pmul_onc.
    - replace (2 * n + 1)%Z with (n + (n + 1))%Z by lia. rewrite pmul_add by (assumption || lia).
      apply (xadd_ok F a b); auto using pmul_onc. rewrite pmul_diff' by assumption. apply xrep_neg. exact RD.
  Qed.
  Lemma ladder_step1 : forall X1 Z1 X2 Z2 XD ZD P n, onc P -> (0 <= n)%Z -> xrep XD ZD P -> XD <> 0 -> ZD <> 0 ->
    xrep X1 Z1 (pmul (n + 1) P) -> xrep X2 Z2 (pmul n P) ->
    xrep (dblX F X1 Z1) (dblZ F a X1 Z1) (pmul (2 * n + 2) P) /\
    xrep (addX F X1 Z1 X2 Z2 ZD) (addZ F X1 Z1 X2 Z2 XD) (pmul (2 * n + 1) P).
  Proof.
    intros X1 Z1 X2 Z2 XD ZD P n H Hn RD NX NZ R1 R2. split.
    - replace (2 * n + 2)%Z with ((n + 1) + (n + 1))%Z by lia. rewrite pmul_add by (assumption || lia). apply (xdbl_ok F a b); auto using pmul_onc.
    - replace (2 * n + 1)%Z with ((n + 1) + n)%Z by lia. rewrite pmul_add by (assumption || lia).
      apply (xadd_ok F a b); auto using pmul_onc. rewrite pmul_diff by assumption. exact RD.
  Qed.
End Mul.

(* ---------- scalar bits ---------- *)
Open Scope Z_scope.
Section Code.
  Variable F : fld.
  Add Field Fg : (k_th F).
  Local Infix "+!" := kadd (at level 50, left associativity). Local Infix "*!" := kmul (at level 40, left associativity). Local Infix "-!" := ksub (at level 50, left associativity).
  Notation O := (absOps F).
  Definition kt2 : F := k1 +! k1.
  Definition kt4 : F := kt2 *! kt2.

  (* xDblAdd(&Q,&R,&Q,&R,&P,&A24) in xMul, with P at 0,1 *)
  Lemma dbladd_run : forall m : nat -> F,
    let m' := run O (xDblAdd_code mQ mR mQ mR (mkpl 0 1) mA24) m in
    let X1 := m 72%nat in let Z1 := m 73%nat in let X2 := m 74%nat in let Z2 := m 75%nat in
    let XD := m 0%nat in let ZD := m 1%nat in let a24 := m 70%nat in let c24 := m 71%nat in
    m' 72%nat = c24 *! dblX F X1 Z1 /\
    m' 73%nat = kt4 *! X1 *! Z1 *! (c24 *! ((X1 -! Z1) *! (X1 -! Z1)) +! a24 *! (kt4 *! X1 *! Z1)) /\
    m' 74%nat = kt4 *! addX F X1 Z1 X2 Z2 ZD /\
    m' 75%nat = kt4 *! addZ F X1 Z1 X2 Z2 XD /\
    m' 0%nat = XD /\ m' 1%nat = ZD /\ m' 70%nat = a24 /\ m' 71%nat = c24.
  Proof.
    intros m. cbv [xDblAdd_code run step mset absOps car fadd fsub fmul mQ mR mA24 px pz Nat.eqb]. cbv zeta.
    unfold dblX, addX, addZ, kt4, kt2. repeat split; ring.
  Qed.
  Lemma cswap_run : forall (m : nat -> F) c,
    let m' := run O (cswappoint_code mQ mR c) m in
    m' 72%nat = (if c then m 74%nat else m 72%nat) /\ m' 73%nat = (if c then m 75%nat else m 73%nat) /\
    m' 74%nat = (if c then m 72%nat else m 74%nat) /\ m' 75%nat = (if c then m 73%nat else m 75%nat) /\
    m' 0%nat = m 0%nat /\ m' 1%nat = m 1%nat /\ m' 70%nat = m 70%nat /\ m' 71%nat = m 71%nat.
  Proof. intros m [|]; repeat split. Qed.

  Variables (a b : F).
  Hypothesis two_nz : k1 +! k1 <> (k0 : F).
  Hypothesis b_nz : b <> k0.
  Hypothesis a_ok : a *! a <> (k1 +! k1) *! (k1 +! k1).
  Notation pnt := (MontCurve.pnt F).
  Notation onc := (MontCurve.onc F a b). Notation xrep := (MontCurve.xrep F). Notation pmul := (pmul F a b).

  Lemma kbit_ok : forall k i, words k -> kbit k i = Z.testbit (val k) (Z.of_nat i).
  Proof.
    intros k i W. unfold kbit.
    assert (T : forall x, negb (Z.land x 1 =? 0) = Z.testbit x 0).
    { intros x. change 1 with (Z.ones 1). rewrite Z.land_ones by lia. change (2 ^ 1) with 2. rewrite Z.bit0_odd.
      rewrite Zmod_odd. destruct (Z.odd x); reflexivity. }
    rewrite T, Z.shiftr_spec, Z.add_0_l by lia.
    assert (N : nth (i / 64) k 0 = (val k / B ^ Z.of_nat (i / 64)) mod B).
    { assert (G : forall j l, words l -> nth j l 0 = (val l / B ^ Z.of_nat j) mod B).
      { clear. induction j; intros l W.
        - change (Z.of_nat 0) with 0. rewrite Z.pow_0_r, Z.div_1_r. destruct l as [|x l]; [reflexivity|].
          inversion W; subst. rewrite val_cons, (Z.mul_comm B), Z_mod_plus_full. cbn [nth]. symmetry. apply Z.mod_small. assumption.
        - destruct l as [|x l]; [cbn [nth val]; rewrite Zdiv_0_l; reflexivity|]. inversion W; subst. cbn [nth]. rewrite IHj by assumption.
          f_equal. rewrite val_cons, Nat2Z.inj_succ, Z.pow_succ_r by lia.
          rewrite <- Z.div_div by (try apply Z.pow_pos_nonneg; lia). f_equal.
          rewrite (Z.mul_comm B), Z.div_add by lia. rewrite Z.div_small by assumption. reflexivity. }
      apply G. exact W. }
    rewrite N. rewrite Z.mod_pow2_bits_low by (pose proof (Nat.mod_upper_bound i 64 ltac:(lia)); lia).
    rewrite <- Z.pow_mul_r by lia. rewrite Z.div_pow2_bits by lia. f_equal.
    pose proof (Nat.div_mod i 64 ltac:(lia)). lia.
  Qed.

  (* (X1:Z1),(X2:Z2) hold [n+1]P,[n]P after a one bit and [n]P,[n+1]P after a zero bit *)
  Definition linv (P : pnt) (n : Z) (bit : bool) (m : nat -> F) : Prop :=
    xrep (m 72%nat) (m 73%nat) (pmul (if bit then n + 1 else n) P) /\
    xrep (m 74%nat) (m 75%nat) (pmul (if bit then n else n + 1) P) /\
    xrep (m 0%nat) (m 1%nat) P /\ m 0%nat <> k0 /\ m 1%nat <> k0 /\
    exists c, c <> k0 /\ m 70%nat = c *! (a +! kt2) /\ m 71%nat = c *! kt4.

  Lemma four_nz' : kt4 <> k0. Proof. apply k_mul_nz; exact two_nz. Qed.

  Lemma linv_swap : forall P n pb bit m, linv P n pb m -> linv P n bit (run O (cswappoint_code mQ mR (xorb pb bit)) m).
  Proof.
    intros P n pb bit m (I1 & I2 & I3 & I4 & I5 & I6).
    destruct (cswap_run m (xorb pb bit)) as (E1 & E2 & E3 & E4 & E5 & E6 & E7 & E8).
    unfold linv. rewrite E1, E2, E3, E4, E5, E6, E7, E8.
    destruct pb, bit; cbn [xorb] in *; repeat split; try assumption; try apply I3.
  Qed.
  Lemma linv_step : forall P n bit m, onc P -> 0 <= n -> linv P n bit m ->
    linv P (2 * n + (if bit then 1 else 0)) bit (run O (xDblAdd_code mQ mR mQ mR (mkpl 0 1) mA24) m).
  Proof.
    intros P n bit m HP Hn (I1 & I2 & I3 & I4 & I5 & c & C1 & C2 & C3).
    destruct (dbladd_run m) as (E1 & E2 & E3 & E4 & E5 & E6 & E7 & E8).
    unfold linv. rewrite E1, E2, E3, E4, E5, E6, E7, E8, C2, C3.
    assert (N4 : c *! kt4 <> k0) by (apply k_mul_nz; [exact C1|exact four_nz']).
    assert (DZ : kt4 *! m 72%nat *! m 73%nat *! (c *! kt4 *! ((m 72%nat -! m 73%nat) *! (m 72%nat -! m 73%nat)) +! c *! (a +! kt2) *! (kt4 *! m 72%nat *! m 73%nat))
      = (c *! kt4) *! dblZ F a (m 72%nat) (m 73%nat)) by (unfold dblZ, kt4, kt2; ring).
    rewrite DZ.
    assert (S : forall Q X Z, xrep X Z Q -> xrep (kt4 *! X) (kt4 *! Z) Q) by (intros; apply xrep_scale; [exact four_nz'|assumption]).
    assert (S' : forall Q X Z, xrep X Z Q -> xrep (c *! kt4 *! X) (c *! kt4 *! Z) Q) by (intros; apply xrep_scale; [exact N4|assumption]).
    assert (K : forall A1 A2 A3 : Prop, A1 -> A2 -> (A1 -> A2 -> A3) -> A3) by tauto.
    split; [|split; [|split; [exact I3|split; [exact I4|split; [exact I5|exists c; split; [exact C1|split; reflexivity]]]]]].
    - destruct bit.
      + replace (2 * n + 1 + 1) with (2 * n + 2) by lia. apply S'. eapply (ladder_step1 F a b); eassumption.
      + rewrite Z.add_0_r. apply S'. eapply (ladder_step0 F a b); eassumption.
    - destruct bit.
      + apply S. eapply (ladder_step1 F a b); eassumption.
      + rewrite Z.add_0_r. apply S. eapply (ladder_step0 F a b); eassumption.
  Qed.
  Lemma ladder_ok : forall k P, words k -> onc P -> 0 <= val k -> forall i m pb,
    linv P (val k / 2 ^ Z.of_nat i) pb m -> linv P (val k) (if (i =? 0)%nat then pb else kbit k 0) (run O (ladder_code (mkpl 0 1) k i pb) m).
  Proof.
    intros k P W HP Hk. induction i; intros m pb I.
    - cbn [ladder_code run Nat.eqb]. change (Z.of_nat 0) with 0 in I. rewrite Z.pow_0_r, Z.div_1_r in I. exact I.
    - cbn [ladder_code]. rewrite !run_app. cbn [Nat.eqb].
      assert (I' := linv_swap P _ pb (kbit k i) m I).
      apply linv_step in I'; [|exact HP|apply Z.div_pos; [exact Hk|apply Z.pow_pos_nonneg; lia]].
      assert (E : 2 * (val k / 2 ^ Z.of_nat (S i)) + (if kbit k i then 1 else 0) = val k / 2 ^ Z.of_nat i).
      { rewrite kbit_ok by exact W. rewrite Nat2Z.inj_succ, Z.pow_succ_r by lia.
        rewrite (Z.mul_comm 2 (2 ^ _)), <- Z.div_div by (try apply Z.pow_pos_nonneg; lia).
        set (v := val k / 2 ^ Z.of_nat i).
        assert (T : Z.testbit (val k) (Z.of_nat i) = Z.odd v).
        { unfold v. rewrite <- Z.bit0_odd, Z.div_pow2_bits by lia. f_equal. }
        rewrite T. pose proof (Z.div_mod v 2 ltac:(lia)) as D. rewrite Zmod_odd in D. destruct (Z.odd v); lia. }
      rewrite E in I'. apply IHi in I'. destruct i; exact I'.
  Qed.

  Lemma skip_ok : forall k j, words k -> 0 < val k < 2 ^ Z.of_nat (S j) -> val k / 2 ^ Z.of_nat (skip k j) = 1.
  Proof.
    intros k j W. induction j; intros H.
    - cbn [skip]. change (Z.of_nat 0) with 0. rewrite Z.pow_0_r, Z.div_1_r. change (2 ^ Z.of_nat 1) with 2 in H. lia.
    - cbn [skip]. destruct (kbit k (S j)) eqn:K.
      + rewrite kbit_ok in K by exact W.
        assert (L : 2 ^ Z.of_nat (S j) <= val k).
        { destruct (Z.lt_ge_cases (val k) (2 ^ Z.of_nat (S j))) as [h|h]; [|exact h].
          rewrite (bound_testbit (val k) (Z.of_nat (S j)) (Z.of_nat (S j))) in K by lia. discriminate. }
        symmetry. apply Z.div_unique_pos with (r := val k - 2 ^ Z.of_nat (S j)); [|lia].
        rewrite (Nat2Z.inj_succ (S j)), Z.pow_succ_r in H by lia. lia.
      + apply IHj. split; [lia|]. rewrite kbit_ok in K by exact W.
        destruct (Z.lt_ge_cases (val k) (2 ^ Z.of_nat (S j))) as [h|h]; [exact h|]. exfalso.
        assert (T : Z.testbit (val k) (Z.of_nat (S j)) = true); [|congruence].
        rewrite Z.testbit_true by lia. rewrite (Nat2Z.inj_succ (S j)), Z.pow_succ_r in H by lia.
        replace (val k / 2 ^ Z.of_nat (S j)) with 1; [reflexivity|].
        apply Z.div_unique_pos with (r := val k - 2 ^ Z.of_nat (S j)); lia.
  Qed.

  (* the code before the loop *)
  Lemma xMul_pre : forall m : nat -> F,
    let m' := run O (xDbl_code mQ (mkpl 0 1) mA) (run O ([ICopy mA.(px) 2; ICopy mA.(pz) 3; ICopy mR.(px) 0; ICopy mR.(pz) 1] ++
       [IAdd mA24.(px) 3 3; IAdd mA24.(px) mA24.(px) 2; IMul mA24.(pz) 3 four_l]) m) in
    m' 72%nat = m four_l *! m 3%nat *! dblX F (m 0%nat) (m 1%nat) /\
    m' 73%nat = kt4 *! m 0%nat *! m 1%nat *! (m four_l *! m 3%nat *! ((m 0%nat -! m 1%nat) *! (m 0%nat -! m 1%nat)) +! (m 2%nat +! kt2 *! m 3%nat) *! (kt4 *! m 0%nat *! m 1%nat)) /\
    m' 74%nat = m 0%nat /\ m' 75%nat = m 1%nat /\ m' 0%nat = m 0%nat /\ m' 1%nat = m 1%nat /\
    m' 70%nat = m 3%nat +! m 3%nat +! m 2%nat /\ m' 71%nat = m 3%nat *! m four_l.
  Proof.
    intros m. cbv [xDbl_code run step mset absOps car fadd fsub fmul mQ mR mA mA24 px pz Nat.eqb app four_l]. cbv zeta.
    unfold dblX, kt4, kt2. repeat split; ring.
  Qed.

  (* xMul(&kP, &P, &co, &k), kP at any location (in particular kP = P) *)
  Theorem xMul_abs : forall (m : nat -> F) k kP P, words k -> 0 < val k < 2 ^ 512 ->
    onc P -> xrep (m 0%nat) (m 1%nat) P -> m 0%nat <> k0 -> m 1%nat <> k0 ->
    m 3%nat <> k0 -> m 2%nat = a *! m 3%nat -> m four_l = kt4 ->
    px kP <> pz kP -> px kP <> 73%nat ->
    let m' := run O (xMul_code kP (mkpl 0 1) (mkpl 2 3) k) m in
    xrep (m' (px kP)) (m' (pz kP)) (pmul (val k) P).
  Proof.
    intros m k kP P W Hk HP R N0 N1 NC HA H4 Hd H73 m'.
    unfold m', xMul_code. cbv zeta. cbn [px pz]. rewrite app_assoc, !run_app. rewrite <- run_app.
    destruct (xMul_pre m) as (E1 & E2 & E3 & E4 & E5 & E6 & E7 & E8). cbn [px pz mA mR mA24] in *.
    set (m1 := run O (xDbl_code mQ (mkpl 0 1) mA) _) in *. clearbody m1.
    rewrite H4, HA in *. clear m'.
    assert (I : linv P 1 true m1).
    { unfold linv. rewrite E1, E2, E3, E4, E5, E6, E7, E8.
      change (1 + 1) with 2. rewrite pmul_1, pmul_2.
      split; [|split; [exact R|split; [exact R|split; [exact N0|split; [exact N1|]]]]].
      - replace (kt4 *! m 0%nat *! m 1%nat *! (kt4 *! m 3%nat *! ((m 0%nat -! m 1%nat) *! (m 0%nat -! m 1%nat)) +! (a *! m 3%nat +! kt2 *! m 3%nat) *! (kt4 *! m 0%nat *! m 1%nat)))
          with (kt4 *! m 3%nat *! dblZ F a (m 0%nat) (m 1%nat)) by (unfold dblZ, kt4, kt2; ring).
        apply xrep_scale; [apply k_mul_nz; [exact four_nz'|exact NC]|]. apply (xdbl_ok F a b); assumption.
      - exists (m 3%nat). split; [exact NC|]. split; unfold kt2; ring. }
    rewrite <- (skip_ok k 511 W Hk) in I.
    apply (ladder_ok k P W HP ltac:(lia)) in I.
    set (m2 := run O (ladder_code _ _ _ _) m1) in *. clearbody m2.
    set (pb := if (skip k 511 =? 0)%nat then true else kbit k 0) in I.
    assert (PB : pb = kbit k 0).
    { unfold pb. destruct (Nat.eqb_spec (skip k 511) 0) as [e|e]; [|reflexivity].
      rewrite kbit_ok by exact W. pose proof (skip_ok k 511 W Hk) as S. rewrite e in S.
      change (Z.of_nat 0) with 0 in *. rewrite Z.pow_0_r, Z.div_1_r in S. rewrite S. reflexivity. }
    rewrite PB in I.
    apply (linv_swap P (val k) (kbit k 0) false) in I. rewrite xorb_false_r in I. destruct I as (I & _).
    rewrite ?run_app. cbn [run step mQ px pz]. set (m3 := run O (cswappoint_code mQ mR (kbit k 0)) m2) in *.
    clearbody m3. unfold mset. rewrite !Nat.eqb_refl. destruct (Nat.eqb_spec (px kP) (pz kP)); [contradiction|].
    destruct (Nat.eqb_spec 73 (px kP)); [congruence|].
    exact I.
  Qed.

  (* the point at infinity stays at infinity *)
  Lemma ladder_inf : forall k i pb (m : nat -> F), m 1%nat = k0 -> m 73%nat = k0 -> m 75%nat = k0 ->
    let m' := run O (ladder_code (mkpl 0 1) k i pb) m in m' 73%nat = k0 /\ m' 75%nat = k0.
  Proof.
    intros k. induction i; intros pb m H1 H73 H75; [split; assumption|]. cbn [ladder_code]. rewrite !run_app.
    destruct (cswap_run m (xorb pb (kbit k i))) as (E1 & E2 & E3 & E4 & E5 & E6 & _).
    set (m1 := run O (cswappoint_code mQ mR _) m) in *. clearbody m1.
    destruct (dbladd_run m1) as (G1 & G2 & G3 & G4 & G5 & G6 & _).
    set (m2 := run O (xDblAdd_code _ _ _ _ _ _) m1) in *. clearbody m2.
    assert (Z1 : m1 73%nat = k0) by (rewrite E2; destruct (xorb _ _); assumption).
    assert (Z2 : m1 75%nat = k0) by (rewrite E4; destruct (xorb _ _); assumption).
    apply IHi.
    - rewrite G6, E6. exact H1.
    - rewrite G2, Z1. ring.
    - rewrite G4. unfold addZ. rewrite Z1, Z2. ring.
  Qed.
  Theorem xMul_inf : forall (m : nat -> F) k kP, m 1%nat = k0 -> px kP <> 73%nat ->
    run O (xMul_code kP (mkpl 0 1) (mkpl 2 3) k) m (pz kP) = k0.
  Proof.
    intros m k kP H H73. unfold xMul_code. cbv zeta. cbn [px pz]. rewrite app_assoc, !run_app. rewrite <- run_app.
    destruct (xMul_pre m) as (E1 & E2 & E3 & E4 & E5 & E6 & E7 & E8). cbn [px pz mA mR mA24] in *.
    set (m1 := run O (xDbl_code mQ (mkpl 0 1) mA) _) in *. clearbody m1.
    destruct (ladder_inf k (skip k 511) true m1) as [L1 L2].
    - rewrite E6. exact H.
    - rewrite E2, H. ring.
    - rewrite E4. exact H.
    - set (m2 := run O (ladder_code _ _ _ _) m1) in *. clearbody m2.
      destruct (cswap_run m2 (kbit k 0)) as (C1 & C2 & _). set (m3 := run O (cswappoint_code mQ mR (kbit k 0)) m2) in *.
      rewrite ?run_app. fold m3. cbn [run step mQ px pz]. unfold mset. rewrite Nat.eqb_refl. destruct (Nat.eqb_spec 73 (px kP)); [congruence|].
      rewrite C2. destruct (kbit k 0); assumption.
  Qed.

  Lemma ladder_S : forall P k i pb, ladder_code P k (S i) pb =
    cswappoint_code mQ mR (xorb pb (kbit k i)) ++ xDblAdd_code mQ mR mQ mR P mA24 ++ ladder_code P k i (kbit k i).
  Proof. reflexivity. Qed.
  (* the point (0,0) of order two: the differential addition has x(P) as a factor *)
  Ltac kring := cbn [car absOps]; ring.
  Lemma step_origin : forall c (m : nat -> F), m 0%nat = k0 -> m 72%nat *! m 73%nat = k0 -> m 74%nat *! m 75%nat = k0 ->
    let m' := run O (xDblAdd_code mQ mR mQ mR (mkpl 0 1) mA24) (run O (cswappoint_code mQ mR c) m) in
    m' 73%nat = k0 /\ m' 75%nat = k0 /\ m' 0%nat = k0.
  Proof.
    intros c m H0 H73 H75. cbv zeta. destruct (cswap_run m c) as (E1 & E2 & E3 & E4 & E5 & E6 & _).
    set (m1 := run O (cswappoint_code mQ mR _) m) in *; clearbody m1.
    destruct (dbladd_run m1) as (G1 & G2 & G3 & G4 & G5 & G6 & _).
    set (m2 := run O (xDblAdd_code _ _ _ _ _ _) m1) in *; clearbody m2.
    assert (Z1 : m1 72%nat *! m1 73%nat = k0) by (rewrite E1, E2; destruct c; assumption).
    split; [|split].
    - rewrite G2. transitivity (kt4 *! (m1 72%nat *! m1 73%nat) *! (m1 71%nat *! ((m1 72%nat -! m1 73%nat) *! (m1 72%nat -! m1 73%nat)) +! m1 70%nat *! (kt4 *! m1 72%nat *! m1 73%nat))).
      + kring.
      + rewrite Z1. kring.
    - rewrite G4. unfold addZ. rewrite E5, H0. kring.
    - congruence.
  Qed.
  Lemma ladder_origin : forall k i pb (m : nat -> F), m 0%nat = k0 -> m 72%nat *! m 73%nat = k0 -> m 74%nat *! m 75%nat = k0 ->
    let m' := run O (ladder_code (mkpl 0 1) k (S i) pb) m in m' 73%nat = k0 /\ m' 75%nat = k0.
  Proof.
    intros k. induction i; intros pb m H0 H73 H75; rewrite ladder_S; rewrite !run_app.
    - destruct (step_origin (xorb pb (kbit k 0)) m H0 H73 H75) as (Q1 & Q2 & Q3). cbn [ladder_code run]. split; assumption.
    - destruct (step_origin (xorb pb (kbit k (S i))) m H0 H73 H75) as (Q1 & Q2 & Q3).
      apply IHi; [exact Q3|rewrite Q1; kring|rewrite Q2; kring].
  Qed.
  Theorem xMul_origin : forall (m : nat -> F) k kP, m 0%nat = k0 -> words k -> 1 < val k < 2 ^ 512 -> px kP <> 73%nat ->
    run O (xMul_code kP (mkpl 0 1) (mkpl 2 3) k) m (pz kP) = k0.
  Proof.
    intros m k kP H W Hk H73. unfold xMul_code. cbv zeta. cbn [px pz]. rewrite app_assoc, !run_app. rewrite <- run_app.
    destruct (xMul_pre m) as (E1 & E2 & E3 & E4 & E5 & E6 & E7 & E8). cbn [px pz mA mR mA24] in *.
    set (m1 := run O (xDbl_code mQ (mkpl 0 1) mA) _) in *. clearbody m1.
    pose proof (skip_ok k 511 W ltac:(change (2 ^ Z.of_nat 512) with (2 ^ 512); lia)) as SK.
    destruct (skip k 511) as [|i] eqn:ES.
    { change (Z.of_nat 0) with 0 in SK. rewrite Z.pow_0_r, Z.div_1_r in SK. lia. }
    destruct (ladder_origin k i true m1) as [L1 L2].
    - rewrite E5. exact H.
    - rewrite E2, H. kring.
    - rewrite E3, H. kring.
    - set (m2 := run O (ladder_code _ _ _ _) m1) in *. clearbody m2.
      destruct (cswap_run m2 (kbit k 0)) as (C1 & C2 & _). set (m3 := run O (cswappoint_code mQ mR (kbit k 0)) m2) in *.
      rewrite ?run_app. fold m3. cbn [run step mQ px pz]. unfold mset. rewrite Nat.eqb_refl. destruct (Nat.eqb_spec 73 (px kP)); [congruence|].
      rewrite C2. destruct (kbit k 0); assumption.
  Qed.

  Lemma xMul_code_zero : forall kP k, (forall i, kbit k i = false) -> xMul_code kP (mkpl 0 1) (mkpl 2 3) k =
    [ICopy mA.(px) 2; ICopy mA.(pz) 3; ICopy mR.(px) 0; ICopy mR.(pz) 1] ++
    [IAdd mA24.(px) 3 3; IAdd mA24.(px) mA24.(px) 2; IMul mA24.(pz) 3 four_l] ++ xDbl_code mQ (mkpl 0 1) mA ++
    cswappoint_code mQ mR false ++ [ICopy kP.(px) mQ.(px); ICopy kP.(pz) mQ.(pz)].
  Proof.
    intros kP k KB. assert (S0 : forall j, skip k j = 0%nat) by (induction j; cbn [skip]; rewrite ?KB; auto).
    unfold xMul_code. rewrite S0, KB. reflexivity.
  Qed.
  (* the scalar 0 gives [2]P *)
  Theorem xMul_zero_abs : forall (m : nat -> F) k kP P, (forall i, kbit k i = false) ->
    onc P -> xrep (m 0%nat) (m 1%nat) P -> m 3%nat <> k0 -> m 2%nat = a *! m 3%nat -> m four_l = kt4 ->
    px kP <> pz kP -> px kP <> 73%nat ->
    let m' := run O (xMul_code kP (mkpl 0 1) (mkpl 2 3) k) m in
    xrep (m' (px kP)) (m' (pz kP)) (MontCurve.padd F a b P P).
  Proof.
    intros m k kP P KB HP R NC HA H4 Hd H73. cbv zeta. rewrite xMul_code_zero by exact KB. rewrite app_assoc, !run_app. rewrite <- run_app.
    destruct (xMul_pre m) as (E1 & E2 & E3 & E4 & E5 & E6 & E7 & E8). cbn [px pz mA mR mA24] in *.
    set (m1 := run O (xDbl_code mQ (mkpl 0 1) mA) _) in *. clearbody m1.
    rewrite H4, HA in *.
    rewrite ?run_app. destruct (cswap_run m1 false) as (C1 & C2 & _).
    set (m3 := run O (cswappoint_code mQ mR false) m1) in *. clearbody m3.
    cbn [run step mQ px pz]. unfold mset. rewrite !Nat.eqb_refl. destruct (Nat.eqb_spec (px kP) (pz kP)); [contradiction|].
    destruct (Nat.eqb_spec 73 (px kP)); [congruence|]. rewrite C1, C2, E1, E2.
    replace (kt4 *! m 0%nat *! m 1%nat *! (kt4 *! m 3%nat *! ((m 0%nat -! m 1%nat) *! (m 0%nat -! m 1%nat)) +! (a *! m 3%nat +! kt2 *! m 3%nat) *! (kt4 *! m 0%nat *! m 1%nat)))
      with (kt4 *! m 3%nat *! dblZ F a (m 0%nat) (m 1%nat)) by (unfold dblZ, kt4, kt2; kring).
    apply xrep_scale; [apply k_mul_nz; [exact four_nz'|exact NC]|]. apply (xdbl_ok F a b); assumption.
  Qed.

  (* xDbl(&P, &P, &A) *)
  Lemma xDbl_abs : forall (m : nat -> F) P, onc P -> xrep (m 0%nat) (m 1%nat) P -> m 3%nat <> k0 -> m 2%nat = a *! m 3%nat -> m four_l = kt4 ->
    forall Q, Q = mkpl 0 1 \/ Q = mkpl 4 5 ->
    let m' := run O (xDbl_code Q (mkpl 0 1) (mkpl 2 3)) m in
    xrep (m' (px Q)) (m' (pz Q)) (MontCurve.padd F a b P P).
  Proof.
    intros m P HP R NC HA H4 Q HQ m'.
    assert (E : m' (px Q) = (kt4 *! m 3%nat) *! dblX F (m 0%nat) (m 1%nat) /\ m' (pz Q) = (kt4 *! m 3%nat) *! dblZ F a (m 0%nat) (m 1%nat)).
    { destruct HQ as [-> | ->]; unfold m'; cbv [xDbl_code run step mset absOps car fadd fsub fmul px pz Nat.eqb four_l]; cbv zeta; unfold four_l in H4; rewrite H4, HA; unfold dblX, dblZ, kt4, kt2; split; kring. }
    destruct E as [-> ->]. apply xrep_scale; [apply k_mul_nz; [exact four_nz'|exact NC]|]. apply (xdbl_ok F a b); assumption.
  Qed.
  (* xAdd, all arguments distinct or PaQ = P or PaQ = Q or PaQ = PdQ *)
  Lemma xAdd_abs : forall (m : nat -> F) P Q, onc P -> onc Q -> xrep (m 0%nat) (m 1%nat) P -> xrep (m 2%nat) (m 3%nat) Q ->
    xrep (m 4%nat) (m 5%nat) (MontCurve.padd F a b P (MontCurve.pneg F Q)) -> m 4%nat <> k0 -> m 5%nat <> k0 ->
    forall R, In R [mkpl 6 7; mkpl 0 1; mkpl 2 3] ->
    let m' := run O (xAdd_code R (mkpl 0 1) (mkpl 2 3) (mkpl 4 5)) m in
    xrep (m' (px R)) (m' (pz R)) (MontCurve.padd F a b P Q).
  Proof.
    intros m P Q HP HQ RP RQ RD N4 N5 R HR m'.
    assert (E : m' (px R) = kt4 *! addX F (m 0%nat) (m 1%nat) (m 2%nat) (m 3%nat) (m 5%nat) /\ m' (pz R) = kt4 *! addZ F (m 0%nat) (m 1%nat) (m 2%nat) (m 3%nat) (m 4%nat)).
    { destruct HR as [<- | [<- | [<- | []]]]; unfold m'; cbv [xAdd_code run step mset absOps car fadd fsub fmul px pz Nat.eqb]; cbv zeta; unfold addX, addZ, kt4, kt2; split; kring. }
    destruct E as [-> ->]. apply xrep_scale; [exact four_nz'|]. eapply (xadd_ok F a b); eassumption.
  Qed.
  (* xDblAdd, in place as in xMul or with separate results *)
  Lemma xDblAdd_abs : forall (m : nat -> F) P Q, onc P -> onc Q -> xrep (m 0%nat) (m 1%nat) P -> xrep (m 2%nat) (m 3%nat) Q ->
    xrep (m 4%nat) (m 5%nat) (MontCurve.padd F a b P (MontCurve.pneg F Q)) -> m 4%nat <> k0 -> m 5%nat <> k0 ->
    (exists c, c <> k0 /\ m 6%nat = c *! (a +! kt2) /\ m 7%nat = c *! kt4) ->
    forall R S, (R, S) = (mkpl 0 1, mkpl 2 3) \/ (R, S) = (mkpl 8 9, mkpl 10 11) ->
    let m' := run O (xDblAdd_code R S (mkpl 0 1) (mkpl 2 3) (mkpl 4 5) (mkpl 6 7)) m in
    xrep (m' (px R)) (m' (pz R)) (MontCurve.padd F a b P P) /\ xrep (m' (px S)) (m' (pz S)) (MontCurve.padd F a b P Q).
  Proof.
    intros m P Q HP HQ RP RQ RD N4 N5 (c & C0 & C6 & C7) R S HR m'.
    assert (E : m' (px R) = (c *! kt4) *! dblX F (m 0%nat) (m 1%nat) /\ m' (pz R) = (c *! kt4) *! dblZ F a (m 0%nat) (m 1%nat) /\
      m' (px S) = kt4 *! addX F (m 0%nat) (m 1%nat) (m 2%nat) (m 3%nat) (m 5%nat) /\ m' (pz S) = kt4 *! addZ F (m 0%nat) (m 1%nat) (m 2%nat) (m 3%nat) (m 4%nat)).
    { destruct HR as [E | E]; injection E as -> ->; unfold m'; cbv [xDblAdd_code run step mset absOps car fadd fsub fmul px pz Nat.eqb]; cbv zeta; rewrite C6, C7; unfold dblX, dblZ, addX, addZ, kt4, kt2; repeat split; kring. }
    destruct E as (-> & -> & -> & ->). split.
    - apply xrep_scale; [apply k_mul_nz; [exact C0|exact four_nz']|]. apply (xdbl_ok F a b); assumption.
    - apply xrep_scale; [exact four_nz'|]. eapply (xadd_ok F a b); eassumption.
  Qed.
  Lemma montEval_abs : forall m : nat -> F, m one_l = k1 ->
    run O (montEval_code 2 0 1) m 2%nat = m 1%nat *! m 1%nat *! m 1%nat +! m 0%nat *! (m 1%nat *! m 1%nat) +! m 1%nat.
  Proof.
    intros m H1. cbv [montEval_code app run step mset absOps car fadd fsub fmul Nat.eqb one_l]. unfold one_l in H1. rewrite H1. kring.
  Qed.
End Code.
