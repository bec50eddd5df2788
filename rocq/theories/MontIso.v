(* The odd-degree isogeny of dh/csidh/curve.go (xIso) over an abstract field: the multiples of the
   kernel generator that it visits, the image of a point, the coefficients of the image curve. *)
From Coq Require Import ZArith Znumtheory List Lia Bool Field.
From Verif Require Import Lib MP Instr CSIDH_Curve FieldAlg MontCurve MontAssoc MontLadder.
Import ListNotations.
Open Scope Z_scope.

Section Prod.
  Variable F : fld.
  Add Field Fh : (k_th F).
  (* f 1 * ... * f n *)
  Fixpoint kprodn (f : nat -> F) (n : nat) : F := match n with O => k1 | S n => kmul (kprodn f n) (f (S n)) end.
  Lemma kprodn_ext : forall f g n, (forall j, (1 <= j <= n)%nat -> f j = g j) -> kprodn f n = kprodn g n.
  Proof. intros f g. induction n; intros H; [reflexivity|]. cbn [kprodn]. rewrite IHn by (intros; apply H; lia). rewrite H by lia. reflexivity. Qed.
  Lemma kprodn_mul : forall f g n, kprodn (fun j => kmul (f j) (g j)) n = kmul (kprodn f n) (kprodn g n).
  Proof. intros f g. induction n; cbn [kprodn]; [ring|]. rewrite IHn. ring. Qed.
  Lemma kprodn_nz : forall f n, (forall j, (1 <= j <= n)%nat -> f j <> k0) -> kprodn f n <> k0.
  Proof. intros f. induction n; intros H; [apply k_one_nz|]. cbn [kprodn]. apply k_mul_nz; [apply IHn; intros; apply H|apply H]; lia. Qed.
  Lemma kprodn_zero : forall f n j, (1 <= j <= n)%nat -> f j = k0 -> kprodn f n = k0.
  Proof.
    intros f. induction n; intros j H E; [lia|]. cbn [kprodn]. destruct (Nat.eq_dec j (S n)) as [->|N]; [rewrite E; ring|].
    rewrite (IHn j) by (assumption || lia). ring.
  Qed.
  Lemma kprodn_app : forall f n m, kprodn f (n + m) = kmul (kprodn f n) (kprodn (fun j => f (n + j)%nat) m).
  Proof. intros f n. induction m; [rewrite Nat.add_0_r; cbn [kprodn]; ring|]. rewrite Nat.add_succ_r. cbn [kprodn]. rewrite IHm, Nat.add_succ_r. ring. Qed.
  Lemma kprodn_first : forall f n, kprodn f (S n) = kmul (f 1%nat) (kprodn (fun j => f (S j)) n).
  Proof. intros f n. change (S n) with (1 + n)%nat. rewrite kprodn_app. cbn [kprodn Nat.add]. ring. Qed.
  Lemma kprodn_rev : forall f n, kprodn f n = kprodn (fun j => f (S n - j)%nat) n.
  Proof.
    intros f n. revert f. induction n; intros f; [reflexivity|]. rewrite kprodn_first. cbn [kprodn]. rewrite IHn.
    replace (S (S n) - S n)%nat with 1%nat by lia.
    rewrite (kprodn_ext (fun j => f (S (S n) - j)%nat) (fun j => f (S (S n - j))) n); [ring|].
    intros j Hj. f_equal. lia.
  Qed.
End Prod.

Section Iso.
  Variable F : fld.
  Add Field Fi : (k_th F).
  Local Infix "+!" := kadd (at level 50, left associativity). Local Infix "*!" := kmul (at level 40, left associativity).
  Local Infix "-!" := ksub (at level 50, left associativity). Local Infix "/!" := kdiv (at level 40, left associativity).
  Variables (a b : F).
  Hypothesis two_nz : k1 +! k1 <> (k0 : F).
  Hypothesis b_nz : b <> k0.
  Hypothesis a_ok : a *! a <> (k1 +! k1) *! (k1 +! k1).
  Notation pnt := (MontCurve.pnt F). Notation Inf := (MontCurve.Inf F). Notation Aff := (MontCurve.Aff F).
  Notation onc := (MontCurve.onc F a b). Notation xrep := (MontCurve.xrep F). Notation pmul := (pmul F a b).
  Notation padd := (MontCurve.padd F a b). Notation pneg := (MontCurve.pneg F).
  Notation kprodn := (kprodn F). Notation kt2 := (kt2 F). Notation kt4 := (kt4 F).
  Notation O := (absOps F).

  Definition xco (P : pnt) : F := match P with MontCurve.Inf _ => k0 | MontCurve.Aff _ x _ => x end.

  Lemma pmul_inf : forall n, pmul n Inf = Inf.
  Proof. intros n. unfold pmul. induction (Z.to_nat n) as [|k IH]; [reflexivity|]. cbn [pmuln]. rewrite IH. reflexivity. Qed.

  Section Order.
    Variables (K : pnt) (l : Z).
    Hypothesis HK : onc K.
    Hypothesis KN : K <> Inf.
    Hypothesis Hl : prime l.
    Hypothesis l2 : l <> 2.
    Hypothesis KO : pmul l K = Inf.

    Lemma l_ge3 : 3 <= l. Proof. pose proof (prime_ge_2 l Hl). lia. Qed.
    Lemma l_odd : Z.odd l = true.
    Proof.
      destruct (Z.odd l) eqn:E; [reflexivity|]. exfalso. apply l2.
      assert (D : (2 | l)). { apply Z.mod_divide; [lia|]. rewrite Zmod_odd, E. reflexivity. }
      destruct (prime_divisors l Hl 2 D) as [h|[h|[h|h]]]; pose proof l_ge3; lia.
    Qed.
    Lemma pmul_period : forall n m, 0 <= n -> 0 <= m -> pmul (n + m * l) K = pmul n K.
    Proof.
      intros n m Hn Hm. pose proof l_ge3. rewrite (pmul_add F a b two_nz b_nz a_ok) by (assumption || nia).
      rewrite (pmul_mul F a b two_nz b_nz a_ok) by (assumption || lia). rewrite KO, pmul_inf. apply padd_inf_r.
    Qed.
    Lemma pmul_ne_inf : forall j, 0 < j < l -> pmul j K <> Inf.
    Proof.
      intros j Hj E. apply KN. pose proof l_ge3.
      destruct (rel_prime_bezout j l) as [u v Huv]. { apply rel_prime_sym, prime_rel_prime; [exact Hl|]. intros D. apply Z.divide_pos_le in D; lia. }
      set (u' := u mod l). assert (U : 0 <= u' < l) by (apply Z.mod_pos_bound; lia).
      assert (M : (u' * j) mod l = 1). { unfold u'. rewrite Zmult_mod_idemp_l. replace (u * j) with (1 + (- v) * l) by lia. rewrite Z_mod_plus_full. apply Z.mod_small. lia. }
      pose proof (Z.div_mod (u' * j) l ltac:(lia)) as D. rewrite M in D.
      assert (E1 : pmul (u' * j) K = Inf). { rewrite (pmul_mul F a b two_nz b_nz a_ok) by (assumption || lia). rewrite E. apply pmul_inf. }
      rewrite D in E1. replace (l * (u' * j / l) + 1) with (1 + (u' * j / l) * l) in E1 by lia.
      rewrite pmul_period in E1; [|lia|apply Z.div_pos; nia]. exact E1.
    Qed.
    Lemma pmul_aff : forall j, 0 < j < l -> exists y, pmul j K = Aff (xco (pmul j K)) y /\ onc (Aff (xco (pmul j K)) y).
    Proof.
      intros j Hj. pose proof (pmul_ne_inf j Hj) as N. pose proof (pmul_onc F a b two_nz b_nz j K HK) as C.
      destruct (pmul j K) as [|x y]; [contradiction|]. exists y. split; [reflexivity|exact C].
    Qed.
    Lemma pmul_x_nz : forall j, 0 < j < l -> xco (pmul j K) <> k0.
    Proof.
      intros j Hj X. destruct (pmul_aff j Hj) as (y & E & C). rewrite X in E, C. cbn [MontCurve.onc] in C.
      assert (Y : y = k0).
      { apply (k_sqr_0 F). apply (k_cancel F b); [exact b_nz|]. rewrite C. ring. }
      assert (D : pmul (j + j) K = Inf).
      { rewrite (pmul_add F a b two_nz b_nz a_ok) by (assumption || lia). rewrite E, Y. cbn [MontCurve.padd].
        destruct (k_dec (k0 : F) k0); [|contradiction]. destruct (k_dec (k0 : F) (kopp k0)) as [h|h]; [reflexivity|].
        exfalso. apply h. ring. }
      destruct (Z.lt_trichotomy (j + j) l) as [h|[h|h]].
      - revert D. apply pmul_ne_inf. lia.
      - pose proof l_odd as L. rewrite <- h in L. replace (j + j) with (2 * j) in L by lia. rewrite Z.odd_mul in L. discriminate.
      - replace (j + j) with ((j + j - l) + 1 * l) in D by lia. rewrite pmul_period in D by lia. revert D. apply pmul_ne_inf. lia.
    Qed.
    Lemma pmul_neg : forall j, 0 <= j <= l -> pmul (l - j) K = pneg (pmul j K).
    Proof.
      intros j Hj. apply (padd_eq_inf F a b).
      rewrite <- (pmul_add F a b two_nz b_nz a_ok) by (assumption || lia). replace (j + (l - j)) with l by lia. exact KO.
    Qed.

    (* ---- the image of P is the product of the x-coordinates of the points P + [j]K ---- *)
    Definition xs (j : nat) : F := xco (pmul (Z.of_nat j) K).
    Definition half : nat := Z.to_nat (l / 2).
    Lemma half_l : l = 2 * Z.of_nat half + 1.
    Proof.
      unfold half. pose proof l_ge3. rewrite Z2Nat.id by (apply Z.div_pos; lia).
      pose proof (Z.div_mod l 2 ltac:(lia)). rewrite Zmod_odd, l_odd in H0. lia.
    Qed.

    Lemma pair_x : forall x y Q, onc (Aff x y) -> onc Q -> Q <> Inf -> padd (Aff x y) Q <> Inf -> padd (Aff x y) (pneg Q) <> Inf ->
      x -! xco Q <> k0 /\
      xco (padd (Aff x y) Q) *! xco (padd (Aff x y) (pneg Q)) =
      (x *! xco Q -! k1) /! (x -! xco Q) *! ((x *! xco Q -! k1) /! (x -! xco Q)).
    Proof.
      intros x y [|x2 y2] H1 H2 NQ N1 N2; [contradiction|]. clear NQ. cbn [xco].
      destruct (k_dec x x2) as [e|e].
      - exfalso. subst x2. destruct (same_x F a b b_nz x y y2 H1 H2) as [E|E].
        + apply N2. subst y2. apply padd_neg.
        + apply N1. subst y. change (Aff x (kopp y2)) with (pneg (Aff x y2)). rewrite (padd_comm F a b b_nz) by (auto using pneg_onc). apply padd_neg.
      - assert (N : x -! x2 <> k0) by (apply k_sub_nz; exact e). split; [exact N|].
        assert (N' : x2 -! x <> k0) by (apply k_sub_nz; congruence).
        cbn [MontCurve.padd MontCurve.pneg]. destruct (k_dec x x2); [contradiction|].
        unfold MontCurve.chord. cbn [xco].
        pose proof (chord_prod F a b x y x2 y2 ((y2 -! y) /! (x2 -! x)) ((kopp y2 -! y) /! (x2 -! x)) H1 H2) as C.
        apply (k_cancel F ((x -! x2) *! (x -! x2))); [apply k_mul_nz; assumption|].
        transitivity ((x *! x2 -! k1) *! (x *! x2 -! k1)).
        + rewrite <- C; [ring|field; exact N'|field; exact N'|exact e].
        + field. exact N.
    Qed.

    Theorem image_prod : forall x y, onc (Aff x y) ->
      (forall j, 0 <= j < l -> padd (Aff x y) (pmul j K) <> Inf) ->
      let f := kprodn (fun j => xco (padd (Aff x y) (pmul (Z.of_nat j) K))) (Z.to_nat (l - 1)) in
      (forall j, (1 <= j <= half)%nat -> x -! xs j <> k0) /\
      x *! f = x *! ((kprodn (fun j => x *! xs j -! k1) half) /! (kprodn (fun j => x -! xs j) half) *!
                     ((kprodn (fun j => x *! xs j -! k1) half) /! (kprodn (fun j => x -! xs j) half))).
    Proof.
      intros x y H N f. pose proof l_ge3 as L3. pose proof half_l as HL.
      set (g := fun j : nat => xco (padd (Aff x y) (pmul (Z.of_nat j) K))) in *.
      assert (PX : forall j, (1 <= j <= half)%nat -> x -! xs j <> k0 /\
        g j *! g (Z.to_nat l - j)%nat = (x *! xs j -! k1) /! (x -! xs j) *! ((x *! xs j -! k1) /! (x -! xs j))).
      { intros j Hj. unfold xs, g.
        replace (Z.of_nat (Z.to_nat l - j)) with (l - Z.of_nat j) by lia. rewrite (pmul_neg (Z.of_nat j)) by lia.
        apply pair_x; try assumption.
        - apply pmul_onc; assumption.
        - apply pmul_ne_inf. lia.
        - apply N. lia.
        - rewrite <- pmul_neg by lia. apply N. lia. }
      split; [intros j Hj; apply (PX j Hj)|]. f_equal. unfold f.
      replace (Z.to_nat (l - 1)) with (half + half)%nat by lia.
      rewrite kprodn_app. rewrite (kprodn_rev F (fun j => g (half + j)%nat)).
      rewrite <- kprodn_mul.
      set (u := fun j => x *! xs j -! k1). set (v := fun j => x -! xs j).
      assert (NV : forall n, (n <= half)%nat -> kprodn v n <> k0). { intros n Hn. apply kprodn_nz. intros j Hj. apply PX. lia. }
      rewrite (kprodn_ext F _ (fun j => u j /! v j *! (u j /! v j))).
      2: { intros j Hj. replace (half + (S half - j))%nat with (Z.to_nat l - j)%nat by lia. apply PX. exact Hj. }
      assert (G : forall n, (n <= half)%nat -> kprodn (fun j => u j /! v j *! (u j /! v j)) n = kprodn u n /! kprodn v n *! (kprodn u n /! kprodn v n)).
      { induction n; intros Hn; cbn [MontIso.kprodn]; [field; apply k_one_nz|]. rewrite IHn by lia. field. split; [apply PX; lia|apply NV; lia]. }
      apply G. lia.
    Qed.
  End Order.

  (* ---------- running the code ---------- *)
  Lemma iM_mod : forall i, iM i = iM (i mod 3).
  Proof. intros i. unfold iM. rewrite Nat.mod_mod by lia. reflexivity. Qed.

  Definition keep (m m' : nat -> F) : Prop :=
    m' 0%nat = m 0%nat /\ m' 1%nat = m 1%nat /\ m' 2%nat = m 2%nat /\ m' 3%nat = m 3%nat /\ m' 4%nat = m 4%nat /\ m' 5%nat = m 5%nat /\
    m' 90%nat = m 90%nat /\ m' 91%nat = m 91%nat /\ m' 95%nat = m 95%nat /\ m' 96%nat = m 96%nat.
  Lemma keep_trans : forall m1 m2 m3, keep m1 m2 -> keep m2 m3 -> keep m1 m3.
  Proof. unfold keep. intros m1 m2 m3 A B. repeat match goal with H : _ /\ _ |- _ => destruct H end. repeat split; congruence. Qed.

  Definition mulpart (i : nat) : list instr :=
    let t0 := 92%nat in let t1 := 93%nat in let t2 := 94%nat in let S := 95%nat in let D := 96%nat in
    let prod := iprod in let Q := iQ in let M := iM in
    [ISub t1 (M i).(px) (M i).(pz); IAdd t0 (M i).(px) (M i).(pz); IMul prod.(px) prod.(px) t1; IMul prod.(pz) prod.(pz) t0;
     IMul t1 t1 S; IMul t0 t0 D; IAdd t2 t0 t1; IMul Q.(px) Q.(px) t2; ISub t2 t0 t1; IMul Q.(pz) Q.(pz) t2].
  Lemma body_eq : forall kern i, xIso_body kern i =
    (if (2 <=? i)%nat then xAdd_code (iM i) (iM (i - 1)) kern (iM (i - 2)) else []) ++ mulpart i.
  Proof. reflexivity. Qed.

  Lemma mulpart_run : forall i (m : nat -> F), let m' := run O (mulpart i) m in
    let X := m (px (iM i)) in let Z := m (pz (iM i)) in
    m' 88%nat = m 88%nat *! (X -! Z) /\ m' 89%nat = m 89%nat *! (X +! Z) /\
    m' 86%nat = m 86%nat *! ((X +! Z) *! m 96%nat +! (X -! Z) *! m 95%nat) /\
    m' 87%nat = m 87%nat *! ((X +! Z) *! m 96%nat -! (X -! Z) *! m 95%nat) /\
    (forall j, m' (px (iM j)) = m (px (iM j)) /\ m' (pz (iM j)) = m (pz (iM j))) /\ keep m m'.
  Proof.
    intros i m. unfold mulpart. rewrite (iM_mod i).
    assert (H : (i mod 3 = 0 \/ i mod 3 = 1 \/ i mod 3 = 2)%nat) by (pose proof (Nat.mod_upper_bound i 3 ltac:(lia)); lia).
    assert (K : forall m' : nat -> F, m' 80%nat = m 80%nat -> m' 81%nat = m 81%nat -> m' 82%nat = m 82%nat -> m' 83%nat = m 83%nat -> m' 84%nat = m 84%nat -> m' 85%nat = m 85%nat ->
      forall j, m' (px (iM j)) = m (px (iM j)) /\ m' (pz (iM j)) = m (pz (iM j))).
    { intros m' E0 E1 E2 E3 E4 E5 j. rewrite iM_mod. pose proof (Nat.mod_upper_bound j 3 ltac:(lia)).
      destruct (j mod 3)%nat as [|[|[|]]]; [split; assumption|split; assumption|split; assumption|lia]. }
    destruct H as [-> | [-> | ->]];
      (cbv zeta; split; [reflexivity|split; [reflexivity|split; [reflexivity|split; [reflexivity|split; [apply K; reflexivity|repeat split]]]]]).
  Qed.

  Lemma xadd_run : forall i (m : nat -> F), (2 <= i)%nat ->
    let m' := run O (xAdd_code (iM i) (iM (i - 1)) (mkpl 4 5) (iM (i - 2))) m in
    let X1 := m (px (iM (i - 1))) in let Z1 := m (pz (iM (i - 1))) in
    let XD := m (px (iM (i - 2))) in let ZD := m (pz (iM (i - 2))) in
    m' (px (iM i)) = kt4 *! addX F X1 Z1 (m 4%nat) (m 5%nat) ZD /\
    m' (pz (iM i)) = kt4 *! addZ F X1 Z1 (m 4%nat) (m 5%nat) XD /\
    m' (px (iM (i - 1))) = X1 /\ m' (pz (iM (i - 1))) = Z1 /\
    m' 86%nat = m 86%nat /\ m' 87%nat = m 87%nat /\ m' 88%nat = m 88%nat /\ m' 89%nat = m 89%nat /\ keep m m'.
  Proof.
    intros i m Hi. cbv zeta. rewrite (iM_mod i), (iM_mod (i - 1)), (iM_mod (i - 2)).
    assert (H : exists q, (i = 3 * q + 2 \/ i = 3 * q + 3 \/ i = 3 * q + 4)%nat).
    { exists ((i - 2) / 3)%nat. pose proof (Nat.div_mod (i - 2) 3 ltac:(lia)). pose proof (Nat.mod_upper_bound (i - 2) 3 ltac:(lia)). lia. }
    destruct H as [q H].
    assert (R : forall q r, (r < 3)%nat -> ((3 * q + r) mod 3 = r)%nat).
    { intros q' r Hr. rewrite Nat.add_comm, Nat.mul_comm, Nat.mod_add by lia. apply Nat.mod_small. exact Hr. }
    assert (E : (i mod 3 = 2 /\ (i - 1) mod 3 = 1 /\ (i - 2) mod 3 = 0)%nat \/ (i mod 3 = 0 /\ (i - 1) mod 3 = 2 /\ (i - 2) mod 3 = 1)%nat \/
                (i mod 3 = 1 /\ (i - 1) mod 3 = 0 /\ (i - 2) mod 3 = 2)%nat).
    { destruct H as [H | [H | H]]; [left|right; left|right; right]; subst i.
      - split; [apply R; lia|]. replace (3 * q + 2 - 1)%nat with (3 * q + 1)%nat by lia. replace (3 * q + 2 - 2)%nat with (3 * q + 0)%nat by lia. split; apply R; lia.
      - replace (3 * q + 3 - 1)%nat with (3 * q + 2)%nat by lia. replace (3 * q + 3 - 2)%nat with (3 * q + 1)%nat by lia. replace (3 * q + 3)%nat with (3 * (q + 1) + 0)%nat by lia. repeat split; apply R; lia.
      - replace (3 * q + 4 - 1)%nat with (3 * (q + 1) + 0)%nat by lia. replace (3 * q + 4 - 2)%nat with (3 * q + 2)%nat by lia. replace (3 * q + 4)%nat with (3 * (q + 1) + 1)%nat by lia. repeat split; apply R; lia. }
    clear H R q.
    destruct E as [(-> & -> & ->) | [(-> & -> & ->) | (-> & -> & ->)]];
      (cbv [xAdd_code run step mset absOps car fadd fsub fmul iM px pz Nat.eqb Nat.modulo Nat.divmod Nat.sub Nat.add Nat.mul fst snd];
       cbv zeta; unfold addX, addZ, MontLadder.kt4, MontLadder.kt2;
       split; [ring|split; [ring|repeat split]]).
  Qed.

  Lemma pre_run : forall m : nat -> F, let m' := run O (xIso_pre (mkpl 0 1) (mkpl 2 3) (mkpl 4 5)) m in
    m' (px (iM 0)) = m 4%nat /\ m' (pz (iM 0)) = m 5%nat /\
    m' (px (iM 1)) = m four_l *! m 3%nat *! dblX F (m 4%nat) (m 5%nat) /\
    m' (pz (iM 1)) = kt4 *! m 4%nat *! m 5%nat *! (m four_l *! m 3%nat *! ((m 4%nat -! m 5%nat) *! (m 4%nat -! m 5%nat)) +! (m 2%nat +! kt2 *! m 3%nat) *! (kt4 *! m 4%nat *! m 5%nat)) /\
    m' 88%nat = m 4%nat -! m 5%nat /\ m' 89%nat = m 4%nat +! m 5%nat /\
    m' 86%nat = kt2 *! (m 0%nat *! m 4%nat -! m 1%nat *! m 5%nat) /\
    m' 87%nat = kt2 *! (m 0%nat *! m 5%nat -! m 1%nat *! m 4%nat) /\
    m' 95%nat = m 0%nat +! m 1%nat /\ m' 96%nat = m 0%nat -! m 1%nat /\
    m' 90%nat = m 2%nat +! kt2 *! m 3%nat /\ m' 91%nat = m 2%nat -! kt2 *! m 3%nat /\
    m' 0%nat = m 0%nat /\ m' 1%nat = m 1%nat /\ m' 2%nat = m 2%nat /\ m' 3%nat = m 3%nat /\ m' 4%nat = m 4%nat /\ m' 5%nat = m 5%nat.
  Proof.
    intros m. cbv [xIso_pre xDbl_code app run step mset absOps car fadd fsub fmul iM iprod iQ icoEd four_l px pz Nat.eqb Nat.modulo Nat.divmod Nat.sub Nat.add Nat.mul fst snd].
    cbv zeta. unfold dblX, MontLadder.kt4, MontLadder.kt2. repeat (split; [ring|]). ring.
  Qed.

  Definition kpow8 (x : F) : F := let x2 := x *! x in let x4 := x2 *! x2 in x4 *! x4.
  Lemma post_run : forall (m : nat -> F) n, let m' := run O (xIso_post (mkpl 0 1) (mkpl 2 3) n) m in
    let ea := kpow (m 90%nat) n *! kpow8 (m 89%nat) in let ed := kpow (m 91%nat) n *! kpow8 (m 88%nat) in
    m' 0%nat = m 0%nat *! (m 86%nat *! m 86%nat) /\ m' 1%nat = m 1%nat *! (m 87%nat *! m 87%nat) /\
    m' 2%nat = kt2 *! (ea +! ed) /\ m' 3%nat = ea -! ed.
  Proof.
    intros m n. cbv [xIso_post run step mset absOps car fadd fsub fmul fpow iM iprod iQ icoEd px pz Nat.eqb].
    cbv zeta. unfold kpow8, MontLadder.kt2. repeat split; ring.
  Qed.

  (* the coefficients of the image curve: twisted Edwards a and d *)
  Definition edA (A C : F) (l : Z) (x : nat -> F) (d : nat) : F := kpow (A +! kt2 *! C) l *! kpow8 (kprodn (fun j => x j +! k1) d).
  Definition edD (A C : F) (l : Z) (x : nat -> F) (d : nat) : F := kpow (A -! kt2 *! C) l *! kpow8 (kprodn (fun j => x j -! k1) d).

  Section Run.
    Variables (K : pnt) (l : Z).
    Hypothesis HK : onc K.
    Hypothesis KN : K <> Inf.
    Hypothesis Hl : prime l.
    Hypothesis l2 : l <> 2.
    Hypothesis KO : pmul l K = Inf.
    Variable m : nat -> F.
    Hypothesis RK : xrep (m 4%nat) (m 5%nat) K.
    Hypothesis NC : m 3%nat <> k0.
    Hypothesis HA : m 2%nat = a *! m 3%nat.
    Hypothesis H4 : m four_l = kt4.
    Notation xs := (xs K). Notation half := (half l).
    Let X := m 0%nat. Let Zc := m 1%nat.

    Definition iinv (n : nat) (m' : nat -> F) : Prop :=
      xrep (m' (px (iM (n - 1)))) (m' (pz (iM (n - 1)))) (pmul (Z.of_nat n) K) /\
      (n = 1%nat -> xrep (m' (px (iM 1))) (m' (pz (iM 1))) (pmul 2 K)) /\
      ((2 <= n)%nat -> xrep (m' (px (iM (n - 2)))) (m' (pz (iM (n - 2)))) (pmul (Z.of_nat (n - 1)) K)) /\
      (exists lam, lam <> k0 /\
        m' 88%nat = lam *! kprodn (fun j => xs j -! k1) n /\ m' 89%nat = lam *! kprodn (fun j => xs j +! k1) n) /\
      (exists lam, lam <> k0 /\
        m' 86%nat = lam *! kprodn (fun j => X *! xs j -! Zc) n /\ m' 87%nat = lam *! kprodn (fun j => X -! Zc *! xs j) n) /\
      m' 0%nat = X /\ m' 1%nat = Zc /\ m' 4%nat = m 4%nat /\ m' 5%nat = m 5%nat /\
      m' 90%nat = m 2%nat +! kt2 *! m 3%nat /\ m' 91%nat = m 2%nat -! kt2 *! m 3%nat /\
      m' 95%nat = X +! Zc /\ m' 96%nat = X -! Zc.

    Lemma rep_x : forall x z j, 0 < j < l -> xrep x z (pmul j K) -> z <> k0 /\ x = xco (pmul j K) *! z.
    Proof.
      intros x z j Hj R. destruct (pmul_aff K l HK KN Hl l2 KO j Hj) as (y & E & _). rewrite E in R. exact R.
    Qed.
    Lemma rep_prev : forall n, 0 < Z.of_nat n -> Z.of_nat (S n) < l -> padd (pmul (Z.of_nat (S n)) K) (pneg K) = pmul (Z.of_nat n) K.
    Proof.
      intros n Hn Hs. rewrite Nat2Z.inj_succ. unfold Z.succ. rewrite (pmul_add F a b two_nz b_nz a_ok) by (assumption || lia). rewrite pmul_1.
      apply cancel; auto using pmul_onc.
    Qed.

    Lemma iinv_mul : forall n m', (1 <= n)%nat -> Z.of_nat (S n) < l ->
      xrep (m' (px (iM n))) (m' (pz (iM n))) (pmul (Z.of_nat (S n)) K) ->
      xrep (m' (px (iM (n - 1)))) (m' (pz (iM (n - 1)))) (pmul (Z.of_nat n) K) ->
      (exists lam, lam <> k0 /\
        m' 88%nat = lam *! kprodn (fun j => xs j -! k1) n /\ m' 89%nat = lam *! kprodn (fun j => xs j +! k1) n) ->
      (exists lam, lam <> k0 /\
        m' 86%nat = lam *! kprodn (fun j => X *! xs j -! Zc) n /\ m' 87%nat = lam *! kprodn (fun j => X -! Zc *! xs j) n) ->
      m' 0%nat = X -> m' 1%nat = Zc -> m' 4%nat = m 4%nat -> m' 5%nat = m 5%nat ->
      m' 90%nat = m 2%nat +! kt2 *! m 3%nat -> m' 91%nat = m 2%nat -! kt2 *! m 3%nat ->
      m' 95%nat = X +! Zc -> m' 96%nat = X -! Zc ->
      iinv (S n) (run O (mulpart n) m').
    Proof.
      intros n m' Hn Hs R1 R2 (lam & L0 & L1 & L2) (mu & M0 & M1 & M2) E0 E1 E4 E5 E90 E91 E95 E96.
      destruct (mulpart_run n m') as (G88 & G89 & G86 & G87 & GM & (G0 & G1 & G2 & G3 & G4 & G5 & G90 & G91 & G95 & G96)).
      set (m'' := run O (mulpart n) m') in *. clearbody m''. unfold iinv.
      replace (S n - 1)%nat with n by lia. replace (S n - 2)%nat with (n - 1)%nat by lia.
      destruct (GM n) as [GX GZ]. destruct (GM (n - 1)%nat) as [GX' GZ']. rewrite GX, GZ, GX', GZ'.
      destruct (rep_x _ _ (Z.of_nat (S n)) ltac:(lia) R1) as [NZ EX].
      change (xco (pmul (Z.of_nat (S n)) K)) with (xs (S n)) in EX.
      split; [exact R1|]. split; [intros h; lia|]. split; [intros _; exact R2|].
      split.
      { exists (lam *! m' (pz (iM n))). split; [apply k_mul_nz; assumption|].
        rewrite G88, G89, L1, L2, EX. cbn [MontIso.kprodn]. split; ring. }
      split.
      { exists (kt2 *! (mu *! m' (pz (iM n)))). split; [repeat apply k_mul_nz; assumption|].
        rewrite G86, G87, M1, M2, E95, E96, EX. cbn [MontIso.kprodn]. unfold MontLadder.kt2. split; ring. }
      repeat split; congruence.
    Qed.

    Lemma loop_run : forall n, (1 <= n)%nat -> (n <= half)%nat ->
      iinv n (run O (flat_map (xIso_body (mkpl 4 5)) (seq 1 (n - 1))) (run O (xIso_pre (mkpl 0 1) (mkpl 2 3) (mkpl 4 5)) m)).
    Proof.
      intros n. induction n as [|n IH]; intros Hn Hh; [lia|].
      pose proof (half_l l Hl l2) as HL. pose proof (l_ge3 l Hl l2) as L3.
      destruct (Nat.eq_dec n 0) as [->|N0].
      - cbn [Nat.sub seq flat_map run]. destruct (pre_run m) as (P1 & P2 & P3 & P4 & P5 & P6 & P7 & P8 & P9 & P10 & P11 & P12 & P13 & P14 & P15 & P16 & P17 & P18).
        set (m1 := run O (xIso_pre _ _ _) m) in *. clearbody m1. unfold iinv. cbn [Nat.sub].
        destruct (rep_x (m 4%nat) (m 5%nat) 1 ltac:(lia) RK) as [NZ EX].
        change (xco (pmul 1 K)) with (xs 1%nat) in EX.
        split; [rewrite P1, P2; exact RK|]. split.
        { intros _. rewrite P3, P4, H4, HA, pmul_2.
          replace (kt4 *! m 4%nat *! m 5%nat *! (kt4 *! m 3%nat *! ((m 4%nat -! m 5%nat) *! (m 4%nat -! m 5%nat)) +! (a *! m 3%nat +! kt2 *! m 3%nat) *! (kt4 *! m 4%nat *! m 5%nat)))
            with (kt4 *! m 3%nat *! dblZ F a (m 4%nat) (m 5%nat)) by (unfold dblZ, MontLadder.kt4, MontLadder.kt2; ring).
          apply xrep_scale; [apply k_mul_nz; [apply (four_nz' F two_nz)|exact NC]|]. apply (xdbl_ok F a b); assumption. }
        split; [intros h; lia|].
        split; [exists (m 5%nat); split; [exact NZ|]; rewrite P5, P6, EX; cbn [MontIso.kprodn]; split; ring|].
        split; [exists (kt2 *! m 5%nat); split; [apply k_mul_nz; assumption|]; rewrite P7, P8, EX; unfold X, Zc; cbn [MontIso.kprodn]; split; ring|].
        repeat split; assumption.
      - replace (S n - 1)%nat with (S (n - 1)) by lia. rewrite seq_S, flat_map_app, run_app.
        specialize (IH ltac:(lia) ltac:(lia)). set (m1 := run O _ (run O (xIso_pre _ _ _) m)) in *. clearbody m1.
        replace (1 + (n - 1))%nat with n by lia. cbn [flat_map]. rewrite app_nil_r, body_eq, run_app.
        destruct IH as (I1 & I2 & I3 & I4 & I5 & I6 & I7 & I8 & I9 & I10 & I11 & I12 & I13).
        destruct (Nat.leb_spec 2 n) as [h|h].
        + destruct (xadd_run n m1 h) as (A1 & A2 & A3 & A4 & A5 & A6 & A7 & A8 & (A9 & A10 & A11 & A12 & A13 & A14 & A15 & A16 & A17 & A18)).
          set (m2 := run O (xAdd_code _ _ _ _) m1) in *. clearbody m2.
          specialize (I3 h).
          destruct (rep_x _ _ (Z.of_nat (n - 1)) ltac:(lia) I3) as [NZD EXD].
          apply iinv_mul; try lia; try congruence.
          * rewrite A1, A2, I8, I9. apply xrep_scale; [apply (four_nz' F two_nz)|].
            assert (E : pmul (Z.of_nat (S n)) K = padd (pmul (Z.of_nat n) K) K).
            { rewrite Nat2Z.inj_succ. unfold Z.succ. rewrite (pmul_add F a b two_nz b_nz a_ok) by (assumption || lia). rewrite pmul_1. reflexivity. }
            rewrite E. apply (xadd_ok F a b two_nz b_nz); try assumption.
            -- apply pmul_onc; assumption.
            -- replace n with (S (n - 1)) at 3 by lia. rewrite rep_prev by lia. exact I3.
            -- rewrite EXD. apply k_mul_nz; [|exact NZD]. apply (pmul_x_nz K l HK KN Hl l2 KO). lia.
          * destruct I4 as (u & U1 & U2 & U3). exists u. split; [exact U1|]. rewrite A7, A8. split; assumption.
          * destruct I5 as (u & U1 & U2 & U3). exists u. split; [exact U1|]. rewrite A5, A6. split; assumption.
        + assert (E : n = 1%nat) by lia. subst n. cbn [run].
          apply iinv_mul; try assumption; try lia. apply I2. reflexivity.
    Qed.

    Theorem xIso_abs : exists lam mu, lam <> k0 /\ mu <> k0 /\
      let m' := run O (xIso_code (mkpl 0 1) (mkpl 2 3) (mkpl 4 5) l) m in
      m' 0%nat = lam *! (X *! (kprodn (fun j => X *! xs j -! Zc) half *! kprodn (fun j => X *! xs j -! Zc) half)) /\
      m' 1%nat = lam *! (Zc *! (kprodn (fun j => X -! Zc *! xs j) half *! kprodn (fun j => X -! Zc *! xs j) half)) /\
      m' 2%nat = mu *! (kt2 *! (edA (m 2%nat) (m 3%nat) l xs half +! edD (m 2%nat) (m 3%nat) l xs half)) /\
      m' 3%nat = mu *! (edA (m 2%nat) (m 3%nat) l xs half -! edD (m 2%nat) (m 3%nat) l xs half).
    Proof.
      pose proof (half_l l Hl l2) as HL. pose proof (l_ge3 l Hl l2) as L3.
      unfold xIso_code. rewrite !run_app.
      replace (Z.to_nat (Z.shiftr l 1)) with half by (rewrite Z.shiftr_div_pow2 by lia; reflexivity).
      destruct (loop_run half ltac:(lia) ltac:(lia)) as (_ & _ & _ & (u & U0 & U1 & U2) & (v & V0 & V1 & V2) & I0 & I1 & _ & _ & I90 & I91 & _).
      set (m1 := run O (flat_map _ _) _) in *. clearbody m1.
      destruct (post_run m1 l) as (Q0 & Q1 & Q2 & Q3). set (m2 := run O (xIso_post _ _ _) m1) in *. clearbody m2.
      exists (v *! v), (kpow8 u). split; [apply k_mul_nz; assumption|]. split; [unfold kpow8; repeat apply k_mul_nz; exact U0|].
      cbv zeta. rewrite Q0, Q1, Q2, Q3, U1, U2, V1, V2, I0, I1, I90, I91. unfold edA, edD, kpow8.
      repeat split; cbn [car absOps]; ring.
    Qed.
  End Run.
End Iso.
