(* The limb implementation of the CSIDH curve layer computes in the field of P elements. *)
From Coq Require Import ZArith Znumtheory List Lia Bool Field.
From Verif Require Import Lib MP NT Instr CSIDH_Field CSIDH_FieldProofs CSIDH_FieldProofs2 CSIDH_Curve CSIDH_Model
  CSIDH_ApiProofs CSIDH_GaProofs FieldAlg MontCurve MontAssoc MontLadder MontIso.
Import ListNotations.
Open Scope Z_scope.

(* the field of P elements *)
Definition Fq : fld := Fp P P_prime.
Add Field Fqf : (k_th Fq).
Definition fq (z : Z) : Fq := fpm P P_prime z.
Definition fqv (x : Fq) : Z := fpv P x.
(* limbs x hold the Montgomery form of the field element a *)
Definition frep (x : list Z) (a : Fq) : Prop := mrep x (fqv a).

Lemma fqv_fq : forall z, fqv (fq z) = z mod P. Proof. intros. apply fpv_fpm. Qed.
Lemma fq_inj : forall x y : Fq, fqv x = fqv y -> x = y. Proof. intros x y. apply fpv_inj. Qed.
Lemma fq_eq : forall x y, x mod P = y mod P -> fq x = fq y. Proof. intros x y. apply fpm_eq. Qed.
Lemma fqv_range : forall x : Fq, 0 <= fqv x < P. Proof. intros x. apply fpv_range. exact P_prime. Qed.
Lemma fq_fqv : forall x : Fq, fq (fqv x) = x. Proof. intros x. apply fpm_fpv. Qed.
Lemma frep_mrep : forall x z, mrep x z -> frep x (fq z).
Proof. intros x z H. unfold frep. rewrite fqv_fq. eapply mrep_cong; [exact H|]. rewrite Zmod_mod. reflexivity. Qed.
Lemma frep_inj : forall x (a b : Fq), frep x a -> frep x b -> a = b.
Proof.
  intros x a b Ha Hb. apply fq_inj. pose proof (mrep_inj _ _ _ Ha Hb) as E.
  rewrite !Z.mod_small in E by apply fqv_range. exact E.
Qed.
Lemma frep_unique : forall x y (a : Fq), frep x a -> frep y a -> x = y.
Proof. intros x y a. apply mrep_unique. Qed.
Lemma frep_exists : forall x, fp_red x -> exists a : Fq, frep x a.
Proof. intros x H. exists (fq (fv x)). apply frep_mrep, mrep_fv. exact H. Qed.

Lemma frep_inv : forall x (a : Fq), frep x a -> frep (modExpRdc512 x pMin1) (kinv a).
Proof.
  intros x a H. destruct (inverse_ok x _ H) as (a' & M & I1 & I0).
  replace (kinv a) with (fq a'); [apply frep_mrep; exact M|]. symmetry.
  pose proof (fqv_range a) as Ra. pose proof P_gt2 as P2. rewrite (Z.mod_small (fqv a)) in * by exact Ra.
  destruct (k_dec a k0) as [->|N].
  - rewrite k_inv0. assert (E : fqv (k0 : Fq) = 0) by (apply Z.mod_0_l; lia). rewrite E in I0. specialize (I0 eq_refl).
    apply fq_inj. rewrite E, fqv_fq. symmetry. exact I0.
  - symmetry. apply (k_inv_unique Fq). apply fq_inj. change (fqv (kmul a (fq a'))) with ((fqv a * fqv (fq a')) mod P).
    rewrite fqv_fq, Z.mul_mod_idemp_r by lia. rewrite Z.mul_comm, I1; [symmetry; apply Z.mod_small; lia|].
    intros E. apply N. apply fq_inj. rewrite E. symmetry. apply Z.mod_0_l. lia.
Qed.
Lemma frep_pow : forall x (a : Fq) k, frep x a -> 0 <= k < 2 ^ 64 -> frep (modExpRdc64 x k) (kpow a k).
Proof.
  intros x a k H Hk. pose proof (modExpRdc64_ok x _ k H Hk) as M.
  replace (kpow a k) with (fq (fqv a ^ k)); [apply frep_mrep; exact M|]. symmetry. apply fp_pow. lia.
Qed.

Theorem sim_fp : simulates fpOps (absOps Fq) frep.
Proof.
  constructor; unfold frep in *; cbn [fpOps absOps car fadd fsub fmul fsqr finv fpow].
  - intros x x' y y' Hx Hy. eapply mrep_cong; [exact (mrep_add _ _ _ _ Hx Hy)|].
    change (fqv (kadd x' y')) with ((fqv x' + fqv y') mod P). rewrite Zmod_mod. reflexivity.
  - intros x x' y y' Hx Hy. eapply mrep_cong; [exact (mrep_sub _ _ _ _ Hx Hy)|].
    change (fqv (ksub x' y')) with ((fqv x' - fqv y') mod P). rewrite Zmod_mod. reflexivity.
  - intros x x' y y' Hx Hy. eapply mrep_cong; [exact (mrep_mul _ _ _ _ Hx Hy)|].
    change (fqv (kmul x' y')) with ((fqv x' * fqv y') mod P). rewrite Zmod_mod. reflexivity.
  - intros x x' Hx. eapply mrep_cong; [exact (mrep_mul _ _ _ _ Hx Hx)|].
    change (fqv (kmul x' x')) with ((fqv x' * fqv x') mod P). rewrite Zmod_mod. reflexivity.
  - intros x x' Hx. apply frep_inv. exact Hx.
  - intros x x' k Hx Hk. apply frep_pow; assumption.
Qed.

Definition k4 : Fq := kt4 Fq.
Lemma frep_zero : frep fpZero k0.
Proof.
  assert (M : mrep fpZero 0). { split; [split; [split; [|reflexivity]|]|reflexivity]. - unfold fpZero. apply Forall_forall. intros x Hx. apply repeat_spec in Hx. subst x. unfold is_w64. lia. - vm_compute. reflexivity. }
  exact (frep_mrep _ _ M).
Qed.
Lemma frep_one : frep one k1. Proof. exact (frep_mrep _ _ mrep_one). Qed.
Lemma frep_four : frep four k4.
Proof.
  assert (M : mrep four 4). { apply (mrep_cong _ (1 + 1 + (1 + 1))); [|reflexivity].
    assert (E : four = addRdc (addRdc one one) (addRdc one one)) by (vm_compute; reflexivity).
    rewrite E. apply mrep_add; apply mrep_add; exact mrep_one. }
  replace k4 with (fq 4); [apply frep_mrep; exact M|]. apply fq_inj. reflexivity.
Qed.
Lemma frep_isZero : forall x (a : Fq), frep x a -> isZero x = true <-> a = k0.
Proof.
  intros x a [[F L] V]. rewrite isZero_ok by exact F. rewrite Z.eqb_eq, V. pose proof P_gt2. split.
  - intros E. apply fq_inj. change (fqv k0) with (0 mod P). rewrite <- (Z.mod_small (fqv a) P) by apply fqv_range.
    apply R_cancel. rewrite E. reflexivity.
  - intros ->. reflexivity.
Qed.

(* ---- frames ---- *)
Notation frameL := (frame fpOps fpZero one four).
Notation frameA := (frame (absOps Fq) k0 k1 k4).
Lemma frame_sim : forall l l', Forall2 frep l l' -> forall i, frep (frameL l i) (frameA l' i).
Proof.
  intros l l' H i. unfold frame, mset. destruct (Nat.eqb i one_l); [exact frep_one|]. destruct (Nat.eqb i four_l); [exact frep_four|].
  unfold args. revert i. induction H; intros [|i]; cbn [nth]; try exact frep_zero; [assumption|apply IHForall2].
Qed.

Ltac fs := apply frame_sim; repeat (apply Forall2_cons; [assumption|]); apply Forall2_nil.
(* programs without exponentiation are fine for the simulation *)
Lemma prog_ok_app : forall p q, prog_ok p -> prog_ok q -> prog_ok (p ++ q).
Proof. intros. apply Forall_app. split; assumption. Qed.
Ltac pok := repeat (apply Forall_cons; [exact I|]); apply Forall_nil.
Lemma xDbl_pok : forall a b c, prog_ok (xDbl_code a b c). Proof. intros. unfold xDbl_code. pok. Qed.
Lemma xAdd_pok : forall a b c d, prog_ok (xAdd_code a b c d). Proof. intros. unfold xAdd_code. pok. Qed.
Lemma xDblAdd_pok : forall a b c d e f, prog_ok (xDblAdd_code a b c d e f). Proof. intros. unfold xDblAdd_code. pok. Qed.
Lemma ladder_pok : forall P k i pb, prog_ok (ladder_code P k i pb).
Proof.
  induction i; intros pb; [apply Forall_nil|]. cbn [ladder_code]. apply prog_ok_app; [unfold cswappoint_code; pok|].
  apply prog_ok_app; [apply xDblAdd_pok|apply IHi].
Qed.
Lemma xMul_pok : forall kP P co k, prog_ok (xMul_code kP P co k).
Proof.
  intros. unfold xMul_code. cbv zeta. repeat (apply prog_ok_app; [first [apply xDbl_pok | apply ladder_pok | unfold cswappoint_code; pok | pok]|]). pok.
Qed.
Lemma xIso_pok : forall img co kern n, 0 <= n < 2 ^ 64 -> prog_ok (xIso_code img co kern n).
Proof.
  intros img co kern n Hn. unfold xIso_code. apply prog_ok_app; [|apply prog_ok_app].
  - unfold xIso_pre. cbv zeta. repeat (apply prog_ok_app; [pok|]). apply xDbl_pok.
  - apply Forall_forall. intros i Hi. apply in_flat_map in Hi. destruct Hi as (j & _ & Hj).
    assert (prog_ok (xIso_body kern j)) as F.
    { unfold xIso_body. cbv zeta. apply prog_ok_app; [|pok]. destruct (2 <=? j)%nat; [apply xAdd_pok|apply Forall_nil]. }
    unfold prog_ok in F. rewrite Forall_forall in F. apply F. exact Hj.
  - unfold xIso_post. cbv zeta.
    repeat (apply Forall_cons; [first [exact I | exact Hn]|]); apply Forall_nil.
Qed.
Lemma montEval_pok : forall r a x, prog_ok (montEval_code r a x). Proof. intros. unfold montEval_code. cbn [app]. pok. Qed.

(* ---- points and curves given by limbs ---- *)
Notation pnt := (MontCurve.pnt Fq).
Definition prep2 (q : list Z * list Z) (X Z : Fq) : Prop := frep (fst q) X /\ frep (snd q) Z.
(* q represents the x-coordinate of the point Pt *)
Definition lrep (q : list Z * list Z) (Pt : pnt) : Prop := exists X Z, prep2 q X Z /\ xrep Fq X Z Pt.
(* weaker: (0:0) also stands for the point at infinity *)
Definition zrep (q : list Z * list Z) (Pt : pnt) : Prop := exists X Z, prep2 q X Z /\
  match Pt with Inf _ => Z = k0 | Aff _ x _ => Z <> k0 /\ X = kmul x Z end.
(* co = (A : C) with a = A / C *)
Definition crep (co : list Z * list Z) (a : Fq) : Prop := exists A C, prep2 co A C /\ C <> k0 /\ A = kmul a C.
Definition smooth (a : Fq) : Prop := kmul a a <> k4.

Lemma two_nz : kadd k1 k1 <> (k0 : Fq).
Proof. intros E. apply (f_equal fqv) in E. revert E. vm_compute. discriminate. Qed.

Lemma lrep_zrep : forall q Pt, lrep q Pt -> zrep q Pt.
Proof. intros q [|x y] (X & Z & H & R); exists X, Z; (split; [exact H|]); [apply R|exact R]. Qed.

Section Limb.
  Variables (a b : Fq).
  Hypothesis b_nz : b <> k0.
  Hypothesis a_ok : smooth a.
  Notation onc := (onc Fq a b). Notation padd := (padd Fq a b). Notation pneg := (pneg Fq). Notation pmul := (pmul Fq a b).
  Notation xDblF := (xDbl fpOps fpZero one four). Notation xMulF := (xMul fpOps fpZero one four).
  Notation xMul_ipF := (xMul_ip fpOps fpZero one four). Notation xIsoF := (xIso fpOps fpZero one four).

  Lemma xDbl_limb : forall q co Pt, crep co a -> onc Pt -> lrep q Pt -> lrep (xDblF q co) (padd Pt Pt).
  Proof.
    intros q co Pt (A & C & [HA HC] & NC & EA) HP (X & Z & [HX HZ] & R).
    unfold xDbl, get. cbn [px pz fst snd].
    pose proof (run_sim _ _ _ sim_fp (xDbl_code (mkpl 0 1) (mkpl 0 1) (mkpl 2 3)) (frameL [fst q; snd q; fst co; snd co]) (frameA [X; Z; A; C])
      (xDbl_pok _ _ _) ltac:(fs)) as S.
    eexists _, _. split; [split; [exact (S 0%nat)|exact (S 1%nat)]|].
    apply (xDbl_abs Fq a b two_nz b_nz a_ok (frameA [X; Z; A; C]) Pt HP R NC EA eq_refl (mkpl 0 1)). left. reflexivity.
  Qed.
  Lemma xMul_limb : forall q co k Pt, crep co a -> onc Pt -> lrep q Pt -> Pt <> Inf Fq -> xco Fq Pt <> k0 -> fp_ok k -> 0 < val k ->
    lrep (xMulF q co k) (pmul (val k) Pt) /\ lrep (xMul_ipF q co k) (pmul (val k) Pt).
  Proof.
    intros q co k Pt (A & C & [HA HC] & NC & EA) HP (X & Z & [HX HZ] & R) NI NX [Wk Lk] Hk.
    assert (Bk : 0 < val k < 2 ^ 512). { pose proof (val_bound k Wk) as V. rewrite Lk in V. change (B ^ Z.of_nat 8) with (2 ^ 512) in V. lia. }
    assert (N01 : X <> k0 /\ Z <> k0).
    { destruct Pt as [|x y]; [contradiction|]. cbn [xco] in NX. destruct R as [R1 R2]. split; [rewrite R2; apply k_mul_nz; assumption|exact R1]. }
    destruct N01 as [N0 N1].
    split; unfold xMul, xMul_ip, get; cbn [px pz fst snd];
      match goal with |- context [run fpOps (xMul_code ?kP _ _ _) _] =>
        pose proof (run_sim _ _ _ sim_fp (xMul_code kP (mkpl 0 1) (mkpl 2 3) k) (frameL [fst q; snd q; fst co; snd co]) (frameA [X; Z; A; C])
          (xMul_pok _ _ _ _) ltac:(fs)) as S;
        pose proof (xMul_abs Fq a b two_nz b_nz a_ok (frameA [X; Z; A; C]) k kP Pt Wk Bk HP R N0 N1 NC EA eq_refl ltac:(discriminate) ltac:(discriminate)) as T end;
      cbv zeta in T; cbn [px pz] in T; eexists _, _; (split; [split; apply S|exact T]).
  Qed.
  Lemma xMul_zrep : forall q co k Pt, crep co a -> onc Pt -> zrep q Pt -> (Pt <> Inf Fq -> xco Fq Pt <> k0) -> fp_ok k -> 0 < val k ->
    zrep (xMulF q co k) (pmul (val k) Pt) /\ zrep (xMul_ipF q co k) (pmul (val k) Pt).
  Proof.
    intros q co k [|x y] HC HP (X & Z & [HX HZ] & R) NX Fk Hk.
    - rewrite (pmul_inf Fq a b). destruct HC as (A & C & [HA HC] & NC & EA).
      split; unfold xMul, xMul_ip, get; cbn [px pz fst snd];
      match goal with |- context [run fpOps (xMul_code ?kP _ _ _) _] =>
        pose proof (run_sim _ _ _ sim_fp (xMul_code kP (mkpl 0 1) (mkpl 2 3) k) (frameL [fst q; snd q; fst co; snd co]) (frameA [X; Z; A; C])
          (xMul_pok _ _ _ _) ltac:(fs)) as S;
        pose proof (xMul_inf Fq (frameA [X; Z; A; C]) k kP R ltac:(discriminate)) as T end;
      cbn [px pz] in T; eexists _, _; (split; [split; apply S|exact T]).
    - destruct (xMul_limb q co k (Aff Fq x y) HC HP) as [L1 L2]; try assumption.
      + exists X, Z. split; [split; assumption|exact R].
      + discriminate.
      + apply NX. discriminate.
      + split; apply lrep_zrep; assumption.
  Qed.
  (* the point (0,0): the result of any multiplication by a scalar above one has Z = 0 *)
  Lemma xMul_origin_limb : forall q co k y, crep co a -> zrep q (Aff Fq k0 y) -> fp_ok k -> 1 < val k ->
    frep (snd (xMulF q co k)) k0 /\ frep (snd (xMul_ipF q co k)) k0.
  Proof.
    intros q co k y (A & C & [HA HC] & NC & EA) (X & Z & [HX HZ] & R1 & R2) [Wk Lk] Hk.
    assert (Bk : 1 < val k < 2 ^ 512). { pose proof (val_bound k Wk) as V. rewrite Lk in V. change (B ^ Z.of_nat 8) with (2 ^ 512) in V. lia. }
    assert (X0 : X = k0) by (rewrite R2; ring).
    split; unfold xMul, xMul_ip, get; cbn [px pz fst snd];
      match goal with |- context [run fpOps (xMul_code ?kP _ _ _) _] =>
        pose proof (run_sim _ _ _ sim_fp (xMul_code kP (mkpl 0 1) (mkpl 2 3) k) (frameL [fst q; snd q; fst co; snd co]) (frameA [X; Z; A; C])
          (xMul_pok _ _ _ _) ltac:(fs)) as S;
        pose proof (xMul_origin Fq (frameA [X; Z; A; C]) k kP X0 Wk Bk ltac:(discriminate)) as T end;
      cbn [px pz] in T; rewrite <- T; apply S.
  Qed.
  Lemma kbit_zero : forall i, kbit fpZero i = false.
  Proof. intros i. unfold kbit, fpZero. rewrite nth_repeat, Z.shiftr_0_l. reflexivity. Qed.
  Lemma xMul_by_zero : forall q co Pt, crep co a -> onc Pt -> lrep q Pt ->
    lrep (xMulF q co fpZero) (padd Pt Pt) /\ lrep (xMul_ipF q co fpZero) (padd Pt Pt).
  Proof.
    intros q co Pt (A & C & [HA HC] & NC & EA) HP (X & Z & [HX HZ] & R).
    split; unfold xMul, xMul_ip, get; cbn [px pz fst snd];
      match goal with |- context [run fpOps (xMul_code ?kP _ _ _) _] =>
        pose proof (run_sim _ _ _ sim_fp (xMul_code kP (mkpl 0 1) (mkpl 2 3) fpZero) (frameL [fst q; snd q; fst co; snd co]) (frameA [X; Z; A; C])
          (xMul_pok _ _ _ _) ltac:(fs)) as S;
        pose proof (xMul_zero_abs Fq a b two_nz b_nz a_ok (frameA [X; Z; A; C]) fpZero kP Pt kbit_zero HP R NC EA eq_refl ltac:(discriminate) ltac:(discriminate)) as T end;
      cbv zeta in T; cbn [px pz] in T; eexists _, _; (split; [split; apply S|exact T]).
  Qed.

  (* xAdd(&R, &P, &Q, &D); R may be P or Q *)
  Definition xAddF (R : ploc) (p q d : list Z * list Z) : list Z * list Z :=
    get fpOps (run fpOps (xAdd_code R (mkpl 0 1) (mkpl 2 3) (mkpl 4 5)) (frameL [fst p; snd p; fst q; snd q; fst d; snd d])) R.
  Lemma xAdd_limb : forall R p q d Pt Qt, In R [mkpl 6 7; mkpl 0 1; mkpl 2 3] -> onc Pt -> onc Qt -> lrep p Pt -> lrep q Qt ->
    lrep d (padd Pt (pneg Qt)) -> padd Pt (pneg Qt) <> Inf Fq -> xco Fq (padd Pt (pneg Qt)) <> k0 ->
    lrep (xAddF R p q d) (padd Pt Qt).
  Proof.
    intros R p q d Pt Qt HR HP HQ (X1 & Z1 & [HX1 HZ1] & R1) (X2 & Z2 & [HX2 HZ2] & R2) (X3 & Z3 & [HX3 HZ3] & R3) ND N0.
    pose proof (run_sim _ _ _ sim_fp (xAdd_code R (mkpl 0 1) (mkpl 2 3) (mkpl 4 5)) (frameL [fst p; snd p; fst q; snd q; fst d; snd d]) (frameA [X1; Z1; X2; Z2; X3; Z3])
          (xAdd_pok _ _ _ _) ltac:(fs)) as S.
    assert (N34 : X3 <> k0 /\ Z3 <> k0).
    { destruct (padd Pt (pneg Qt)) as [|x y]; [contradiction|]. cbn [xco] in N0. destruct R3 as [Q1 Q2]. split; [rewrite Q2; apply k_mul_nz; assumption|exact Q1]. }
    destruct N34 as [N3 N4].
    pose proof (xAdd_abs Fq a b two_nz b_nz (frameA [X1; Z1; X2; Z2; X3; Z3]) Pt Qt HP HQ R1 R2 R3 N3 N4 R HR) as T.
    eexists _, _. split; [split; apply S|exact T].
  Qed.
  (* xDblAdd(&R, &S, &P, &Q, &D, &A24); in place (R,S) = (P,Q) as in xMul, or separate *)
  Definition xDblAddF (R S : ploc) (p q d a24 : list Z * list Z) : (list Z * list Z) * (list Z * list Z) :=
    let m := run fpOps (xDblAdd_code R S (mkpl 0 1) (mkpl 2 3) (mkpl 4 5) (mkpl 6 7)) (frameL [fst p; snd p; fst q; snd q; fst d; snd d; fst a24; snd a24]) in
    (get fpOps m R, get fpOps m S).
  Lemma xDblAdd_limb : forall R S p q d a24 Pt Qt, (R, S) = (mkpl 0 1, mkpl 2 3) \/ (R, S) = (mkpl 8 9, mkpl 10 11) -> onc Pt -> onc Qt -> lrep p Pt -> lrep q Qt ->
    lrep d (padd Pt (pneg Qt)) -> padd Pt (pneg Qt) <> Inf Fq -> xco Fq (padd Pt (pneg Qt)) <> k0 ->
    (exists c, c <> k0 /\ prep2 a24 (kmul c (kadd a (kadd k1 k1))) (kmul c k4)) ->
    lrep (fst (xDblAddF R S p q d a24)) (padd Pt Pt) /\ lrep (snd (xDblAddF R S p q d a24)) (padd Pt Qt).
  Proof.
    intros R S p q d a24 Pt Qt HR HP HQ (X1 & Z1 & [HX1 HZ1] & R1) (X2 & Z2 & [HX2 HZ2] & R2) (X3 & Z3 & [HX3 HZ3] & R3) ND N0 (c & C0 & [C1 C2]).
    set (l' := [X1; Z1; X2; Z2; X3; Z3; kmul c (kadd a (kadd k1 k1)); kmul c k4]).
    pose proof (run_sim _ _ _ sim_fp (xDblAdd_code R S (mkpl 0 1) (mkpl 2 3) (mkpl 4 5) (mkpl 6 7)) (frameL [fst p; snd p; fst q; snd q; fst d; snd d; fst a24; snd a24]) (frameA l')
          (xDblAdd_pok _ _ _ _ _ _) ltac:(unfold l'; fs)) as SM.
    assert (N34 : X3 <> k0 /\ Z3 <> k0).
    { destruct (padd Pt (pneg Qt)) as [|x y]; [contradiction|]. cbn [xco] in N0. destruct R3 as [Q1 Q2]. split; [rewrite Q2; apply k_mul_nz; assumption|exact Q1]. }
    destruct N34 as [N3 N4].
    destruct (xDblAdd_abs Fq a b two_nz b_nz a_ok (frameA l') Pt Qt HP HQ R1 R2 R3 N3 N4 ltac:(exists c; split; [exact C0|split; reflexivity]) R S HR) as [T1 T2].
    unfold xDblAddF, get. cbn [fst snd]. split; eexists _, _; (split; [split; apply SM|assumption]).
  Qed.

  (* xIso *)
  Section IsoL.
    Variables (K : pnt) (l : Z).
    Hypothesis HK : onc K.
    Hypothesis KN : K <> Inf Fq.
    Hypothesis Hl : prime l.
    Hypothesis l2 : l <> 2.
    Hypothesis lb : l < 2 ^ 64.
    Hypothesis KO : pmul l K = Inf Fq.
    Notation xs := (xs Fq a b K). Notation half := (half l).
    Lemma xIso_limb : forall img co kern X Z A C, prep2 img X Z -> prep2 co A C -> C <> k0 -> A = kmul a C -> lrep kern K ->
      let PX := kprodn Fq (fun j => ksub (kmul X (xs j)) Z) half in
      let PZ := kprodn Fq (fun j => ksub X (kmul Z (xs j))) half in
      let ea := edA Fq A C l xs half in let ed := edD Fq A C l xs half in
      exists lam mu, lam <> k0 /\ mu <> k0 /\
        prep2 (fst (xIsoF img co kern l)) (kmul lam (kmul X (kmul PX PX))) (kmul lam (kmul Z (kmul PZ PZ))) /\
        prep2 (snd (xIsoF img co kern l)) (kmul mu (kmul (kt2 Fq) (kadd ea ed))) (kmul mu (ksub ea ed)).
    Proof.
      intros img co kern X Z A C [HX HZ] [HA HC] NC EA (XK & ZK & [HXK HZK] & RK) PX PZ ea ed.
      pose proof (prime_ge_2 l Hl) as Lge.
      pose proof (run_sim _ _ _ sim_fp (xIso_code (mkpl 0 1) (mkpl 2 3) (mkpl 4 5) l) (frameL [fst img; snd img; fst co; snd co; fst kern; snd kern]) (frameA [X; Z; A; C; XK; ZK])
          ltac:(apply xIso_pok; lia) ltac:(fs)) as S.
      destruct (xIso_abs Fq a b two_nz b_nz a_ok K l HK KN Hl l2 KO (frameA [X; Z; A; C; XK; ZK]) RK NC EA eq_refl) as (lam & mu & NL & NM & T0 & T1 & T2 & T3).
      exists lam, mu. split; [exact NL|]. split; [exact NM|]. unfold xIso, get, prep2. cbn [fst snd px pz].
      pose proof (S 0%nat) as S0. pose proof (S 1%nat) as S1. pose proof (S 2%nat) as S2. pose proof (S 3%nat) as S3.
      rewrite T0 in S0. rewrite T1 in S1. rewrite T2 in S2. rewrite T3 in S3. split; split; assumption.
    Qed.
  End IsoL.
End Limb.

(* montEval *)
Definition rhs (a x : Fq) : Fq := kadd (kadd (kmul (kmul x x) x) (kmul a (kmul x x))) x.
Lemma montEval_limb : forall A X (a x : Fq), frep A a -> frep X x -> frep (montEval fpOps fpZero one four A X) (rhs a x).
Proof.
  intros A X a x HA HX. unfold montEval.
  pose proof (run_sim _ _ _ sim_fp (montEval_code 2 0 1) (frameL [A; X]) (frameA [a; x]) (montEval_pok _ _ _) ltac:(fs) 2%nat) as S.
  rewrite (montEval_abs Fq (frameA [a; x]) eq_refl) in S. exact S.
Qed.
