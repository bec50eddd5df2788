(* Abstract fields (a record, so that the curve algebra is done once for F_p and F_p^2), the prime
   field F_p and its quadratic extension by i with i^2 = -1. *)
From Coq Require Import ZArith List Lia Bool Znumtheory Field Eqdep_dec.
From Verif Require Import Instr NT.
Import ListNotations.

Record fld : Type := mkFld {
  K :> Type;
  k0 : K; k1 : K;
  kadd : K -> K -> K; kmul : K -> K -> K; ksub : K -> K -> K; kopp : K -> K;
  kdiv : K -> K -> K; kinv : K -> K;
  k_th : field_theory k0 k1 kadd kmul ksub kopp kdiv kinv (@eq K);
  k_inv0 : kinv k0 = k0;
  k_dec : forall x y : K, {x = y} + {x <> y}
}.
Arguments k0 {f}. Arguments k1 {f}. Arguments kadd {f}. Arguments kmul {f}. Arguments ksub {f}.
Arguments kopp {f}. Arguments kdiv {f}. Arguments kinv {f}. Arguments k_dec {f}.

Fixpoint kpown {F : fld} (x : F) (n : nat) : F := match n with O => k1 | S n => kmul x (kpown x n) end.
Fixpoint kpowp {F : fld} (x : F) (n : positive) : F :=
  match n with
  | xH => x
  | xO n => let y := kpowp x n in kmul y y
  | xI n => let y := kpowp x n in kmul x (kmul y y)
  end.
Definition kpow {F : fld} (x : F) (n : Z) : F :=
  match n with Z0 => k1 | Zpos n => kpowp x n | Zneg _ => k0 end.

(* the field operations as an instruction set *)
Definition absOps (F : fld) : fops :=
  mkFops F kadd ksub kmul (fun x => kmul x x) kinv kpow.

Section Basics.
  Variable F : fld.
  Add Field Ff : (k_th F).
  Lemma k_integral : forall x y : F, kmul x y = k0 -> x = k0 \/ y = k0.
  Proof.
    intros x y H. destruct (k_dec x k0) as [h|h]; [left; exact h|]. right.
    assert (E : y = kmul (kinv x) (kmul x y)) by (field; exact h). rewrite E, H. ring.
  Qed.
  Lemma k_mul_nz : forall x y : F, x <> k0 -> y <> k0 -> kmul x y <> k0.
  Proof. intros x y Hx Hy E. destruct (k_integral _ _ E); contradiction. Qed.
  Lemma k_mul_nz_inv : forall x y : F, kmul x y <> k0 -> x <> k0 /\ y <> k0.
  Proof. intros x y H. split; intros ->; apply H; ring. Qed.
  Lemma k_sub_eq : forall x y : F, ksub x y = k0 -> x = y.
  Proof. intros x y H. assert (E : x = kadd (ksub x y) y) by ring. rewrite E, H. ring. Qed.
  Lemma k_sub_nz : forall x y : F, x <> y -> ksub x y <> k0.
  Proof. intros x y H E. apply H, k_sub_eq, E. Qed.
  Lemma k_one_nz : k1 <> k0 :> F.
  Proof. exact (F_1_neq_0 (k_th F)). Qed.
  Lemma k_cancel : forall a x y : F, a <> k0 -> kmul a x = kmul a y -> x = y.
  Proof.
    intros a x y Ha E. apply k_sub_eq. destruct (k_integral a (ksub x y)) as [h|h]; [|contradiction|exact h].
    assert (G : kmul a (ksub x y) = ksub (kmul a x) (kmul a y)) by ring. rewrite G, E. ring.
  Qed.
  Lemma k_sqr_0 : forall x : F, kmul x x = k0 -> x = k0.
  Proof. intros x H. destruct (k_integral _ _ H); assumption. Qed.
  Lemma k_sqr_eq : forall x y : F, kmul x x = kmul y y -> x = y \/ x = kopp y.
  Proof.
    intros x y H. destruct (k_integral (ksub x y) (kadd x y)) as [h|h].
    - replace (kmul (ksub x y) (kadd x y)) with (ksub (kmul x x) (kmul y y)) by ring. rewrite H. ring.
    - left. apply k_sub_eq. exact h.
    - right. assert (E : x = ksub (kadd x y) y) by ring. rewrite E, h. ring.
  Qed.
  Lemma kpowp_kpown : forall (x : F) n, kpowp x n = kpown x (Pos.to_nat n).
  Proof.
    assert (D : forall (x : F) a b, kpown x (a + b) = kmul (kpown x a) (kpown x b)).
    { intros x a b. induction a; cbn [Nat.add kpown]; [ring|]. rewrite IHa. ring. }
    intros x n. induction n; cbn [kpowp].
    - rewrite IHn, Pos2Nat.inj_xI. cbn [kpown]. replace (2 * Pos.to_nat n)%nat with (Pos.to_nat n + Pos.to_nat n)%nat by lia.
      rewrite D. reflexivity.
    - rewrite IHn, Pos2Nat.inj_xO. replace (2 * Pos.to_nat n)%nat with (Pos.to_nat n + Pos.to_nat n)%nat by lia.
      rewrite D. reflexivity.
    - change (x = kmul x k1). ring.
  Qed.
  Lemma kpow_kpown : forall (x : F) n, (0 <= n)%Z -> kpow x n = kpown x (Z.to_nat n).
  Proof. intros x [|n|n] H; [reflexivity|apply kpowp_kpown|lia]. Qed.
  Lemma kpown_add : forall (x : F) a b, kpown x (a + b) = kmul (kpown x a) (kpown x b).
  Proof. intros x a b. induction a; cbn [Nat.add kpown]; [ring|]. rewrite IHa. ring. Qed.
  Lemma kpow_add : forall (x : F) a b, (0 <= a)%Z -> (0 <= b)%Z -> kpow x (a + b) = kmul (kpow x a) (kpow x b).
  Proof. intros x a b Ha Hb. rewrite !kpow_kpown by lia. rewrite Z2Nat.inj_add by lia. apply kpown_add. Qed.
  Lemma kpown_mul : forall (x : F) a b, kpown x (a * b) = kpown (kpown x a) b.
  Proof. intros x a b. induction b; [rewrite Nat.mul_0_r; reflexivity|]. rewrite Nat.mul_succ_r, Nat.add_comm, kpown_add, IHb. reflexivity. Qed.
  Lemma kpow_mul : forall (x : F) a b, (0 <= a)%Z -> (0 <= b)%Z -> kpow x (a * b) = kpow (kpow x a) b.
  Proof. intros x a b Ha Hb. rewrite !kpow_kpown by lia. rewrite Z2Nat.inj_mul by lia. apply kpown_mul. Qed.
  Lemma kpow_nz : forall (x : F) n, x <> k0 -> (0 <= n)%Z -> kpow x n <> k0.
  Proof.
    intros x n Hx Hn. rewrite kpow_kpown by lia. induction (Z.to_nat n) as [|m IH]; [exact k_one_nz|].
    cbn [kpown]. apply k_mul_nz; assumption.
  Qed.
  Lemma k_inv_nz : forall x : F, x <> k0 -> kinv x <> k0.
  Proof. intros x Hx E. apply k_one_nz. assert (G : k1 = kmul x (kinv x)) by (field; exact Hx). rewrite G, E. ring. Qed.
  Lemma k_inv_unique : forall x y : F, kmul x y = k1 -> y = kinv x.
  Proof.
    intros x y H. assert (Hx : x <> k0) by (intros ->; apply k_one_nz; rewrite <- H; ring).
    apply (k_cancel x); [exact Hx|]. rewrite H. field. exact Hx.
  Qed.
End Basics.

(* ---------- F_p ---------- *)
Open Scope Z_scope.
Section Fp.
  Variable p : Z.
  Hypothesis p_prime : prime p.

  Definition Fp_t : Type := { z : Z | (z mod p =? z) = true }.
  Lemma p_gt1 : 1 < p. Proof. destruct p_prime. assumption. Qed.
  Definition fpv (x : Fp_t) : Z := proj1_sig x.
  Lemma fpv_mod : forall x, fpv x mod p = fpv x.
  Proof. intros [z H]. apply Z.eqb_eq. exact H. Qed.
  Lemma fpv_range : forall x, 0 <= fpv x < p.
  Proof. intros x. rewrite <- fpv_mod. apply Z.mod_pos_bound. pose proof p_gt1. lia. Qed.
  Lemma fpv_inj : forall x y, fpv x = fpv y -> x = y.
  Proof.
    intros [x Hx] [y Hy] E. cbn [fpv proj1_sig] in E. subst y. f_equal. apply UIP_dec. apply Bool.bool_dec.
  Qed.
  Lemma fp_mk_ok : forall z, (z mod p mod p =? z mod p) = true.
  Proof. intros z. apply Z.eqb_eq. apply Z.mod_mod. pose proof p_gt1. lia. Qed.
  Definition fpm (z : Z) : Fp_t := exist _ (z mod p) (fp_mk_ok z).
  Lemma fpv_fpm : forall z, fpv (fpm z) = z mod p. Proof. reflexivity. Qed.
  Lemma fpm_fpv : forall x, fpm (fpv x) = x. Proof. intros x. apply fpv_inj. rewrite fpv_fpm. apply fpv_mod. Qed.
  Lemma fpm_eq : forall a b, a mod p = b mod p -> fpm a = fpm b.
  Proof. intros a b H. apply fpv_inj. exact H. Qed.

  Definition fpinvZ (z : Z) : Z := if z mod p =? 0 then 0 else z ^ (p - 2) mod p.
  Lemma fpinv_ok : forall z, z mod p <> 0 -> (fpinvZ z * z) mod p = 1.
  Proof.
    intros z H. unfold fpinvZ. destruct (Z.eqb_spec (z mod p) 0) as [e|e]; [contradiction|].
    rewrite Z.mul_mod_idemp_l by (pose proof p_gt1; lia).
    destruct (Z.eq_dec p 2) as [->|ne].
    - change (2 - 2) with 0. rewrite Z.pow_0_r, Z.mul_1_l. pose proof (Z.mod_pos_bound z 2 ltac:(lia)). lia.
    - apply inverse_pow; [exact p_prime|pose proof p_gt1; lia|exact H].
  Qed.

  Definition fpadd (x y : Fp_t) := fpm (fpv x + fpv y).
  Definition fpmul (x y : Fp_t) := fpm (fpv x * fpv y).
  Definition fpsub (x y : Fp_t) := fpm (fpv x - fpv y).
  Definition fpopp (x : Fp_t) := fpm (- fpv x).
  Definition fpinv (x : Fp_t) := fpm (fpinvZ (fpv x)).
  Definition fpdiv (x y : Fp_t) := fpmul x (fpinv y).

  Lemma fp_th : field_theory (fpm 0) (fpm 1) fpadd fpmul fpsub fpopp fpdiv fpinv (@eq Fp_t).
  Proof.
    pose proof p_gt1 as Hp. assert (Hp0 : p <> 0) by lia.
    constructor; [constructor|..]; unfold fpadd, fpmul, fpsub, fpopp, fpdiv.
    - intros x. apply fpv_inj. rewrite !fpv_fpm. rewrite Z.mod_0_l, Z.add_0_l by lia. apply fpv_mod.
    - intros x y. apply fpm_eq. f_equal. ring.
    - intros x y z. apply fpm_eq. rewrite !fpv_fpm. rewrite Z.add_mod_idemp_l, Z.add_mod_idemp_r by lia. f_equal. ring.
    - intros x. apply fpv_inj. rewrite !fpv_fpm. rewrite Z.mul_mod_idemp_l by lia. rewrite Z.mul_1_l. apply fpv_mod.
    - intros x y. apply fpm_eq. f_equal. ring.
    - intros x y z. apply fpm_eq. rewrite !fpv_fpm. rewrite Z.mul_mod_idemp_l, Z.mul_mod_idemp_r by lia. f_equal. ring.
    - intros x y z. apply fpm_eq. rewrite !fpv_fpm. rewrite Z.mul_mod_idemp_l by lia. rewrite <- Z.add_mod by lia. f_equal. ring.
    - intros x y. apply fpm_eq. rewrite !fpv_fpm. rewrite Z.add_mod_idemp_r by lia. f_equal.
    - intros x. apply fpm_eq. rewrite !fpv_fpm. rewrite Z.add_mod_idemp_r by lia. f_equal. ring.
    - intros E. apply (f_equal fpv) in E. rewrite !fpv_fpm in E. rewrite Z.mod_1_l, Z.mod_0_l in E by lia. discriminate.
    - reflexivity.
    - intros x Hx. apply fpm_eq. unfold fpinv. rewrite fpv_fpm. rewrite Z.mul_mod_idemp_l by lia. rewrite Z.mod_1_l by lia.
      apply fpinv_ok. rewrite fpv_mod. intros E. apply Hx. apply fpv_inj. rewrite E, fpv_fpm. symmetry. apply Z.mod_0_l. lia.
  Qed.
  Lemma fp_inv0 : fpinv (fpm 0) = fpm 0.
  Proof. unfold fpinv. apply fpm_eq. unfold fpinvZ. rewrite fpv_fpm. rewrite Z.mod_mod by (pose proof p_gt1; lia).
    rewrite Z.mod_0_l by (pose proof p_gt1; lia). reflexivity. Qed.
  Definition fp_dec : forall x y : Fp_t, {x = y} + {x <> y}.
  Proof.
    intros x y. destruct (Z.eq_dec (fpv x) (fpv y)) as [h|h]; [left; apply fpv_inj; exact h|right; intros ->; apply h; reflexivity].
  Defined.
  Definition Fp : fld := mkFld Fp_t (fpm 0) (fpm 1) fpadd fpmul fpsub fpopp fpdiv fpinv fp_th fp_inv0 fp_dec.

  Lemma fp_pow : forall (x : Fp) n, 0 <= n -> kpow x n = fpm (fpv x ^ n).
  Proof.
    pose proof p_gt1 as Hp. intros x n Hn. rewrite kpow_kpown by exact Hn. rewrite <- (Z2Nat.id n) at 2 by exact Hn.
    induction (Z.to_nat n) as [|m IH].
    - reflexivity.
    - cbn [kpown]. rewrite IH. rewrite Nat2Z.inj_succ, Z.pow_succ_r by lia. apply fpm_eq. rewrite fpv_fpm.
      rewrite Z.mul_mod_idemp_r by lia. reflexivity.
  Qed.
  Lemma fp_fermat : forall x : Fp, x <> k0 -> kpow x (p - 1) = k1.
  Proof.
    intros x Hx. rewrite fp_pow by (pose proof p_gt1; lia). apply fpm_eq. rewrite Z.mod_1_l by (pose proof p_gt1; lia).
    apply fermat1; [exact p_prime|]. rewrite fpv_mod. intros E. apply Hx. apply fpv_inj. rewrite E. symmetry. apply Z.mod_0_l. pose proof p_gt1. lia.
  Qed.

  (* ---------- F_p^2 = F_p(i), i^2 = -1, for p = 3 mod 4 ---------- *)
  Hypothesis p_34 : p mod 4 = 3.
  Add Field Fpf : fp_th.
  Notation "0f" := (fpm 0). Notation "1f" := (fpm 1).
  Infix "+!" := fpadd (at level 50, left associativity). Infix "*!" := fpmul (at level 40, left associativity).
  Infix "-!" := fpsub (at level 50, left associativity).

  (* -1 is not a square *)
  Lemma m1_nonsquare : forall x y : Fp, kadd (kmul x x) (kmul y y) = k0 -> x = k0 /\ y = k0.
  Proof.
    intros x y H. destruct (fp_dec y 0f) as [hy|hy].
    - change (@k0 Fp) with 0f in *. subst y. split; [|reflexivity]. apply (k_sqr_0 Fp). etransitivity; [|exact H].
      change (x *! x = x *! x +! 0f *! 0f). ring.
    - exfalso. set (t := kmul x (kinv y) : Fp).
      assert (T : kmul t t = kopp k1 :> Fp).
      { unfold t. assert (E : kmul x x = kopp (kmul y y) :> Fp).
        { apply (k_sub_eq Fp). etransitivity; [|exact H]. change (x *! x -! fpopp (y *! y) = x *! x +! y *! y). ring. }
        change (x *! fpinv y *! (x *! fpinv y) = fpopp 1f).
        replace (x *! fpinv y *! (x *! fpinv y)) with ((x *! x) *! (fpinv y *! fpinv y)) by ring.
        change (x *! x) with (@kmul Fp x x). rewrite E. change (fpopp (y *! y) *! (fpinv y *! fpinv y) = fpopp 1f). field. exact hy. }
      assert (Tn : t <> k0).
      { intros E. rewrite E in T. apply (k_one_nz Fp). 
        assert (G : @k1 Fp = kopp (kopp k1)) by (change (1f = fpopp (fpopp 1f)); ring). rewrite G, <- T.
        change (fpopp (0f *! 0f) = 0f). ring. }
      pose proof (fp_fermat t Tn) as FE.
      pose proof p_gt1 as Hp. pose proof (Z.div_mod p 4 ltac:(lia)) as D. rewrite p_34 in D.
      replace (p - 1) with (2 * (2 * (p / 4) + 1)) in FE by lia.
      rewrite kpow_mul in FE by (try lia; pose proof (Z.div_pos p 4); lia).
      assert (T2 : kpow t 2 = kopp k1 :> Fp) by exact T.
      rewrite T2 in FE.
      assert (O : forall m, 0 <= m -> kpow (kopp k1 : Fp) (2 * m + 1) = kopp k1).
      { intros m Hm. rewrite kpow_add, kpow_mul by lia.
        assert (S1 : kpow (kopp k1 : Fp) 2 = k1) by (change (fpopp 1f *! fpopp 1f = 1f); ring). rewrite S1.
        assert (S2 : kpow (k1 : Fp) m = k1).
        { rewrite kpow_kpown by lia. induction (Z.to_nat m) as [|k IH]; [reflexivity|]. cbn [kpown]. rewrite IH. change (1f *! 1f = 1f). ring. }
        rewrite S2. change (1f *! fpopp 1f = fpopp 1f). ring. }
      rewrite O in FE by (apply Z.div_pos; lia).
      change (fpopp 1f = 1f) in FE. apply (f_equal fpv) in FE. unfold fpopp in FE. rewrite !fpv_fpm in FE.
      rewrite Z.mod_1_l in FE by lia.
      assert (M : (- (1)) mod p = p - 1) by (symmetry; apply Z.mod_unique_pos with (q := -1); lia).
      rewrite M in FE. assert (E2 : p = 2) by lia. clear - E2 p_34. rewrite E2 in p_34. discriminate p_34.
  Qed.

  Definition F2_t : Type := (Fp_t * Fp_t)%type.
  Definition f2add (x y : F2_t) : F2_t := (fst x +! fst y, snd x +! snd y).
  Definition f2sub (x y : F2_t) : F2_t := (fst x -! fst y, snd x -! snd y).
  Definition f2opp (x : F2_t) : F2_t := (fpopp (fst x), fpopp (snd x)).
  Definition f2mul (x y : F2_t) : F2_t := (fst x *! fst y -! snd x *! snd y, fst x *! snd y +! snd x *! fst y).
  Definition f2norm (x : F2_t) : Fp_t := fst x *! fst x +! snd x *! snd x.
  Definition f2inv (x : F2_t) : F2_t := (fst x *! fpinv (f2norm x), fpopp (snd x) *! fpinv (f2norm x)).
  Definition f2div (x y : F2_t) : F2_t := f2mul x (f2inv y).
  Definition f20 : F2_t := (0f, 0f).
  Definition f21 : F2_t := (1f, 0f).
  Lemma f2norm_nz : forall x, x <> f20 -> f2norm x <> 0f.
  Proof.
    intros [a b] Hx E. apply Hx. unfold f20. destruct (m1_nonsquare a b E) as [-> ->]. reflexivity.
  Qed.
  Lemma f2_th : field_theory f20 f21 f2add f2mul f2sub f2opp f2div f2inv (@eq F2_t).
  Proof.
    constructor; [constructor|..]; unfold f20, f21, f2add, f2mul, f2sub, f2opp.
    - intros [a b]. cbn [fst snd]. f_equal; ring.
    - intros [a b] [c d]. cbn [fst snd]. f_equal; ring.
    - intros [a b] [c d] [e f]. cbn [fst snd]. f_equal; ring.
    - intros [a b]. cbn [fst snd]. f_equal; ring.
    - intros [a b] [c d]. cbn [fst snd]. f_equal; ring.
    - intros [a b] [c d] [e f]. cbn [fst snd]. f_equal; ring.
    - intros [a b] [c d] [e f]. cbn [fst snd]. f_equal; ring.
    - intros [a b] [c d]. cbn [fst snd]. f_equal; ring.
    - intros [a b]. cbn [fst snd]. f_equal; ring.
    - intros E. apply (f_equal fst) in E. cbn [fst] in E. exact (k_one_nz Fp E).
    - reflexivity.
    - intros [a b] Hx. pose proof (f2norm_nz _ Hx) as N. unfold f2inv, f2norm in *. cbn [fst snd] in *. f_equal; field; exact N.
  Qed.
  Lemma f2_inv0 : f2inv f20 = f20.
  Proof. unfold f2inv, f20. cbn [fst snd]. f_equal; ring. Qed.
  Definition f2_dec : forall x y : F2_t, {x = y} + {x <> y}.
  Proof.
    intros [a b] [c d]. destruct (fp_dec a c) as [h|h]; [|right; intros E; apply h; congruence].
    destruct (fp_dec b d) as [g|g]; [left; congruence|right; intros E; apply g; congruence].
  Defined.
  Definition Fp2 : fld := mkFld F2_t f20 f21 f2add f2mul f2sub f2opp f2div f2inv f2_th f2_inv0 f2_dec.
  Lemma fp_two_nz : fpm 2 <> fpm 0.
  Proof.
    intros E. apply (f_equal fpv) in E. rewrite !fpv_fpm in E. pose proof p_gt1.
    assert (p <> 2) by (clear - p_34; intros E2; rewrite E2 in p_34; discriminate p_34).
    rewrite Z.mod_small, Z.mod_0_l in E by lia. discriminate.
  Qed.
End Fp.
