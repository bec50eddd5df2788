(* CSIDH curve layer: C36 (x-only arithmetic), C37 (ladder), C61 (validation), C62 (isogenies),
   C63 (outputs are canonical). *)
From Coq Require Import ZArith Znumtheory List Lia Bool Field.
From Verif Require Import Lib MP NT Instr CSIDH_Field CSIDH_FieldProofs CSIDH_FieldProofs2 P_CSIDH_Field CSIDH_Curve CSIDH_Model
  CSIDH_ApiProofs CSIDH_GaProofs P_CSIDH FieldAlg MontCurve MontAssoc MontLadder MontIso CSIDH_CurveProofs CSIDH_ValidProofs.
Import ListNotations.
Open Scope Z_scope.

Add Field Fqp : (k_th Fq).
Notation xIsoF := (xIso fpOps fpZero one four).
Notation curve a b := (onc Fq a b).
Notation infinity := (Inf Fq).
Notation affine := (Aff Fq).
Notation plus := (padd Fq).
Notation neg := (pneg Fq).
Notation times a b k Q := (pmul Fq a b k Q).

(* The field: integers modulo P.  frep x a says that the eight limbs x are the reduced
   Montgomery form of a. *)
Theorem C36_field : (forall x y : Fq, fqv x = fqv y -> x = y) /\ (forall z, 0 <= z < P -> fqv (fq z) = z) /\
  forall x y : Fq, 0 <= fqv x < P /\ fqv (kadd x y) = (fqv x + fqv y) mod P /\ fqv (kmul x y) = (fqv x * fqv y) mod P /\
    fqv (ksub x y) = (fqv x - fqv y) mod P /\ fqv k0 = 0 /\ fqv k1 = 1 /\
    (x <> k0 -> kmul x (kinv x) = k1) /\
    (forall l, frep l x <-> fp_red l /\ val l = (fqv x * 2 ^ 512) mod P).
Proof.
  split; [exact fq_inj|]. split; [intros z Hz; rewrite fqv_fq; apply Z.mod_small; exact Hz|]. intros x y.
  split; [apply fqv_range|]. repeat (split; [reflexivity|]). split; [|intros l; reflexivity].
  intros N. field. exact N.
Qed.
Print Assumptions C36_field.

(* The chord-and-tangent law on b y^2 = x^3 + a x^2 + x is an abelian group. *)
Theorem C36_group : forall a b : Fq, b <> k0 -> smooth a -> forall P Q R, curve a b P -> curve a b Q -> curve a b R ->
  curve a b (plus a b P Q) /\ curve a b (neg P) /\ plus a b P infinity = P /\ plus a b infinity P = P /\
  plus a b P (neg P) = infinity /\ plus a b P Q = plus a b Q P /\ plus a b (plus a b P Q) R = plus a b P (plus a b Q R) /\
  (forall n, 0 <= n -> times a b (n + 1) P = plus a b (times a b n P) P) /\ times a b 0 P = infinity.
Proof.
  intros a b Nb Sm P Q R HP HQ HR. split; [apply padd_onc; auto using two_nz|]. split; [apply pneg_onc; exact HP|].
  split; [apply padd_inf_r|]. split; [reflexivity|]. split; [apply padd_neg|].
  split; [apply padd_comm; assumption|]. split; [apply padd_assoc; auto using two_nz|]. split; [|reflexivity].
  intros n Hn. rewrite (pmul_add Fq a b two_nz Nb Sm) by (assumption || lia). rewrite pmul_1. reflexivity.
Qed.
Print Assumptions C36_group.

Section Side.
  Variables (a b : Fq).
  Hypothesis Nb : b <> k0.
  Hypothesis Sm : smooth a.
  Theorem C36_xdbl : forall q co Pt, crep co a -> curve a b Pt -> lrep q Pt -> lrep (xDblF q co) (plus a b Pt Pt).
  Proof. exact (xDbl_limb a b Nb Sm). Qed.
  (* the output may be a third location or alias either summand *)
  Theorem C36_xadd : forall R p q d Pt Qt, In R [mkpl 6 7; mkpl 0 1; mkpl 2 3] -> curve a b Pt -> curve a b Qt ->
    lrep p Pt -> lrep q Qt -> lrep d (plus a b Pt (neg Qt)) ->
    plus a b Pt (neg Qt) <> infinity -> xco Fq (plus a b Pt (neg Qt)) <> k0 ->
    lrep (xAddF R p q d) (plus a b Pt Qt).
  Proof. exact (xAdd_limb a b Nb). Qed.
  Theorem C36_xdbladd : forall R S p q d a24 Pt Qt, (R, S) = (mkpl 0 1, mkpl 2 3) \/ (R, S) = (mkpl 8 9, mkpl 10 11) ->
    curve a b Pt -> curve a b Qt -> lrep p Pt -> lrep q Qt -> lrep d (plus a b Pt (neg Qt)) ->
    plus a b Pt (neg Qt) <> infinity -> xco Fq (plus a b Pt (neg Qt)) <> k0 ->
    (exists c, c <> k0 /\ prep2 a24 (kmul c (kadd a (kadd k1 k1))) (kmul c k4)) ->
    lrep (fst (xDblAddF R S p q d a24)) (plus a b Pt Pt) /\ lrep (snd (xDblAddF R S p q d a24)) (plus a b Pt Qt).
  Proof. exact (xDblAdd_limb a b Nb Sm). Qed.

  (* C37: for every scalar 0 < k < 2^512 and every affine point with x <> 0, both into a separate
     destination and in place *)
  Theorem C37_xmul : forall q co k Pt, crep co a -> curve a b Pt -> lrep q Pt -> Pt <> infinity -> xco Fq Pt <> k0 ->
    fp_ok k -> 0 < val k ->
    lrep (xMulF q co k) (times a b (val k) Pt) /\ lrep (xMul_ipF q co k) (times a b (val k) Pt).
  Proof. exact (xMul_limb a b Nb Sm). Qed.
  (* a representation of infinity, even (0 : 0), stays one *)
  Theorem C37_infinity : forall q co k, crep co a -> zrep q infinity -> fp_ok k -> 0 < val k ->
    zrep (xMulF q co k) infinity /\ zrep (xMul_ipF q co k) infinity.
  Proof.
    intros q co k HC HQ Hk Vk. pose proof (xMul_zrep a b Nb Sm q co k infinity HC I HQ ltac:(intros h; contradiction) Hk Vk) as H.
    rewrite (pmul_inf Fq a b) in H. exact H.
  Qed.
  (* the scalar 0 is outside the domain: the ladder returns [2]P *)
  Theorem C37_zero_scalar : forall q co Pt, crep co a -> curve a b Pt -> lrep q Pt ->
    lrep (xMulF q co fpZero) (plus a b Pt Pt) /\ lrep (xMul_ipF q co fpZero) (plus a b Pt Pt).
  Proof. exact (xMul_by_zero a b Nb Sm). Qed.
  (* so is the point (0,0): any scalar above 1 gives Z = 0 *)
  Theorem C37_origin : forall q co k y, crep co a -> zrep q (affine k0 y) -> fp_ok k -> 1 < val k ->
    frep (snd (xMulF q co k)) k0 /\ frep (snd (xMul_ipF q co k)) k0.
  Proof. exact (xMul_origin_limb a). Qed.
End Side.
Print Assumptions C36_xdbl.
Print Assumptions C36_xadd.
Print Assumptions C36_xdbladd.
Print Assumptions C37_xmul.
Print Assumptions C37_infinity.
Print Assumptions C37_zero_scalar.
Print Assumptions C37_origin.

Theorem C36_monteval : forall A X (a x : Fq), frep A a -> frep X x ->
  frep (montEval fpOps fpZero one four A X) (kadd (kadd (kmul (kmul x x) x) (kmul a (kmul x x))) x).
Proof. exact montEval_limb. Qed.
Print Assumptions C36_monteval.

(* The side chosen by groupAction (csidh.go:152-154): isNonQuadRes is 0 exactly when x is the
   abscissa of a point of y^2 = x^3 + a x^2 + x other than its 2-torsion, and 1 exactly when it is
   the abscissa of a point of the twist -y^2 = x^3 + a x^2 + x. *)
Theorem C36_side : forall A X (a x : Fq), frep A a -> frep X x ->
  let s := isNonQuadRes (montEval fpOps fpZero one four A X) in
  (s = 0 <-> exists y, y <> k0 /\ curve a k1 (affine x y)) /\
  (s = 1 <-> exists y, curve a (kopp k1) (affine x y)).
Proof.
  intros A X a x HA HX s. pose proof (montEval_limb A X a x HA HX) as HE.
  destruct (C30_quadres _ _ HE) as [B01 Q]. fold s in B01, Q. set (z := rhs a x) in *.
  assert (SQ : (exists n, (n * n) mod P = fqv z mod P) <-> exists y : Fq, kmul y y = z).
  { split.
    - intros [n E]. exists (fq n). apply fq_inj. change (fqv (kmul (fq n) (fq n))) with ((fqv (fq n) * fqv (fq n)) mod P).
      rewrite !fqv_fq, <- Zmult_mod, E. apply Z.mod_small, fqv_range.
    - intros [y E]. exists (fqv y). rewrite <- E. change (fqv (kmul y y)) with ((fqv y * fqv y) mod P). rewrite Z.mod_mod by apply P_nz. reflexivity. }
  assert (NZ : fqv z mod P <> 0 <-> z <> k0).
  { rewrite (Z.mod_small _ _ (fqv_range z)). split; [intros h ->; apply h; reflexivity|]. intros h E. apply h, fq_inj. exact E. }
  assert (C1 : forall y, curve a k1 (affine x y) <-> kmul y y = z).
  { intros y. cbn [MontCurve.onc]. unfold z, rhs. split; intros E; rewrite <- E; ring. }
  assert (C2 : forall y, curve a (kopp k1) (affine x y) <-> kmul y y = kopp z).
  { intros y. cbn [MontCurve.onc]. unfold z, rhs. split; intros E.
    - rewrite <- E. ring. - rewrite E. ring. }
  assert (S0 : s = 0 <-> exists y, y <> k0 /\ kmul y y = z).
  { rewrite Q, NZ, SQ. split.
    - intros [N [y E]]. exists y. split; [|exact E]. intros ->. apply N. rewrite <- E. ring.
    - intros (y & N & E). split; [|exists y; exact E]. rewrite <- E. apply k_mul_nz; assumption. }
  split.
  - rewrite S0. split; intros (y & N & E); exists y; (split; [exact N|apply C1; exact E]).
  - transitivity (~ s = 0); [destruct B01 as [-> | ->]; split; intros; congruence|]. rewrite S0. split.
    + intros N. destruct (sqrt_pm z) as (y & [E|E]).
      * exists y. apply C2. destruct (k_dec y k0) as [->|Ny]; [|exfalso; apply N; exists y; split; assumption].
        rewrite <- E. ring.
      * exists y. apply C2. exact E.
    + intros (y & E) (y' & N' & E'). apply C2 in E.
      (* then -1 would be a square *)
      assert (M : kmul (kdiv y y') (kdiv y y') = kopp k1).
      { transitivity (kdiv (kmul y y) (kmul y' y')); [field; exact N'|]. rewrite E, E'. field. rewrite <- E'. apply k_mul_nz; assumption. }
      set (t := kdiv y y') in M. clearbody t.
      assert (Nt : t <> k0). { intros ->. apply (k_one_nz Fq). transitivity (kopp (kopp (k1 : Fq))); [ring|]. rewrite <- M. ring. }
      pose proof (fp_fermat P P_prime t Nt) as F.
      assert (E34 : P - 1 = 2 * (2 * (P / 4) + 1)). { pose proof (Z.div_mod P 4 ltac:(lia)) as D. rewrite P_34 in D. lia. }
      change (kpow (t : Fq) (P - 1) = k1) in F. assert (0 <= P / 4) by (apply Z.div_pos; [pose proof P_gt2; lia|lia]).
      rewrite E34, kpow_mul in F by lia. change (kpow (t : Fq) 2) with (kmul (t : Fq) t) in F. rewrite M in F.
      rewrite kpow_add, kpow_mul in F by lia. change (kpow (kopp (k1 : Fq)) 1) with (kopp (k1 : Fq)) in F.
      assert (M1 : kpow (kopp (k1 : Fq)) 2 = k1) by (change (kmul (kopp (k1 : Fq)) (kopp k1) = k1); ring).
      rewrite M1 in F.
      assert (ON : forall n, kpow (k1 : Fq) n = k1 \/ n < 0).
      { intros [|n|n]; [left; reflexivity| |right; lia]. left. cbn [kpow]. induction n; cbn [kpowp]; rewrite ?IHn; ring. }
      destruct (ON (P / 4)) as [O|O]; [|lia]. rewrite O in F.
      apply two_nz. transitivity (ksub (k1 : Fq) (kmul k1 (kopp k1))); [ring|]. rewrite F. ring.
Qed.
Print Assumptions C36_side.

(* ---------- C62: the isogeny ---------- *)
(* K a point of odd prime order l.  xIso replaces (X : Z) = x(P) by x(P) * prod_{j=1}^{l-1} x(P + [j]K). *)
Section Isogeny.
  Variables (a b : Fq) (K : MontCurve.pnt Fq) (l : Z).
  Hypothesis Nb : b <> k0.
  Hypothesis Sm : smooth a.
  Hypothesis HK : curve a b K.
  Hypothesis KN : K <> infinity.
  Hypothesis Hl : prime l.
  Hypothesis l2 : l <> 2.
  Hypothesis lb : l < 2 ^ 64.
  Hypothesis KO : times a b l K = infinity.

  Theorem C62_image : forall img co kern x y, lrep img (affine x y) -> crep co a -> lrep kern K -> curve a b (affine x y) ->
    (forall j, 0 <= j < l -> plus a b (affine x y) (times a b j K) <> infinity) ->
    exists X' Z', prep2 (fst (xIsoF img co kern l)) X' Z' /\ Z' <> k0 /\
      kdiv X' Z' = kmul x (kprodn Fq (fun j => xco Fq (plus a b (affine x y) (times a b (Z.of_nat j) K))) (Z.to_nat (l - 1))).
  Proof.
    intros img co kern x y (X & Z & HI & RZ & RX) (A & C & HC & NC & EA) Hk HP NO.
    destruct (xIso_limb a b Nb Sm K l HK KN Hl l2 lb KO img co kern X Z A C HI HC NC EA Hk) as (lam & mu & NL & NM & T & _).
    destruct (image_prod Fq a b two_nz Nb Sm K l HK KN Hl l2 KO x y HP NO) as [ND E].
    eexists _, _. split; [exact T|]. set (h := half l) in *. set (f := xs Fq a b K) in *.
    assert (PZ : kprodn Fq (fun j => ksub X (kmul Z (f j))) h = kmul (kpown Z h) (kprodn Fq (fun j => ksub x (f j)) h)).
    { clear -RX. subst X. induction h; cbn [kprodn kpown]; [ring|]. rewrite IHh. ring. }
    assert (PX : kprodn Fq (fun j => ksub (kmul X (f j)) Z) h = kmul (kpown Z h) (kprodn Fq (fun j => ksub (kmul x (f j)) k1) h)).
    { clear -RX. subst X. induction h; cbn [kprodn kpown]; [ring|]. rewrite IHh. ring. }
    assert (NZh : kpown Z h <> k0). { clear -RZ. induction h; cbn [kpown]; [apply k_one_nz|apply k_mul_nz; assumption]. }
    assert (ND' : kprodn Fq (fun j => ksub x (f j)) h <> k0) by (apply kprodn_nz; exact ND).
    rewrite PX, PZ. split.
    - repeat apply k_mul_nz; assumption.
    - rewrite E. rewrite RX. field. repeat split; assumption.
  Qed.
  (* points of the kernel go to infinity *)
  Theorem C62_kernel : forall img co kern j, 0 < j < l -> lrep img (times a b j K) -> crep co a -> lrep kern K ->
    frep (snd (fst (xIsoF img co kern l))) k0.
  Proof.
    intros img co kern j Hj (X & Z & HI & R) (A & C & HC & NC & EA) Hk.
    destruct (xIso_limb a b Nb Sm K l HK KN Hl l2 lb KO img co kern X Z A C HI HC NC EA Hk) as (lam & mu & NL & NM & [_ T] & _).
    destruct (pmul_aff Fq a b two_nz Nb Sm K l HK KN Hl l2 KO j Hj) as (y & E & _). set (x := xco Fq (times a b j K)) in E. clearbody x. rewrite E in R. destruct R as [RZ RX].
    assert (HH : Z.of_nat (half l) * 2 + 1 = l) by (pose proof (half_l l Hl l2); lia).
    assert (V : exists i, (1 <= i <= half l)%nat /\ xs Fq a b K i = x).
    { destruct (Z_le_gt_dec j (Z.of_nat (half l))) as [h|h].
      - exists (Z.to_nat j). split; [lia|]. unfold xs. rewrite Z2Nat.id by lia. rewrite E. reflexivity.
      - exists (Z.to_nat (l - j)). split; [lia|]. unfold xs. rewrite Z2Nat.id by lia.
        rewrite (pmul_neg Fq a b two_nz Nb Sm K l HK KO j) by lia. rewrite E. reflexivity. }
    destruct V as (i & Hi & Ex).
    rewrite (kprodn_zero Fq (fun j => ksub X (kmul Z (xs Fq a b K j))) (half l) i Hi) in T; [|rewrite Ex, RX; ring].
    replace (kmul lam (kmul Z (kmul k0 k0))) with (k0 : Fq) in T by ring. exact T.
  Qed.
  (* the new coefficient: A'/C' = 2 (u + v) / (u - v) with u = (a+2)^l prod (x_j + 1)^8,
     v = (a-2)^l prod (x_j - 1)^8 over the abscissas x_j of [j]K, j = 1 .. (l-1)/2 *)
  Theorem C62_codomain : forall img co kern X Z, prep2 img X Z -> crep co a -> lrep kern K ->
    let x := fun j => xco Fq (times a b (Z.of_nat j) K) in
    let d := Z.to_nat ((l - 1) / 2) in
    let u := kmul (kpow (kadd a (kadd k1 k1)) l) (kpow (kprodn Fq (fun j => kadd (x j) k1) d) 8) in
    let v := kmul (kpow (ksub a (kadd k1 k1)) l) (kpow (kprodn Fq (fun j => ksub (x j) k1) d) 8) in
    exists s, s <> k0 /\ prep2 (snd (xIsoF img co kern l)) (kmul s (kmul (kadd k1 k1) (kadd u v))) (kmul s (ksub u v)).
  Proof.
    intros img co kern X Z HI (A & C & HC & NC & EA) Hk x d u v.
    destruct (xIso_limb a b Nb Sm K l HK KN Hl l2 lb KO img co kern X Z A C HI HC NC EA Hk) as (lam & mu & NL & NM & _ & T).
    pose proof (half_l l Hl l2) as HH. pose proof (prime_ge_2 l Hl) as Lge.
    assert (Ed : half l = d). { unfold d. replace (l - 1) with (Z.of_nat (half l) * 2) by lia. rewrite Z.div_mul by lia. lia. }
    assert (PM : forall y z : Fq, kpow (kmul y z) l = kmul (kpow y l) (kpow z l)).
    { intros y z. destruct l as [|n|n]; [lia| |lia]. cbn [kpow]. clear. induction n; cbn [kpowp]; rewrite ?IHn; ring. }
    exists (kmul mu (kpow C l)). split.
    - apply k_mul_nz; [exact NM|]. destruct l as [|n|n]; [lia| |lia]. cbn [kpow]. clear -NC. induction n; cbn [kpowp]; repeat apply k_mul_nz; assumption.
    - unfold edA, edD in T. rewrite Ed in T. rewrite EA in T.
      replace (kadd (kmul a C) (kmul (kt2 Fq) C)) with (kmul C (kadd a (kadd k1 k1))) in T by (unfold kt2; ring).
      replace (ksub (kmul a C) (kmul (kt2 Fq) C)) with (kmul C (ksub a (kadd k1 k1))) in T by (unfold kt2; ring).
      rewrite !PM in T.
      assert (E8 : forall z : Fq, kpow8 Fq z = kpow z 8) by (intros z; unfold kpow8; cbn [kpow kpowp]; ring).
      rewrite !E8 in T. change (xs Fq a b K) with x in T.
      destruct T as [T1 T2]. split.
      + refine (eq_rect _ (frep _) T1 _ _). unfold u, v, kt2. ring.
      + refine (eq_rect _ (frep _) T2 _ _). unfold u, v. ring.
  Qed.
End Isogeny.
Print Assumptions C62_image.
Print Assumptions C62_kernel.
Print Assumptions C62_codomain.

(* ---------- C61: Validate ---------- *)
(* exact order *)
Definition order (a b : Fq) (Q : MontCurve.pnt Fq) (N : Z) : Prop :=
  times a b N Q = infinity /\ forall k, 0 < k -> times a b k Q = infinity -> (N | k).
Definition pm1 (b : Fq) : Prop := b = k1 \/ b = kopp k1.
(* every point of the curve and of its twist is killed by P + 1 (true of supersingular curves) *)
Definition killed (a : Fq) : Prop := forall b Q, pm1 b -> curve a b Q -> times a b (P + 1) Q = infinity.
(* no point Q of the curve or twist has [4]Q = (0,0) *)
Definition no_quarter (a : Fq) : Prop := forall b Q, pm1 b -> curve a b Q -> times a b 4 Q <> affine k0 k0.

Lemma lp_prime : forall i, (i < 74)%nat -> prime (lp i).
Proof.
  intros i Hi. destruct C28_constants as (L & _ & F & _). rewrite Forall_forall in F. apply F. unfold lp. apply nth_In. rewrite L. exact Hi.
Qed.
Lemma no_quarter_8 : forall a, no_quarter a -> no_order8 a.
Proof.
  intros a H b Q Pb HQ NI E. pose proof (pm_nz b Pb) as Nb. apply (H b Q Pb HQ).
  pose proof (pmul_onc Fq a b two_nz Nb 4 Q HQ) as C.
  destruct (pmul Fq a b 4 Q) as [|x y]; [contradiction|]. cbn [xco] in E. subst x. cbn [MontCurve.onc] in C.
  f_equal. apply (k_sqr_0 Fq). apply (k_cancel Fq b); [exact Nb|]. rewrite C. ring.
Qed.
Lemma psel_divide : forall f, (psel f all74 | prodZ primes).
Proof.
  intros f. exists (psel (fun i => negb (f i)) all74). rewrite Z.mul_comm, psel_split. vm_compute. reflexivity.
Qed.
Lemma validate_cases : forall A (a : Fq) rng ok rest, frep A a -> bytes rng -> validate A rng = Ret (ok, rest) ->
  (ok = false /\ ~ smooth a) \/ (smooth a /\ validLoopFp (S (length rng)) A rng = Some (ok, rest)).
Proof.
  intros A a rng ok rest HA Hb H. unfold validate in H. destruct HA as [[FA BA] VA].
  rewrite (isLess_ok A p FA p_ok) in H. fold P in H. destruct (Z.ltb_spec (val A) P) as [h|h]; [|lia]. cbn [negb] in H.
  destruct C28_constants as (_ & _ & _ & _ & _ & T & N & _).
  assert (E2 : forall c z, mrep c z -> equal A c = true <-> a = fq z).
  { intros c z Hc. destruct Hc as [[Fc Bc] Vc]. rewrite (equal_ok A c FA Fc). split.
    - intros E. destruct (Z.eqb_spec (val A) (val c)) as [e|e]; [|discriminate].
      apply (frep_inj A a (fq z)); [split; [split|]; assumption|]. apply frep_mrep. split; [split; assumption|]. congruence.
    - intros ->. rewrite VA, Vc, fqv_fq. rewrite Zmult_mod_idemp_l. rewrite Z.eqb_refl. reflexivity. }
  destruct (orb (equal A two) (equal A twoNeg)) eqn:E.
  - left. injection H as <- <-. split; [reflexivity|]. intros Sm. apply Sm. apply orb_prop in E.
    destruct E as [E|E]; [apply (E2 two 2 T) in E|apply (E2 twoNeg (-2) N) in E]; rewrite E; apply fq_inj; vm_compute; reflexivity.
  - right. apply orb_false_elim in E. destruct E as [Ea Eb]. split.
    + intros Q. destruct (k_sqr_eq Fq a (kadd k1 k1)) as [h2|h2].
      * rewrite Q. reflexivity.
      * assert (X : equal A two = true); [|congruence]. apply (E2 two 2 T). rewrite h2. apply fq_inj. vm_compute. reflexivity.
      * assert (X : equal A twoNeg = true); [|congruence]. apply (E2 twoNeg (-2) N). rewrite h2. apply fq_inj. vm_compute. reflexivity.
    + destruct (validLoopFp (S (length rng)) A rng) as [r|]; [|discriminate]. congruence.
Qed.

(* accepted: the curve is non-singular and, unless some [4]Q is (0,0), it or its twist has a point
   whose order N divides the product of the 74 primes and exceeds 4 sqrt P *)
Theorem C61_accept : forall A (a : Fq) rng rest, frep A a -> bytes rng -> validate A rng = Ret (true, rest) ->
  smooth a /\ (no_quarter a -> exists b Q N, pm1 b /\ curve a b Q /\ order a b Q N /\ (N | prodZ primes) /\ 16 * P < N * N).
Proof.
  intros A a rng rest HA Hb H. destruct (validate_cases A a rng true rest HA Hb H) as [[h _]|[Sm V]]; [discriminate|].
  split; [exact Sm|]. intros NQ.
  destruct (validLoop_sem _ _ a _ _ _ HA Sm Hb lp_prime V (no_quarter_8 a NQ)) as (b & Q & f & Pb & HQ & HO & L).
  exists b, Q, (psel f all74). split; [exact Pb|]. split; [exact HQ|]. split; [exact HO|]. split; [apply psel_divide|].
  destruct C28_constants as (_ & _ & _ & _ & _ & _ & _ & _ & [_ S] & _).
  assert (0 <= val fourSqrtP) by (apply Z.leb_le; vm_compute; reflexivity). rewrite Z.pow_2_r in S.
  eapply Z.lt_le_trans; [exact S|]. apply Z.mul_le_mono_nonneg; lia.
Qed.
Print Assumptions C61_accept.
(* rejected: the curve is singular, or some point of it or of its twist is not killed by P + 1 *)
Theorem C61_reject : forall A (a : Fq) rng rest, frep A a -> bytes rng -> validate A rng = Ret (false, rest) ->
  ~ smooth a \/ exists b Q, pm1 b /\ curve a b Q /\ times a b (P + 1) Q <> infinity.
Proof.
  intros A a rng rest HA Hb H. destruct (validate_cases A a rng false rest HA Hb H) as [[_ h]|[Sm V]]; [left; exact h|right].
  exact (validLoop_sem _ _ a _ _ _ HA Sm Hb lp_prime V).
Qed.
Print Assumptions C61_reject.
(* a non-singular curve killed by P + 1 is never rejected, and its acceptance needs no side condition *)
Theorem C61_complete : forall A (a : Fq) rng ok rest, frep A a -> bytes rng -> smooth a -> killed a ->
  validate A rng = Ret (ok, rest) ->
  ok = true /\ exists b Q N, pm1 b /\ curve a b Q /\ order a b Q N /\ (N | prodZ primes) /\ 16 * P < N * N.
Proof.
  intros A a rng ok rest HA Hb Sm K H. destruct ok.
  - split; [reflexivity|]. apply (C61_accept A a rng rest HA Hb H).
    intros b Q Pb HQ E. assert (NO := killed_no8 a Sm K b Q Pb HQ). rewrite E in NO. apply NO; [discriminate|reflexivity].
  - exfalso. destruct (C61_reject A a rng rest HA Hb H) as [h|(b & Q & Pb & HQ & N)]; [contradiction|].
    apply N. apply K; assumption.
Qed.
Print Assumptions C61_complete.

(* ---------- C63: what groupAction returns is a reduced field element ---------- *)
Definition unitOps : fops := mkFops unit (fun _ _ => Datatypes.tt) (fun _ _ => Datatypes.tt) (fun _ _ => Datatypes.tt) (fun _ => Datatypes.tt) (fun _ => Datatypes.tt) (fun _ _ => Datatypes.tt).
Lemma red_sim : simulates fpOps unitOps (fun x _ => fp_red x).
Proof.
  pose proof sim_fp as S. assert (G : forall x, (exists a : Fq, frep x a) -> fp_red x) by (intros x [a [H _]]; exact H).
  split; cbn [unitOps fadd fsub fmul fsqr finv fpow]; intros.
  - destruct (frep_exists _ H) as [u U], (frep_exists _ H0) as [w W]. apply G. eexists. apply (sim_add _ _ _ S); eassumption.
  - destruct (frep_exists _ H) as [u U], (frep_exists _ H0) as [w W]. apply G. eexists. apply (sim_sub _ _ _ S); eassumption.
  - destruct (frep_exists _ H) as [u U], (frep_exists _ H0) as [w W]. apply G. eexists. apply (sim_mul _ _ _ S); eassumption.
  - destruct (frep_exists _ H) as [u U]. apply G. eexists. apply (sim_sqr _ _ _ S); eassumption.
  - destruct (frep_exists _ H) as [u U]. apply G. eexists. apply (sim_inv _ _ _ S); eassumption.
  - destruct (frep_exists _ H) as [u U]. apply G. eexists. apply (sim_pow _ _ _ S); eassumption.
Qed.

Lemma frame_red : forall l, Forall fp_red l -> forall i, fp_red (frameL l i).
Proof.
  intros l H i. unfold frame, mset. destruct (Nat.eqb i one_l); [apply frep_one|]. destruct (Nat.eqb i four_l); [apply frep_four|].
  unfold args. revert i. induction H; intros [|i]; cbn [nth]; try apply frep_zero; [assumption|apply IHForall].
Qed.
Lemma run_red : forall pr l, prog_ok pr -> Forall fp_red l -> forall i, fp_red (run fpOps pr (frameL l) i).
Proof.
  intros pr l Hp Hl i. exact (run_sim _ _ _ red_sim pr (frameL l) (fun _ => Datatypes.tt) Hp (frame_red l Hl) i).
Qed.
Definition pred2 (q : list Z * list Z) : Prop := fp_red (fst q) /\ fp_red (snd q).
Ltac reds := repeat (apply Forall_cons; [first [assumption | match goal with H : pred2 _ |- _ => solve [apply H] end]|]); apply Forall_nil.
Lemma xMul_red : forall q co k, pred2 q -> pred2 co -> pred2 (xMulF q co k) /\ pred2 (xMul_ipF q co k).
Proof.
  intros q co k Hq Hc. split; (split; unfold xMul, xMul_ip, get; cbn [fst snd px pz]; refine (run_red _ _ (xMul_pok _ _ _ _) _ _); reds).
Qed.
Lemma xIso_red : forall img co kern n, pred2 img -> pred2 co -> pred2 kern -> 0 <= n < 2 ^ 64 ->
  pred2 (fst (xIsoF img co kern n)) /\ pred2 (snd (xIsoF img co kern n)).
Proof.
  intros img co kern n Hi Hc Hk Hn. split; (split; unfold xIso, get; cbn [fst snd px pz]; refine (run_red _ _ (xIso_pok _ _ _ _ Hn) _ _); reds).
Qed.
Notation passS := (passStep fpOps fpZero one four isZero).
Lemma passStep_red : forall st i, (i < 74)%nat -> pred2 (pP fpOps st) -> pred2 (pA fpOps st) ->
  pred2 (pP fpOps (passS st i)) /\ pred2 (pA fpOps (passS st i)).
Proof.
  intros st i Hi HP HA. unfold passStep.
  destruct (negb (nth i (pe fpOps st) 0 =? 0)); [|split; assumption].
  destruct (xMul_red (pP fpOps st) (pA fpOps st) (cofactor (pe fpOps st) i) HP HA) as [HK _].
  set (K := xMulF (pP fpOps st) (pA fpOps st) (cofactor (pe fpOps st) i)) in *. clearbody K.
  destruct (negb (isZero (@snd (car fpOps) (car fpOps) K))); [|split; assumption].
  pose proof (primes_range i Hi) as R.
  destruct (xIso_red (pP fpOps st) (pA fpOps st) K (lp i) HP HA HK ltac:(change (2 ^ 64) with 18446744073709551616; lia)) as [I1 I2].
  change (nth i primes 0) with (lp i). destruct (xIsoF (pP fpOps st) (pA fpOps st) K (lp i)) as [P' A']. cbn [pP pA]. split; assumption.
Qed.
Lemma fold_red : forall l st, Forall (fun i => (i < 74)%nat) l -> pred2 (pP fpOps st) -> pred2 (pA fpOps st) ->
  pred2 (pP fpOps (fold_left passS l st)) /\ pred2 (pA fpOps (fold_left passS l st)).
Proof.
  induction l as [|i l IH]; intros st Hl HP HA; [split; assumption|]. inversion Hl; subst. cbn [fold_left].
  destruct (passStep_red st i) as [Q1 Q2]; try assumption. apply IH; assumption.
Qed.
Notation gaR := (gaRound fpOps fpZero one four isZero isNonQuadRes).
Lemma gaRound_red : forall st x, fp_red (gA fpOps st) -> fp_red x -> fp_red (gA fpOps (gaR st x)).
Proof.
  intros st x HA HX. unfold gaRound. destruct (gDone fpOps st _); [exact HA|]. cbn [gA].
  assert (O : pred2 (gA fpOps st, one)) by (split; [exact HA|apply frep_one]).
  assert (X : pred2 (x, one)) by (split; [exact HX|apply frep_one]).
  set (sg := negb (isNonQuadRes (montEval fpOps fpZero one four (gA fpOps st) x) =? 0)). clearbody sg.
  destruct (xMul_red (x, one) (gA fpOps st, one) (gK fpOps st sg) X O) as [_ M].
  match goal with |- context [fold_left passS ?l ?s0] => destruct (fold_red l s0) as [_ R] end.
  - apply Forall_forall. intros i Hi. apply in_seq in Hi. unfold primeCount in Hi. lia.
  - exact M.
  - exact O.
  - apply (sim_mul _ _ _ red_sim _ Datatypes.tt _ Datatypes.tt); [apply R|]. apply (sim_inv _ _ _ red_sim _ Datatypes.tt). apply R.
Qed.
Lemma gaLoop_red : forall fuel st rng st' rest, bytes rng -> fp_red (gA fpOps st) ->
  gaLoop fpOps fpZero one four isZero isNonQuadRes (fun x => x) fuel st rng = Some (st', rest) -> fp_red (gA fpOps st').
Proof.
  induction fuel as [|fuel IH]; intros st rng st' rest Hb HA H; [discriminate|]. cbn [gaLoop] in H.
  destruct (randFp rng) as [[x rng']|] eqn:ER; [|discriminate]. destruct (randFp_red _ _ _ Hb ER) as [Fx Hb'].
  destruct (gDone fpOps st (negb (isNonQuadRes (montEval fpOps fpZero one four (gA fpOps st) x) =? 0))); [exact (IH _ _ _ _ Hb' HA H)|].
  pose proof (gaRound_red st x HA Fx) as R.
  destruct (gDone fpOps (gaR st x) false && gDone fpOps (gaR st x) true)%bool.
  - injection H as <- <-. exact R.
  - exact (IH _ _ _ _ Hb' R H).
Qed.
Theorem C63_group_action : forall a e rng s rest, fp_red a -> bytes rng -> groupActionFp a e rng = Some (s, rest) -> fp_red s.
Proof.
  intros a e rng s rest Ha Hb H. unfold groupActionFp, groupAction in H.
  destruct (groupAction_st fpOps fpZero one four isZero isNonQuadRes (fun x => x) a e rng) as [[st r]|] eqn:G; [|discriminate].
  injection H as <- <-. exact (gaLoop_red _ (gaInit fpOps a e) _ _ _ Hb Ha G).
Qed.
Print Assumptions C63_group_action.
(* public keys and shared secrets are the 64 little-endian bytes of an integer below P *)
Theorem C63_public_key : forall e rng a rest out, bytes rng -> length out = 64%nat ->
  generatePublicKey e rng = Ret (a, rest) ->
  fp_red a /\ exists key, pubExport a out = (true, key) /\ length key = 64%nat /\ bytes key /\ 0 <= le_dec key < P /\ le_dec key = val a.
Proof.
  intros e rng a rest out Hb Lo H. unfold generatePublicKey in H. destruct (groupActionFp (repeat 0 numWords) e rng) as [[s r]|] eqn:G; [|discriminate].
  injection H as <- <-. assert (R : fp_red s) by (exact (C63_group_action _ _ _ _ _ (proj1 frep_zero) Hb G)).
  split; [exact R|]. destruct R as [F B]. destruct (C33_export s out F) as [_ X]. exists (le_enc 64 (val s)). split; [exact (X Lo)|].
  split; [apply le_enc_length|]. split; [apply le_enc_bytes|].
  assert (E : le_dec (le_enc 64 (val s)) = val s).
  { rewrite le_dec_enc. apply Z.mod_small. destruct F as [W L]. pose proof (val_bound s W) as V. rewrite L in V. exact V. }
  rewrite E. split; [|reflexivity]. split; [apply val_bound, F|exact B].
Qed.
Print Assumptions C63_public_key.
Lemma validLoop_bytes : forall fuel a rng res rest, bytes rng -> validLoopFp fuel a rng = Some (res, rest) -> bytes rest.
Proof.
  induction fuel as [|fuel IH]; intros a rng res rest Hb H; [discriminate|]. unfold validLoopFp in *. cbn [validLoop] in H.
  destruct (randFp rng) as [[x rng']|] eqn:ER; [|discriminate]. destruct (randFp_red _ _ _ Hb ER) as [_ Hb'].
  match type of H with context [cofMul 75 ?q ?A ?x ?y ?z] => destruct (cofMul 75 q A x y z) as [[d r] o] end.
  destruct d; [|exact (IH _ _ _ _ Hb' H)]. injection H as _ <-. exact Hb'.
Qed.
Theorem C63_secret : forall out a e rng out' rest, fp_ok a -> bytes rng -> length out = 64%nat ->
  deriveSecret out a e rng = Ret (true, out', rest) ->
  length out' = 64%nat /\ bytes out' /\ 0 <= le_dec out' < P.
Proof.
  intros out a e rng out' rest Ha Hb Lo H. unfold deriveSecret in H.
  destruct (validate a rng) as [[ok r]|] eqn:V; [|discriminate]. destruct ok; [|discriminate].
  destruct (groupActionFp a e r) as [[s r']|] eqn:G; [|discriminate]. injection H as <- <-.
  unfold validate in V. rewrite (isLess_ok a p Ha p_ok) in V. fold P in V. destruct (Z.ltb_spec (val a) P) as [h|h]; [|discriminate]. cbn [negb] in V.
  destruct (orb (equal a two) (equal a twoNeg)); [discriminate|].
  destruct (validLoopFp (S (length rng)) a rng) as [[ok' r0]|] eqn:VL; [|discriminate]. injection V as -> ->.
  pose proof (validLoop_bytes _ _ _ _ _ Hb VL) as Hr.
  destruct (C63_group_action a e r s r' (conj Ha h) Hr G) as [F B].
  destruct (C33_export s out F) as [_ X]. rewrite (X Lo). cbn [snd].
  split; [apply le_enc_length|]. split; [apply le_enc_bytes|]. rewrite le_dec_enc, Z.mod_small.
  - split; [apply val_bound, F|exact B].
  - destruct F as [W L]. pose proof (val_bound s W) as V'. rewrite L in V'. exact V'.
Qed.
Print Assumptions C63_secret.

(* ---------- a concrete curve and point: y^2 = x^3 + x, x = 4 ---------- *)
Definition ex_y : Z := 4845768305685746581324956377815708074922378338153254023399275925243913881833732187394622851233006811365783990935448873431141725059301450007731379579311082.
Definition ex_x4 : list Z := [17072800717275409202; 7461031320077037036; 15129869365581637766; 8310333500670520758; 8225860171136769527; 17743529089981646184; 2491924160898467092; 500583890665381504].
Definition ex_pt : MontCurve.pnt Fq := affine (fq 4) (fq ex_y).
Example ex_on_curve : curve (k0 : Fq) k1 ex_pt.
Proof. cbn [MontCurve.onc ex_pt]. apply fq_inj. vm_compute. reflexivity. Qed.
Example ex_smooth : smooth (k0 : Fq).
Proof. intros E. apply (f_equal fqv) in E. revert E. vm_compute. discriminate. Qed.
Example ex_frep4 : frep ex_x4 (fq 4).
Proof.
  apply frep_mrep. split; [|vm_compute; reflexivity]. split; [|vm_compute; reflexivity]. split; [|reflexivity]. unfold ex_x4. wlit.
Qed.
Example ex_lrep : lrep (ex_x4, one) ex_pt.
Proof. exists (fq 4), k1. split; [split; [exact ex_frep4|exact frep_one]|]. split; [apply k_one_nz|ring]. Qed.
Example ex_crep : crep (fpZero, one) (k0 : Fq).
Proof. exists k0, k1. split; [split; [exact frep_zero|exact frep_one]|]. split; [apply k_one_nz|ring]. Qed.
Lemma fq4_nz : fq 4 <> k0. Proof. intros E. apply (f_equal fqv) in E. revert E. vm_compute. discriminate. Qed.
(* [1000] of that point, computed by the ladder, and its side *)
Example ex_C37 : lrep (xMulF (ex_x4, one) (fpZero, one) (small 1000)) (times (k0 : Fq) k1 1000 ex_pt).
Proof.
  destruct (small_ok 1000 ltac:(unfold is_w64; lia)) as [F V].
  destruct (C37_xmul (k0 : Fq) k1 (k_one_nz Fq) ex_smooth (ex_x4, one) (fpZero, one) (small 1000) ex_pt ex_crep ex_on_curve ex_lrep) as [H _].
  - discriminate.
  - exact fq4_nz.
  - exact F.
  - rewrite V. lia.
  - rewrite V in H. exact H.
Qed.
Example ex_C36 : isNonQuadRes (montEval fpOps fpZero one four fpZero ex_x4) = 0.
Proof.
  apply (C36_side fpZero ex_x4 k0 (fq 4) frep_zero ex_frep4). exists (fq ex_y). split; [|exact ex_on_curve].
  intros E. apply (f_equal fqv) in E. revert E. vm_compute. discriminate.
Qed.
(* [3](0,0) = (0,0) is affine, but the ladder returns Z = 0 for it *)
Theorem C37_all_points_refuted : exists (a b : Fq) q co k Pt, b <> k0 /\ smooth a /\ crep co a /\ curve a b Pt /\ lrep q Pt /\
  fp_ok k /\ 0 < val k /\ ~ lrep (xMulF q co k) (times a b (val k) Pt).
Proof.
  destruct (small_ok 3 ltac:(unfold is_w64; lia)) as [F V].
  exists k0, k1, (fpZero, one), (fpZero, one), (small 3), (affine k0 k0).
  split; [apply k_one_nz|]. split; [exact ex_smooth|]. split; [exact ex_crep|].
  assert (C : curve (k0 : Fq) k1 (affine k0 k0)) by (cbn [MontCurve.onc]; ring). split; [exact C|].
  assert (L : lrep (fpZero, one) (affine k0 k0)).
  { exists k0, k1. split; [split; [exact frep_zero|exact frep_one]|]. split; [apply k_one_nz|ring]. }
  split; [exact L|]. split; [exact F|]. split; [rewrite V; lia|]. rewrite V.
  destruct (C37_origin k0 (fpZero, one) (fpZero, one) (small 3) k0 ex_crep (lrep_zrep _ _ L) F ltac:(rewrite V; lia)) as [Z0 _].
  assert (T : times (k0 : Fq) k1 3 (affine k0 k0) = affine k0 k0).
  { change 3 with (2 + 1). rewrite (pmul_add Fq k0 k1 two_nz (k_one_nz Fq) ex_smooth) by (exact C || lia).
    rewrite pmul_2, pmul_1. cbn [MontCurve.padd]. destruct (k_dec (k0 : Fq) k0); [|contradiction].
    destruct (k_dec (k0 : Fq) (kopp k0)) as [h|h]; [reflexivity|]. exfalso. apply h. ring. }
  rewrite T. intros (X & Z & [_ HZ] & N & _). apply N. exact (frep_inj _ _ _ HZ Z0).
Qed.
Print Assumptions C37_all_points_refuted.

(* a point of order 3 on y^2 = x^3 + x *)
Definition ex_kx : Z := 1818043050579129257437550445462867717612784343039304488233727569592236804867650909582230103151331736924243041653803083223275559979905502396760984054682938.
Definition ex_ky : Z := 1350087514284083912052113964459984876886390796187547000174765773948129160367929704285031891694467099383016816849480341945182168943165912314926593829140878.
Definition ex_kl : Z := 4576496688132772393520847451903862516222688124533374439514600802162125223695471408167500159719994131827065278722764318903884236416464891783248097008419447.
Definition ex_kx_m : list Z := [8036801103668257200; 6836712698482603346; 1532320673573433506; 8164049646871042984; 6142479389546812725; 3122491249430953468; 9548750503980744665; 2160273964498587928].
Definition ex_K : MontCurve.pnt Fq := affine (fq ex_kx) (fq ex_ky).
Example ex_K_curve : curve (k0 : Fq) k1 ex_K.
Proof. cbn [MontCurve.onc ex_K]. apply fq_inj. vm_compute. reflexivity. Qed.
Ltac fq_neq := let E := fresh in intros E; apply (f_equal fqv) in E; revert E; vm_compute; discriminate.
Section Dbl.
  Variable F : fld.
  Add Field Fdbl : (k_th F).
  Lemma dbl_neg : forall x y l : F, kadd k1 k1 <> (k0 : F) -> y <> k0 ->
    kmul l (kmul (kadd k1 k1) y) = kadd (kmul (kadd (kadd k1 k1) k1) (kmul x x)) k1 -> ksub (ksub (kmul l l) x) x = x ->
    padd F k0 k1 (Aff F x y) (Aff F x y) = pneg F (Aff F x y).
  Proof.
    intros x y l N2 Ny E1 E2. cbn [MontCurve.padd MontCurve.pneg]. destruct (k_dec x x); [|contradiction].
    destruct (k_dec y (kopp y)) as [h|h]; [exfalso; apply Ny; apply (y_neg F N2); exact h|].
    match goal with |- chord _ _ _ _ _ _ ?s = _ => assert (S : s = l) end.
    { apply (k_cancel F (kmul (kadd k1 k1) y)); [apply k_mul_nz; assumption|].
      transitivity (kmul l (kmul (kadd k1 k1) y)); [|ring]. rewrite E1. field. split; assumption. }
    rewrite S. unfold chord.
    assert (E3 : ksub (ksub (ksub (kmul (k1 : F) (kmul l l)) k0) x) x = x) by (rewrite <- E2 at 3; ring).
    cbv zeta. rewrite E3. f_equal. ring.
  Qed.
End Dbl.
Lemma ex_K_dbl : plus (k0 : Fq) k1 ex_K ex_K = neg ex_K.
Proof.
  apply (dbl_neg Fq (fq ex_kx) (fq ex_ky) (fq ex_kl) two_nz); [fq_neq| |]; apply fq_inj; vm_compute; reflexivity.
Qed.
Example ex_K_order : times (k0 : Fq) k1 3 ex_K = infinity.
Proof.
  change 3 with (2 + 1). rewrite (pmul_add Fq k0 k1 two_nz (k_one_nz Fq) ex_smooth) by (exact ex_K_curve || lia).
  rewrite pmul_2, pmul_1, ex_K_dbl. rewrite (padd_comm Fq k0 k1 (k_one_nz Fq)); [apply padd_neg|apply pneg_onc|]; exact ex_K_curve.
Qed.
Example ex_K_lrep : lrep (ex_kx_m, one) ex_K.
Proof.
  exists (fq ex_kx), k1. split; [split; [|exact frep_one]|split; [apply k_one_nz|ring]].
  apply frep_mrep. split; [|vm_compute; reflexivity]. split; [|vm_compute; reflexivity]. split; [|reflexivity]. unfold ex_kx_m. wlit.
Qed.
(* the 3-isogeny with that kernel, applied to the point above x = 4 *)
Example ex_C62 : exists X' Z', prep2 (fst (xIsoF (ex_x4, one) (fpZero, one) (ex_kx_m, one) 3)) X' Z' /\ Z' <> k0 /\
  kdiv X' Z' = kmul (fq 4) (kmul (kmul k1 (xco Fq (plus (k0 : Fq) k1 ex_pt ex_K))) (xco Fq (plus (k0 : Fq) k1 ex_pt (neg ex_K)))).
Proof.
  destruct (C62_image (k0 : Fq) k1 ex_K 3 (k_one_nz Fq) ex_smooth ex_K_curve ltac:(discriminate) prime_3 ltac:(lia) ltac:(lia) ex_K_order
    (ex_x4, one) (fpZero, one) (ex_kx_m, one) (fq 4) (fq ex_y) ex_lrep ex_crep ex_K_lrep ex_on_curve) as (X' & Z' & H1 & H2 & H3).
  - intros j Hj E. apply padd_eq_inf in E. assert (C : j = 0 \/ j = 1 \/ j = 2) by lia. destruct C as [-> | [-> | ->]].
    + discriminate E.
    + rewrite pmul_1 in E. apply (f_equal (xco Fq)) in E. change (fq ex_kx = fq 4) in E. revert E. fq_neq.
    + rewrite pmul_2, ex_K_dbl in E. apply (f_equal (xco Fq)) in E. change (fq ex_kx = fq 4) in E. revert E. fq_neq.
  - exists X', Z'. split; [exact H1|]. split; [exact H2|]. rewrite H3. change (Z.to_nat (3 - 1)) with 2%nat. cbn [kprodn].
    change (Z.of_nat 1) with 1. change (Z.of_nat 2) with 2. rewrite pmul_1, pmul_2, ex_K_dbl. reflexivity.
Qed.
