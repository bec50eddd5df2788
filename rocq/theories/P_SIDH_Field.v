(* C39-C41: the SIDH field arithmetic of dh/sidh/internal/{p434,p503,p751}.
   An element is FpWords little-endian 64-bit words; R = 2^(64*FpWords). *)
From Coq Require Import ZArith List Lia Bool Znumtheory Field.
From Verif Require Import Lib MP NT SIDH_Consts SIDH_Field SIDH_FieldProofs SIDH_Fp2Proofs SIDH_Inst FieldAlg.
Import ListNotations.
Open Scope Z_scope.

(* ---------- specification ---------- *)
(* x is an n-word integer in [0, bound) *)
Definition elem (n : nat) (bound : Z) (x : list Z) : Prop := words x /\ length x = n /\ 0 <= val x < bound.
Definition R (F : fieldParams) : Z := 2 ^ (64 * Z.of_nat (FpWords F)).
(* x is in [0, 2p) and is the Montgomery form of c *)
Definition holds (F : fieldParams) (p : Z) (x : list Z) (c : Z) : Prop :=
  elem (FpWords F) (2 * p) x /\ val x mod p = (c * R F) mod p.
Definition holds2 (F : fieldParams) (p : Z) (x : list Z * list Z) (a b : Z) : Prop :=
  holds F p (fst x) a /\ holds F p (snd x) b.

Lemma elem_fpok : forall F p x, elem (FpWords F) (2 * p) x <-> fpok F p x.
Proof. intros F p x. split; [intros (A & C & D); repeat split; auto; lia|]. intros (A & C & D). pose proof (val_bound x A). split; [assumption|split; [assumption|lia]]. Qed.
Lemma R_B : forall F, R F = B ^ Z.of_nat (FpWords F).
Proof. intros. unfold R. rewrite Z.pow_mul_r by lia. reflexivity. Qed.
Lemma holds_mrep : forall F p x c, field_ok F p -> holds F p x c <-> mrep F p x c.
Proof. intros F p x c OK. unfold holds, mrep. rewrite (cg_eq F p OK), R_B, elem_fpok. reflexivity. Qed.

(* ---------- C39 ---------- *)
Theorem C39_add_sub : forall F p, sidh_field F p -> forall x y,
  elem (FpWords F) (2 * p) x -> elem (FpWords F) (2 * p) y ->
  elem (FpWords F) (2 * p) (addP F x y) /\ val (addP F x y) mod p = (val x + val y) mod p /\
  elem (FpWords F) (2 * p) (subP F x y) /\ val (subP F x y) mod p = (val x - val y) mod p.
Proof.
  intros F p S x y Hx Hy. pose proof (sidh_field_ok F p S) as OK. rewrite !elem_fpok in *.
  destruct (addP_spec F p OK x y Hx Hy) as [A V]. destruct (subP_spec F p OK x y Hx Hy) as [A' V'].
  pose proof (p_pos F p OK).
  split; [assumption|]. split; [|split; [assumption|]].
  - rewrite V. destruct (val x + val y <? 2 * p); [reflexivity|]. replace (val x + val y - 2 * p) with (val x + val y + (-2) * p) by ring. apply Z_mod_plus_full.
  - rewrite V'. destruct (val x - val y <? 0); [|reflexivity]. apply Z_mod_plus_full.
Qed.
Print Assumptions C39_add_sub.

Theorem C39_mul : forall F p, sidh_field F p -> forall x y,
  elem (FpWords F) (2 * p) x -> elem (FpWords F) (2 * p) y ->
  elem (FpWords F) (2 * p) (mulP F x y) /\ (val (mulP F x y) * R F) mod p = (val x * val y) mod p.
Proof.
  intros F p S x y Hx Hy. pose proof (sidh_field_ok F p S) as OK. rewrite !elem_fpok in *.
  destruct (mulPx_ok F p OK x y Hx Hy) as [D V]. pose proof (fpok_nonneg _ _ _ Hx). pose proof (fpok_nonneg _ _ _ Hy).
  pose proof (fo_R _ _ OK). pose proof (p_pos F p OK).
  destruct (rdc_ok F p OK _ D) as [O E]. { rewrite V. nia. }
  split; [exact O|]. rewrite R_B, Z.mul_comm, <- V. exact E.
Qed.
Print Assumptions C39_mul.

(* the wide product is exact for all word vectors, reduced or not *)
Theorem C39_wide_mul : forall F p, sidh_field F p -> forall x y, words x -> words y ->
  length x = FpWords F -> length y = FpWords F ->
  words (mulPx F x y) /\ length (mulPx F x y) = (2 * FpWords F)%nat /\ val (mulPx F x y) = val x * val y.
Proof.
  intros F p S x y Wx Wy Lx Ly. pose proof (sidh_field_ok F p S) as OK.
  exact (mulPx_spec F x y Wx Wy Lx Ly (fo_n1 _ _ OK) (fo_n2 _ _ OK)).
Qed.
Print Assumptions C39_wide_mul.

(* Montgomery reduction: any double-width input below p*R, any previous destination content *)
Theorem C39_reduction : forall F p, sidh_field F p -> forall z0 x, words z0 -> length z0 = FpWords F ->
  elem (2 * FpWords F) (p * R F) x ->
  elem (FpWords F) (2 * p) (rdcP F z0 x) /\ (val (rdcP F z0 x) * R F) mod p = val x mod p.
Proof.
  intros F p S z0 x W0 L0 (Wx & Lx & Vx). pose proof (sidh_field_ok F p S) as OK. rewrite R_B in *.
  destruct (rdcP_spec F p OK z0 x W0 L0 Wx Lx ltac:(lia)) as (A & C & D & q & Hq & E).
  pose proof (val_bound _ A). split; [split; [assumption|split; [assumption|lia]]|].
  rewrite Z.mul_comm, E. apply Z_mod_plus_full.
Qed.
Print Assumptions C39_reduction.

Theorem C39_strong_reduction : forall F p, sidh_field F p -> forall x, elem (FpWords F) (2 * p) x ->
  elem (FpWords F) p (modP F x) /\ val (modP F x) = val x mod p.
Proof.
  intros F p S x Hx. pose proof (sidh_field_ok F p S) as OK. rewrite elem_fpok in Hx. pose proof (p_pos F p OK).
  destruct (modP_spec F p OK x Hx) as (A & C & D). split; [|exact D]. split; [exact A|]. split; [exact C|].
  rewrite D. apply Z.mod_pos_bound. lia.
Qed.
Print Assumptions C39_strong_reduction.

(* double-width add/subtract used by the extension field *)
Theorem C39_wide_add_sub : forall F p, sidh_field F p -> forall x y,
  elem (2 * FpWords F) (p * R F) x -> elem (2 * FpWords F) (p * R F) y ->
  (val x + val y < R F * R F -> val (adlP x y) = val x + val y) /\
  elem (2 * FpWords F) (p * R F) (sulP F x y) /\ val (sulP F x y) mod p = (val x - val y) mod p.
Proof.
  intros F p S x y (Wx & Lx & Vx) (Wy & Ly & Vy). pose proof (sidh_field_ok F p S) as OK. rewrite R_B in *.
  pose proof (p_pos F p OK). pose proof (R_pos F).
  destruct (sulP_spec F p OK x y (conj Wx Lx) (conj Wy Ly) ltac:(lia)) as [D V].
  split; [|split].
  - intros L. exact (proj2 (adlP_spec F x y (conj Wx Lx) (conj Wy Ly) L)).
  - split; [exact (proj1 D)|]. split; [exact (proj2 D)|]. rewrite V. destruct (Z.ltb_spec (val x - val y) 0); lia.
  - rewrite V. destruct (_ <? _); [|reflexivity].
    replace (val x - val y + p * B ^ Z.of_nat (FpWords F)) with (val x - val y + B ^ Z.of_nat (FpWords F) * p) by ring. apply Z_mod_plus_full.
Qed.
Print Assumptions C39_wide_add_sub.

(* conditional swap: for choice bits 0 and 1 it is the identity / the exchange *)
Lemma cswap_words_0 : forall x y, length x = length y -> cswap_words 0 x y = (x, y).
Proof.
  induction x as [|a x IH]; intros [|b y] L; try discriminate; [reflexivity|]. injection L as L. cbn [cswap_words].
  rewrite IH by exact L. rewrite Z.land_0_l, !Z.lxor_0_l. reflexivity.
Qed.
Lemma cswap_words_1 : forall x y, words x -> words y -> length x = length y -> cswap_words (B - 1) x y = (y, x).
Proof.
  induction x as [|a x IH]; intros [|b y] Wx Wy L; try discriminate; [reflexivity|]. injection L as L. cbn [cswap_words].
  inversion Wx; inversion Wy; subst. rewrite IH by assumption.
  rewrite Z.land_comm, land_ones64 by (unfold is_w64 in *; apply lxor_bound; lia).
  rewrite (Z.lxor_comm (Z.lxor a b) a), <- Z.lxor_assoc, Z.lxor_nilpotent, Z.lxor_0_l.
  rewrite Z.lxor_assoc, Z.lxor_nilpotent, Z.lxor_0_r. reflexivity.
Qed.
Theorem C39_cswap : forall x y, words x -> words y -> length x = length y ->
  cswapP x y 0 = (x, y) /\ cswapP x y 1 = (y, x).
Proof.
  intros x y Wx Wy L. unfold cswapP. split; [apply cswap_words_0; exact L|]. apply cswap_words_1; assumption.
Qed.
Print Assumptions C39_cswap.

(* non-trivial instances: 1/2 and 6 in Montgomery form; p-1 wraps the addition *)
Definition top434 : list Z := limbs 7 (2 * p434 - 1).
Example ex_C39 :
  elem 7 (2 * p434) top434 /\ elem 7 (2 * p434) (fst six434) /\
  val (addP f434 top434 (fst six434)) = (val (fst six434) - 1) /\
  val (subP f434 (fst half434) (fst six434)) = val (fst half434) - val (fst six434) + 2 * p434 /\
  val (modP f434 top434) = p434 - 1 /\
  (val (mulP f434 (fst half434) (fst six434)) - 3 * val (fst one434)) mod p434 = 0.
Proof.
  split; [apply (elem_fpok f434); split; [apply limbs_words|split; [reflexivity|apply Z.ltb_lt; vm_compute; reflexivity]]|].
  split; [apply (elem_fpok f434); split; [apply words_b_ok; vm_compute; reflexivity|split; [reflexivity|apply Z.ltb_lt; vm_compute; reflexivity]]|].
  repeat apply conj; vm_compute; reflexivity.
Qed.

(* ---------- C40 ---------- *)
(* every in-range element of the extension field is the Montgomery form of one residue pair *)
Theorem C40_represents : forall F p, sidh_field F p -> forall x,
  elem (FpWords F) (2 * p) (fst x) -> elem (FpWords F) (2 * p) (snd x) ->
  exists a b, (0 <= a < p /\ 0 <= b < p /\ holds2 F p x a b) /\
    forall a' b', holds2 F p x a' b' -> a' mod p = a /\ b' mod p = b.
Proof.
  intros F p S x H1 H2. pose proof (sidh_field_ok F p S) as OK.
  destruct (rep_exists F p OK x) as [[a b] [Ha Hb]]; [apply elem_fpok; assumption..|].
  exists (fpv p a), (fpv p b). pose proof (fpv_range p (fo_prime _ _ OK) a) as Ra. pose proof (fpv_range p (fo_prime _ _ OK) b) as Rb.
  split; [split; [assumption|split; [assumption|split; apply holds_mrep; assumption]]|].
  intros a' b' [Ha' Hb']. apply holds_mrep in Ha'; [|assumption]. apply holds_mrep in Hb'; [|assumption].
  pose proof (mrep_inj F p OK _ _ _ Ha' Ha) as E1. pose proof (mrep_inj F p OK _ _ _ Hb' Hb) as E2.
  apply (cg_eq F p OK) in E1. apply (cg_eq F p OK) in E2. cbn [fst snd] in *. rewrite E1, E2, !Z.mod_small by assumption. split; reflexivity.
Qed.
Print Assumptions C40_represents.

Lemma holds2_rep : forall F p (S : field_ok F p) x a b, holds2 F p x a b ->
  rep F p S x (fpm p (fo_prime _ _ S) a, fpm p (fo_prime _ _ S) b).
Proof.
  intros F p S x a b [Ha Hb]. apply holds_mrep in Ha; [|assumption]. apply holds_mrep in Hb; [|assumption].
  split; cbn [fst snd]; rewrite fpv_fpm; [eapply mrep_cg; [exact Ha|]|eapply mrep_cg; [exact Hb|]];
    apply cg_sym; apply (cg_mod F p S).
Qed.
Lemma rep_holds2 : forall F p (S : field_ok F p) x a b c, rep F p S x c -> fpv p (fst c) mod p = a mod p -> fpv p (snd c) mod p = b mod p ->
  holds2 F p x a b.
Proof.
  intros F p S x a b c [Hc Hd] E1 E2. split; (apply holds_mrep; [exact S|]); eapply mrep_cg; eauto; apply (cg_eq F p S); assumption.
Qed.

Theorem C40_add_sub_mul_sqr : forall F p, sidh_field F p -> forall x y a b c d,
  holds2 F p x a b -> holds2 F p y c d ->
  holds2 F p (fp2add F x y) (a + c) (b + d) /\
  holds2 F p (fp2sub F x y) (a - c) (b - d) /\
  holds2 F p (fp2mul F x y) (a * c - b * d) (a * d + b * c) /\
  holds2 F p (fp2sqr F x) (a * a - b * b) (2 * a * b).
Proof.
  intros F p S x y a b c d Hx Hy. pose proof (sidh_field_ok F p S) as OK.
  pose proof (holds2_rep F p OK x a b Hx) as RX. pose proof (holds2_rep F p OK y c d Hy) as RY.
  assert (CC : forall s t, cg p s t -> s mod p = t mod p) by (intros s t; apply (cg_eq F p OK)).
  assert (M : forall z, cg p (fpv p (fpm p (fo_prime F p OK) z)) z) by (intros z; rewrite fpv_fpm; apply (cg_mod F p OK)).
  split; [|split; [|split]].
  - eapply rep_holds2; [apply rep_add; [exact RX|exact RY]|apply CC|apply CC].
    + eapply cg_trans; [apply (v_addc F p OK)|]. apply cg_add; apply M.
    + eapply cg_trans; [apply (v_addc F p OK)|]. apply cg_add; apply M.
  - eapply rep_holds2; [apply rep_sub; [exact RX|exact RY]|apply CC|apply CC].
    + eapply cg_trans; [apply (v_subc F p OK)|]. apply cg_sub; apply M.
    + eapply cg_trans; [apply (v_subc F p OK)|]. apply cg_sub; apply M.
  - eapply rep_holds2; [apply rep_mul; [exact RX|exact RY]|apply CC|apply CC].
    + eapply cg_trans; [apply (mul_re F p OK)|]. cbn [fst snd]. apply cg_sub; apply cg_mul; apply M.
    + eapply cg_trans; [apply (mul_im F p OK)|]. cbn [fst snd]. apply cg_add; apply cg_mul; apply M.
  - eapply rep_holds2; [apply rep_sqr; exact RX|apply CC|apply CC].
    + eapply cg_trans; [apply (mul_re F p OK)|]. cbn [fst snd]. apply cg_sub; apply cg_mul; apply M.
    + eapply cg_trans; [apply (mul_im F p OK)|]. cbn [fst snd]. replace (2 * a * b) with (a * b + b * a) by ring. apply cg_add; apply cg_mul; apply M.
Qed.
Print Assumptions C40_add_sub_mul_sqr.

Theorem C40_inv : forall F p, sidh_field F p -> forall x a b, holds2 F p x a b ->
  exists c d, holds2 F p (fp2inv F x) c d /\
    ((a mod p <> 0 \/ b mod p <> 0) -> (a * c - b * d) mod p = 1 /\ (a * d + b * c) mod p = 0) /\
    ((a mod p = 0 /\ b mod p = 0) -> c mod p = 0 /\ d mod p = 0).
Proof.
  intros F p S x a b Hx. pose proof (sidh_field_ok F p S) as OK. pose proof (sidh_field_s34 F p S) as S34.
  pose proof (holds2_rep F p OK x a b Hx) as RX. pose proof (p_pos F p OK) as P3.
  set (X := (fpm p (fo_prime F p OK) a, fpm p (fo_prime F p OK) b) : K2 F p OK) in *.
  assert (CC : forall s t, cg p s t -> s mod p = t mod p) by (intros s t; apply (cg_eq F p OK)).
  assert (M : forall z, cg p (fpv p (fpm p (fo_prime F p OK) z)) z) by (intros z; rewrite fpv_fpm; apply (cg_mod F p OK)).
  pose proof (rep_inv F p OK S34 x X RX) as RI. set (Y := kinv X) in *.
  exists (fpv p (fst Y)), (fpv p (snd Y)). split; [eapply rep_holds2; [exact RI|reflexivity|reflexivity]|].
  split.
  - intros N. assert (XN : X <> k0).
    { intros E. apply (f_equal (fun z : K2 F p OK => (fpv p (fst z), fpv p (snd z)))) in E. unfold X in E. cbn [fst snd] in E.
      injection E as E1 E2. rewrite Z.mod_0_l in E1, E2 by lia. lia. }
    assert (I : kmul X Y = k1). { unfold Y. pose proof (Finv_l (k_th (K2 F p OK)) X XN) as E. rewrite (Rmul_comm (F_R (k_th (K2 F p OK)))). exact E. }
    split.
    + pose proof (mul_re F p OK X Y) as E. rewrite I in E. change (fpv p (fst (@k1 (K2 F p OK)))) with (1 mod p) in E.
      rewrite Z.mod_1_l in E by lia. etransitivity; [|apply Z.mod_1_l with (a := p); lia]. apply CC. apply cg_sym. eapply cg_trans; [exact E|].
      apply cg_sub; apply cg_mul; try apply M; apply cg_refl.
    + pose proof (mul_im F p OK X Y) as E. rewrite I in E. change (fpv p (snd (@k1 (K2 F p OK)))) with (0 mod p) in E.
      rewrite Z.mod_0_l in E by lia. etransitivity; [|apply Z.mod_0_l with (a := p); lia]. apply CC. apply cg_sym. eapply cg_trans; [exact E|].
      apply cg_add; apply cg_mul; try apply M; apply cg_refl.
  - intros [E1 E2]. assert (X0 : X = k0).
    { unfold X. change (@k0 (K2 F p OK)) with (fpm p (fo_prime F p OK) 0, fpm p (fo_prime F p OK) 0).
      f_equal; apply fpm_eq; rewrite Z.mod_0_l by lia; assumption. }
    unfold Y. rewrite X0, k_inv0. change (fpv p (fst (@k0 (K2 F p OK)))) with (0 mod p). change (fpv p (snd (@k0 (K2 F p OK)))) with (0 mod p).
    rewrite !Zmod_mod. split; reflexivity.
Qed.
Print Assumptions C40_inv.

Definition i434 : list Z * list Z := (zeroFp f434, fst one434).
Example ex_C40 : holds2 f434 p434 six434 6 0 /\ holds2 f434 p434 i434 0 1 /\
  holds2 f434 p434 (fp2add f434 six434 i434) 6 1 /\
  holds2 f434 p434 (fp2mul f434 (fp2add f434 six434 i434) i434) (-1) 6.
Proof.
  assert (E : forall l c, elt_b 7 l (val l) = true -> val l <? 2 * p434 = true -> val l mod p434 =? (c * R f434) mod p434 = true -> holds f434 p434 l c).
  { intros l c H1 H2 H3. apply elt_b_ok in H1. destruct H1 as (A1 & A2 & _). split; [apply (elem_fpok f434); repeat split; auto; lia|].
    apply Z.eqb_eq. exact H3. }
  assert (H6 : holds2 f434 p434 six434 6 0) by (split; apply E; vm_compute; reflexivity).
  assert (Hi : holds2 f434 p434 i434 0 1) by (split; apply E; vm_compute; reflexivity).
  assert (S : sidh_field f434 p434) by (left; split; reflexivity).
  pose proof (C40_add_sub_mul_sqr f434 p434 S _ _ _ _ _ _ H6 Hi) as [A _].
  pose proof (C40_add_sub_mul_sqr f434 p434 S _ _ _ _ _ _ A Hi) as (_ & _ & M & _).
  split; [exact H6|]. split; [exact Hi|]. split; [exact A|exact M].
Qed.

(* ---------- C41 ---------- *)
Theorem C41_constants : forall F p, sidh_field F p ->
  prime p /\ p mod 4 = 3 /\
  elem (FpWords F) (R F) (fP F) /\ val (fP F) = p /\
  elem (FpWords F) (R F) (fPx2 F) /\ val (fPx2 F) = 2 * p /\
  elem (FpWords F) (R F) (fPp1 F) /\ val (fPp1 F) = p + 1 /\
  elem (FpWords F) p (fR2 F) /\ val (fR2 F) = (R F * R F) mod p.
Proof.
  intros F p S. pose proof (sidh_field_ok F p S) as OK. pose proof (p_pos F p OK). rewrite !R_B.
  destruct (fo_P _ _ OK) as (A1 & A2 & A3). destruct (fo_Px2 _ _ OK) as (B1 & B2 & B3).
  destruct (fo_Pp1 _ _ OK) as (C1 & C2 & C3). destruct (fo_R2 _ _ OK) as (D1 & D2 & D3).
  pose proof (val_bound _ A1). pose proof (val_bound _ B1). pose proof (val_bound _ C1).
  rewrite A2 in *. rewrite B2 in *. rewrite C2 in *.
  assert (0 <= val (fR2 F) < p) by (rewrite D3; apply Z.mod_pos_bound; lia).
  unfold elem. repeat (apply conj || assumption || exact (fo_prime _ _ OK) || exact (fo_34 _ _ OK)); tauto.
Qed.
Print Assumptions C41_constants.

Theorem C41_one_half_six : forall P F p, In (P, F, p) [(params434, f434, p434); (params503, f503, p503); (params751, f751, p751)] ->
  sidh_field F p /\ pField P = F /\
  holds2 F p (OneFp2 P) 1 0 /\ holds2 F p (InitA P) 6 0 /\ holds2 F p (InitC P) 1 0 /\
  exists h, holds2 F p (HalfFp2 P) h 0 /\ (2 * h) mod p = 1.
Proof.
  assert (G : forall (P : sidhParams) F p,
    (forallb (fun t : list Z * Z => let '(l, c) := t in
       elt_b (FpWords F) l (val l) && (val l <? 2 * p) && (val l mod p =? (c * R F) mod p))
      [(fst (OneFp2 P), 1); (snd (OneFp2 P), 0); (fst (InitA P), 6); (snd (InitA P), 0); (fst (InitC P), 1); (snd (InitC P), 0);
       (fst (HalfFp2 P), (p + 1) / 2); (snd (HalfFp2 P), 0)] && (2 * ((p + 1) / 2) mod p =? 1)) = true ->
    holds2 F p (OneFp2 P) 1 0 /\ holds2 F p (InitA P) 6 0 /\ holds2 F p (InitC P) 1 0 /\
    exists h, holds2 F p (HalfFp2 P) h 0 /\ (2 * h) mod p = 1).
  { intros P F p H. apply andb_prop in H. destruct H as [H H2]. rewrite forallb_forall in H.
    assert (E : forall l c, In (l, c) [(fst (OneFp2 P), 1); (snd (OneFp2 P), 0); (fst (InitA P), 6); (snd (InitA P), 0); (fst (InitC P), 1); (snd (InitC P), 0);
       (fst (HalfFp2 P), (p + 1) / 2); (snd (HalfFp2 P), 0)] -> holds F p l c).
    { intros l c Hin. apply H in Hin. apply andb_prop in Hin. destruct Hin as [Hin H3]. apply andb_prop in Hin. destruct Hin as [H1 H4].
      apply elt_b_ok in H1. destruct H1 as (A1 & A2 & _). split; [apply elem_fpok; repeat split; auto; lia|apply Z.eqb_eq; exact H3]. }
    clear H. split; [split; apply E; cbn; tauto|]. split; [split; apply E; cbn; tauto|]. split; [split; apply E; cbn; tauto|].
    exists ((p + 1) / 2). split; [split; apply E; cbn; tauto|apply Z.eqb_eq; exact H2]. }
  intros P F p [E|[E|[E|[]]]]; injection E as <- <- <-; (split; [unfold sidh_field; tauto|]); (split; [reflexivity|]);
    apply G; vm_compute; reflexivity.
Qed.
Print Assumptions C41_one_half_six.

(* ToMontgomery takes any words (they are implicitly reduced mod p) and FromMontgomery returns the
   canonical residues; the two are mutually inverse on residues *)
Theorem C41_to_montgomery : forall F p, sidh_field F p -> forall x,
  words (fst x) -> length (fst x) = FpWords F -> words (snd x) -> length (snd x) = FpWords F ->
  holds2 F p (ToMontgomery F x) (val (fst x)) (val (snd x)).
Proof.
  intros F p S x W1 L1 W2 L2. pose proof (sidh_field_ok F p S) as OK.
  split; (apply holds_mrep; [exact OK|]); cbn [ToMontgomery fst snd]; apply toMont1; assumption.
Qed.
Print Assumptions C41_to_montgomery.
Theorem C41_from_montgomery : forall F p, sidh_field F p -> forall x a b, holds2 F p x a b ->
  elem (FpWords F) p (fst (FromMontgomery F x)) /\ val (fst (FromMontgomery F x)) = a mod p /\
  elem (FpWords F) p (snd (FromMontgomery F x)) /\ val (snd (FromMontgomery F x)) = b mod p.
Proof.
  intros F p S x a b [Ha Hb]. pose proof (sidh_field_ok F p S) as OK. pose proof (p_pos F p OK).
  apply holds_mrep in Ha; [|exact OK]. apply holds_mrep in Hb; [|exact OK]. cbn [FromMontgomery fst snd].
  destruct (fromMont1 F p OK _ _ Ha) as (A1 & A2 & A3). destruct (fromMont1 F p OK _ _ Hb) as (B1 & B2 & B3).
  pose proof (Z.mod_pos_bound a p ltac:(lia)). pose proof (Z.mod_pos_bound b p ltac:(lia)).
  unfold elem. rewrite A3, B3. tauto.
Qed.
Print Assumptions C41_from_montgomery.
Theorem C41_roundtrip : forall F p, sidh_field F p -> forall x,
  elem (FpWords F) p (fst x) -> elem (FpWords F) p (snd x) -> FromMontgomery F (ToMontgomery F x) = x.
Proof.
  intros F p S [x1 x2] (W1 & L1 & V1) (W2 & L2 & V2). cbn [fst snd] in *.
  pose proof (C41_to_montgomery F p S (x1, x2) W1 L1 W2 L2) as T. cbn [fst snd] in T.
  destruct (C41_from_montgomery F p S _ _ _ T) as ((A1 & A2 & _) & A4 & (B1 & B2 & _) & B4).
  rewrite Z.mod_small in A4, B4 by assumption.
  destruct (FromMontgomery F (ToMontgomery F (x1, x2))) as [y1 y2]. cbn [fst snd] in *.
  f_equal; apply val_inj; auto; congruence.
Qed.
Print Assumptions C41_roundtrip.
Theorem C41_roundtrip' : forall F p, sidh_field F p -> forall x a b, holds2 F p x a b ->
  holds2 F p (ToMontgomery F (FromMontgomery F x)) a b.
Proof.
  intros F p S x a b H. destruct (C41_from_montgomery F p S x a b H) as ((A1 & A2 & A3) & A4 & (B1 & B2 & B3) & B4).
  pose proof (C41_to_montgomery F p S _ A1 A2 B1 B2) as [T1 T2]. rewrite A4 in T1. rewrite B4 in T2.
  pose proof (sidh_field_ok F p S) as OK. pose proof (p_pos F p OK).
  split; (apply holds_mrep; [exact OK|]); eapply mrep_cg;
    [apply holds_mrep; [exact OK|exact T1]|apply (cg_mod F p OK)|apply holds_mrep; [exact OK|exact T2]|apply (cg_mod F p OK)].
Qed.
Print Assumptions C41_roundtrip'.
(* the fixed addition chain of p34 raises to exactly (p-3)/4 *)
Theorem C41_p34 : forall F p, sidh_field F p -> forall x c, holds F p x c -> holds F p (p34 F x) (c ^ ((p - 3) / 4)).
Proof.
  intros F p S x c H. pose proof (sidh_field_ok F p S) as OK. apply holds_mrep; [exact OK|].
  apply p34_ok; [exact OK|exact (sidh_field_s34 F p S)|]. apply holds_mrep; assumption.
Qed.
Print Assumptions C41_p34.

(* an encoded value above p is accepted and silently reduced: p + 3 behaves as 3 *)
Example ex_C41 : val (fst (FromMontgomery f434 (ToMontgomery f434 (limbs 7 (p434 + 3), limbs 7 5)))) = 3 /\
  holds f434 p434 (fst six434) 6.
Proof.
  split.
  - destruct (C41_from_montgomery f434 p434 (or_introl (conj eq_refl eq_refl)) _ _ _
      (C41_to_montgomery f434 p434 (or_introl (conj eq_refl eq_refl)) (limbs 7 (p434 + 3), limbs 7 5)
        (limbs_words _ _) (limbs_length _ _) (limbs_words _ _) (limbs_length _ _))) as (_ & E & _).
    rewrite E. vm_compute. reflexivity.
  - exact (proj1 (proj1 ex_C40)).
Qed.
