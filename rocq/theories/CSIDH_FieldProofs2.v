(* Montgomery representation, windowed exponentiation, inversion and the quadratic residue test
   of the CSIDH-512 field. *)
From Coq Require Import ZArith List Lia Bool Znumtheory.
From Verif Require Import Lib MP NT Prime63 PrimeCerts CSIDH_Field CSIDH_FieldProofs.
Import ListNotations.
Open Scope Z_scope.

Definition Rinv : Z := 0x561e0a2506e7cb934dc44966712bfd9b334d370e662fdd6425b7e18bd34547414f2214202afd21a52d1388200c6f7369940adf0991be51ccac6d21fef115a97b.
Lemma Rinv_ok : (Rinv * 2 ^ 512) mod P = 1. Proof. vm_compute. reflexivity. Qed.

Ltac wlit := unfold words; repeat (apply Forall_cons; [unfold is_w64; lia|]); apply Forall_nil.

(* x is the reduced Montgomery representative of the integer a modulo p *)
Definition mrep (x : list Z) (a : Z) : Prop := fp_red x /\ val x = (a * 2 ^ 512) mod P.

Lemma P_pos : 0 < P. Proof. apply P_lt. Qed.
Lemma P_nz : P <> 0. Proof. pose proof P_pos. lia. Qed.

Lemma P_prime : prime P.
Proof. assert (E : P = cN csidh_ctx) by (vm_compute; reflexivity). rewrite E. exact csidh_prime. Qed.
Lemma P_34 : P mod 4 = 3. Proof. vm_compute. reflexivity. Qed.
Lemma P_gt2 : 2 < P. Proof. vm_compute. reflexivity. Qed.

(* the integer represented *)
Definition fv (x : list Z) : Z := (val x * Rinv) mod P.

Lemma fv_range : forall x, 0 <= fv x < P.
Proof. intros. apply Z.mod_pos_bound, P_pos. Qed.

Lemma R_cancel : forall a b, (a * 2 ^ 512) mod P = (b * 2 ^ 512) mod P -> a mod P = b mod P.
Proof.
  intros a b E.
  assert (H : forall c, ((c * 2 ^ 512) mod P * Rinv) mod P = c mod P).
  { intros c. rewrite Z.mul_mod_idemp_l by apply P_nz.
    replace (c * 2 ^ 512 * Rinv) with (c * (Rinv * 2 ^ 512)) by ring.
    rewrite <- Z.mul_mod_idemp_r, Rinv_ok, Z.mul_1_r by apply P_nz. reflexivity. }
  rewrite <- (H a), <- (H b), E. reflexivity.
Qed.

Lemma fv_R : forall x, (fv x * 2 ^ 512) mod P = val x mod P.
Proof.
  intros x. unfold fv. rewrite Z.mul_mod_idemp_l by apply P_nz.
  rewrite <- Z.mul_assoc, <- Z.mul_mod_idemp_r, Rinv_ok, Z.mul_1_r by apply P_nz. reflexivity.
Qed.

Lemma mrep_fv : forall x, fp_red x -> mrep x (fv x).
Proof.
  intros x H. split; [exact H|]. rewrite fv_R. symmetry. apply Z.mod_small, fp_red_bound, H.
Qed.

Lemma mrep_iff : forall x a, fp_red x -> (mrep x a <-> fv x = a mod P).
Proof.
  intros x a H. split.
  - intros [_ E]. pose proof (fv_R x) as F. rewrite (Z.mod_small (val x)) in F by apply fp_red_bound, H.
    rewrite E in F. apply R_cancel in F. rewrite (Z.mod_small (fv x)) in F by apply fv_range. exact F.
  - intros E. split; [exact H|]. pose proof (fv_R x) as F. rewrite E in F.
    rewrite Z.mul_mod_idemp_l in F by apply P_nz.
    rewrite (Z.mod_small (val x)) in F by apply fp_red_bound, H. symmetry. exact F.
Qed.

Lemma mrep_cong : forall x a b, mrep x a -> a mod P = b mod P -> mrep x b.
Proof.
  intros x a b [H E] C. split; [exact H|]. rewrite E.
  rewrite <- Z.mul_mod_idemp_l, C, Z.mul_mod_idemp_l by apply P_nz. reflexivity.
Qed.
Lemma mrep_inj : forall x a b, mrep x a -> mrep x b -> a mod P = b mod P.
Proof. intros x a b [_ E] [_ E']. apply R_cancel. congruence. Qed.
Lemma mrep_unique : forall x y a, mrep x a -> mrep y a -> x = y.
Proof.
  intros x y a [[[W L] _] E] [[[W' L'] _] E']. apply val_inj; congruence.
Qed.

Lemma mrep_add : forall x y a b, mrep x a -> mrep y b -> mrep (addRdc x y) (a + b).
Proof.
  intros x y a b [Hx Ex] [Hy Ey]. split; [apply addRdc_red; assumption|].
  destruct (addRdc_spec x y (proj1 Hx) (proj1 Hy) (proj2 Hx) (proj2 Hy)) as [_ V]. rewrite V, Ex, Ey.
  rewrite <- Z.add_mod by apply P_nz. f_equal. ring.
Qed.
Lemma mrep_sub : forall x y a b, mrep x a -> mrep y b -> mrep (subRdc x y) (a - b).
Proof.
  intros x y a b [Hx Ex] [Hy Ey]. split; [apply subRdc_red; assumption|].
  destruct (subRdc_spec x y (proj1 Hx) (proj1 Hy) (proj2 Hx) (proj2 Hy)) as [_ V]. rewrite V, Ex, Ey.
  rewrite <- Zminus_mod. f_equal. ring.
Qed.
Lemma mrep_mul : forall x y a b, mrep x a -> mrep y b -> mrep (mulRdc x y) (a * b).
Proof.
  intros x y a b [Hx Ex] [Hy Ey].
  destruct (mulRdc_spec x y (proj1 Hx) Hy) as [F V]. split; [exact F|].
  rewrite Ex, Ey, <- Z.mul_mod in V by apply P_nz.
  replace (a * 2 ^ 512 * (b * 2 ^ 512)) with (a * b * 2 ^ 512 * 2 ^ 512) in V by ring.
  apply R_cancel in V. rewrite (Z.mod_small (val _)) in V by (apply fp_red_bound; exact F). exact V.
Qed.
Lemma mrep_one : mrep one 1.
Proof. split; [split; [split; [unfold one; wlit | reflexivity] | vm_compute; reflexivity]|]. vm_compute. reflexivity. Qed.

Lemma mrep_pow16 : forall x a, mrep x a ->
  mrep (mulRdc (mulRdc (mulRdc (mulRdc x x) (mulRdc x x)) (mulRdc (mulRdc x x) (mulRdc x x)))
               (mulRdc (mulRdc (mulRdc x x) (mulRdc x x)) (mulRdc (mulRdc x x) (mulRdc x x)))) (a ^ 16).
Proof.
  intros x a H. pose proof (mrep_mul _ _ _ _ H H) as H2. pose proof (mrep_mul _ _ _ _ H2 H2) as H4.
  pose proof (mrep_mul _ _ _ _ H4 H4) as H8. pose proof (mrep_mul _ _ _ _ H8 H8) as H16.
  replace (a ^ 16) with (a * a * (a * a) * (a * a * (a * a)) * (a * a * (a * a) * (a * a * (a * a)))) by ring.
  exact H16.
Qed.

(* the window table *)
Lemma precomp_ok : forall b a, mrep b a ->
  length (precomp b) = 16%nat /\
  forall i, (i < 16)%nat -> mrep (nth i (precomp b) []) (a ^ Z.of_nat i).
Proof.
  intros b a Hb. unfold precomp.
  assert (G : forall n tab k, (1 <= k)%nat -> length tab = (2 * k)%nat ->
            (forall i, (i < length tab)%nat -> mrep (nth i tab []) (a ^ Z.of_nat i)) ->
            length (precomp_loop b n tab) = (2 * k + 2 * n)%nat /\
            forall i, (i < 2 * k + 2 * n)%nat -> mrep (nth i (precomp_loop b n tab) []) (a ^ Z.of_nat i)).
  { induction n; intros tab k Hk L H.
    - cbn [precomp_loop]. split; [lia|]. intros i Hi. apply H. lia.
    - cbn [precomp_loop]. cbv zeta.
      assert (D : (length tab / 2 = k)%nat) by (rewrite L, Nat.mul_comm; apply Nat.div_mul; lia).
      rewrite D. pose proof (H k ltac:(lia)) as Hk2.
      pose proof (mrep_mul _ _ _ _ Hk2 Hk2) as Hsq. pose proof (mrep_mul _ _ _ _ Hsq Hb) as Hsb.
      set (sq := mulRdc (nth k tab []) (nth k tab [])) in *.
      destruct (IHn (tab ++ [sq; mulRdc sq b]) (S k) ltac:(lia)) as [A1 A2].
      + rewrite app_length. cbn [length]. lia.
      + intros i Hi. rewrite app_length in Hi. cbn [length] in Hi.
        destruct (Nat.lt_ge_cases i (length tab)) as [h|h].
        * rewrite app_nth1 by exact h. apply H. exact h.
        * rewrite app_nth2 by exact h.
          assert (C : i = length tab \/ i = S (length tab)) by lia. destruct C as [-> | ->].
          -- rewrite Nat.sub_diag. cbn [nth]. rewrite L.
             replace (Z.of_nat (2 * k)) with (Z.of_nat k + Z.of_nat k) by lia.
             rewrite Z.pow_add_r by lia. exact Hsq.
          -- rewrite Nat.sub_succ_l, Nat.sub_diag by lia. cbn [nth]. rewrite L.
             replace (Z.of_nat (S (2 * k))) with (Z.of_nat k + Z.of_nat k + 1) by lia.
             rewrite !Z.pow_add_r, Z.pow_1_r by lia. exact Hsb.
      + split; [lia|]. intros i Hi. apply A2. lia. }
  destruct (G 7%nat [one; b] 1%nat ltac:(lia) eq_refl) as [A1 A2].
  - intros i Hi. cbn [length] in Hi. destruct i as [|[|i]]; [| |lia].
    + exact mrep_one.
    + cbn [nth]. change (Z.of_nat 1) with 1. rewrite Z.pow_1_r. exact Hb.
  - split; [exact A1|]. intros i Hi. apply A2. lia.
Qed.

(* the limb / nibble at a position is a digit of the value *)
Lemma nth_digit : forall e k, words e -> nth k e 0 = (val e / B ^ Z.of_nat k) mod B.
Proof.
  induction e; intros k W.
  - cbn [val]. rewrite Zdiv_0_l, Zmod_0_l. destruct k; reflexivity.
  - inversion W; subst. rewrite val_cons. destruct k.
    + cbn [nth]. change (Z.of_nat 0) with 0. rewrite Z.pow_0_r, Z.div_1_r.
      rewrite Z.mul_comm, Z_mod_plus_full. symmetry. apply Z.mod_small. assumption.
    + cbn [nth]. rewrite IHe by assumption. f_equal.
      rewrite Nat2Z.inj_succ, Z.pow_succ_r, <- Z.div_div by (try apply Z.pow_pos_nonneg; lia). f_equal.
      rewrite Z.mul_comm, Z.div_add by lia. rewrite (Z.div_small a) by assumption. reflexivity.
Qed.

Lemma nibble_ok : forall e i, words e ->
  Z.land (Z.shiftr (nth (i / 16) e 0) (Z.of_nat (i mod 16) * 4)) 15
  = (val e / 16 ^ Z.of_nat i) mod 16.
Proof.
  intros e i W. rewrite nth_digit by exact W.
  change 15 with (Z.ones 4). rewrite Z.land_ones by lia. rewrite Z.shiftr_div_pow2 by lia.
  change (2 ^ 4) with 16.
  pose proof (Nat.div_mod i 16 ltac:(lia)) as D. pose proof (Nat.mod_upper_bound i 16 ltac:(lia)) as U.
  set (q := (i / 16)%nat) in *. set (r := (i mod 16)%nat) in *.
  assert (E : 16 ^ Z.of_nat i = B ^ Z.of_nat q * 2 ^ (Z.of_nat r * 4)).
  { change 16 with (2 ^ 4). rewrite <- !Z.pow_mul_r, <- Z.pow_add_r by lia. f_equal. lia. }
  rewrite E, <- Z.div_div by (try apply Z.pow_nonzero; try apply Z.pow_pos_nonneg; lia).
  set (v := val e / B ^ Z.of_nat q).
  assert (H : B = 2 ^ (Z.of_nat r * 4) * 2 ^ (64 - Z.of_nat r * 4)).
  { rewrite <- Z.pow_add_r by lia. f_equal. lia. }
  rewrite H at 1.
  assert (p1 : 0 < 2 ^ (Z.of_nat r * 4)) by (apply Z.pow_pos_nonneg; lia).
  assert (p2 : 0 < 2 ^ (64 - Z.of_nat r * 4)) by (apply Z.pow_pos_nonneg; lia).
  rewrite Z.rem_mul_r by lia.
  rewrite (Z.mul_comm (2 ^ (Z.of_nat r * 4)) ((v / _) mod _)), Z.div_add by lia. rewrite Z.div_small by (apply Z.mod_pos_bound; lia).
  rewrite Z.add_0_l. symmetry. apply Znumtheory.Zmod_div_mod; [lia|lia|].
  exists (2 ^ (60 - Z.of_nat r * 4)). change 16 with (2 ^ 4). rewrite <- Z.pow_add_r by lia. f_equal. lia.
Qed.

Lemma modexp_loop_ok : forall b a e, mrep b a -> words e ->
  forall i r c, mrep r c ->
  mrep (modexp_loop (precomp b) e i r) (c ^ (16 ^ Z.of_nat i) * a ^ (val e mod 16 ^ Z.of_nat i)).
Proof.
  intros b a e Hb He. destruct (precomp_ok b a Hb) as [_ T].
  pose proof (proj1 (val_bound e He)) as Hv.
  induction i; intros r c Hr.
  - cbn [modexp_loop]. change (16 ^ Z.of_nat 0) with 1. rewrite Z.mod_1_r, Z.pow_1_r, Z.pow_0_r, Z.mul_1_r. exact Hr.
  - cbn [modexp_loop]. cbv zeta. rewrite nibble_ok by exact He.
    pose proof (Z.mod_pos_bound (val e / 16 ^ Z.of_nat i) 16 ltac:(lia)) as Hd.
    set (d := (val e / 16 ^ Z.of_nat i) mod 16) in *.
    pose proof (T (Z.to_nat d) ltac:(lia)) as Ht. rewrite Z2Nat.id in Ht by lia.
    pose proof (mrep_mul _ _ _ _ (mrep_pow16 r c Hr) Ht) as Hn.
    apply IHi in Hn. eapply mrep_cong; [exact Hn|]. f_equal.
    assert (p1 : 0 < 16 ^ Z.of_nat i) by (apply Z.pow_pos_nonneg; lia).
    rewrite Nat2Z.inj_succ, Z.pow_succ_r by lia.
    rewrite (Z.mul_comm 16 (16 ^ Z.of_nat i)), Z.rem_mul_r by lia. fold d.
    pose proof (Z.mod_pos_bound (val e) (16 ^ Z.of_nat i) p1).
    rewrite Z.pow_mul_l, <- !Z.pow_mul_r by lia.
    rewrite (Z.pow_add_r a) by (try apply Z.mul_nonneg_nonneg; lia).
    rewrite (Z.mul_comm 16), (Z.mul_comm d). ring.
Qed.

Lemma reduceOnce_id : forall x, fp_red x -> reduceOnce x = x.
Proof.
  intros x [H V]. destruct (reduceOnce_spec x H) as [F E].
  destruct (Z.ltb_spec (val x) P); [|lia].
  apply val_inj; [exact (proj1 F) | exact (proj1 H) | rewrite (proj2 F), (proj2 H); reflexivity | exact E].
Qed.

Lemma modExpRdcCommon_ok : forall b a e n, mrep b a -> words e ->
  mrep (modExpRdcCommon b e n) (a ^ (val e mod 16 ^ Z.of_nat (n / 4))).
Proof.
  intros b a e n Hb He. unfold modExpRdcCommon.
  pose proof (modexp_loop_ok b a e Hb He (n / 4) one 1 mrep_one) as H.
  rewrite reduceOnce_id by exact (proj1 H).
  rewrite Z.pow_1_l, Z.mul_1_l in H by (apply Z.pow_nonneg; lia). exact H.
Qed.

Lemma modExpRdc512_ok : forall b a e, mrep b a -> fp_ok e -> mrep (modExpRdc512 b e) (a ^ val e).
Proof.
  intros b a e Hb He. pose proof (modExpRdcCommon_ok b a e 512 Hb (proj1 He)) as H.
  change (16 ^ Z.of_nat (512 / 4)) with (2 ^ 512) in H.
  rewrite Z.mod_small in H by (apply fp_ok_bound; exact He). exact H.
Qed.

Lemma modExpRdc64_ok : forall b a e, mrep b a -> is_w64 e -> mrep (modExpRdc64 b e) (a ^ e).
Proof.
  intros b a e Hb He.
  assert (W : words [e; 0; 0; 0; 0; 0; 0; 0]) by (constructor; [exact He | wlit]).
  pose proof (modExpRdcCommon_ok b a _ 64 Hb W) as H.
  change (16 ^ Z.of_nat (64 / 4)) with B in H.
  replace (val [e; 0; 0; 0; 0; 0; 0; 0]) with e in H by (cbn [val]; ring).
  rewrite Z.mod_small in H by exact He. exact H.
Qed.

(* inversion: the exponent called pMin1 in consts.go is p - 2 *)
Lemma pMin1_val : val pMin1 = P - 2. Proof. vm_compute. reflexivity. Qed.
Lemma pMin1_ok : fp_ok pMin1. Proof. split; [unfold pMin1; wlit | reflexivity]. Qed.
Lemma pMin1By2_val : val pMin1By2 = (P - 1) / 2. Proof. vm_compute. reflexivity. Qed.
Lemma pMin1By2_ok : fp_ok pMin1By2. Proof. split; [unfold pMin1By2; wlit | reflexivity]. Qed.

Lemma inverse_ok : forall b a, mrep b a ->
  exists a', mrep (modExpRdc512 b pMin1) a' /\ (a mod P <> 0 -> (a' * a) mod P = 1) /\
             (a mod P = 0 -> a' mod P = 0).
Proof.
  intros b a H. exists (a ^ (P - 2)). split; [|split].
  - rewrite <- pMin1_val. apply modExpRdc512_ok; [exact H | exact pMin1_ok].
  - intros Ha. apply inverse_pow; [exact P_prime | exact P_gt2 | exact Ha].
  - intros Ha. pose proof P_gt2. rewrite <- pow_mod, Ha, Z.pow_0_l, Zmod_0_l by lia. reflexivity.
Qed.

Lemma fold_xor_one : forall x y, words x -> words y ->
  forall n k acc, is_w64 acc ->
  is_w64 (fold_left (fun b i => Z.lor b (Z.lxor (nth i x 0) (nth i y 0))) (seq k n) acc) /\
  (fold_left (fun b i => Z.lor b (Z.lxor (nth i x 0) (nth i y 0))) (seq k n) acc = 0 <->
   acc = 0 /\ forall i, (k <= i < k + n)%nat -> nth i x 0 = nth i y 0).
Proof.
  intros x y Wx Wy. induction n; intros k acc Ha.
  - cbn [seq fold_left]. split; [exact Ha|]. split; [intros ->; split; [reflexivity|intros; lia] | tauto].
  - cbn [seq fold_left].
    assert (Hl : is_w64 (Z.lxor (nth k x 0) (nth k y 0))) by (apply lxor_is_w64; apply words_nth; assumption).
    destruct (IHn (S k) (Z.lor acc (Z.lxor (nth k x 0) (nth k y 0)))) as [A1 A2]; [apply lor_is_w64; assumption|].
    split; [exact A1|]. rewrite A2. rewrite Z.lor_eq_0_iff, lxor_0_eq. split.
    + intros [[E0 Ek] Hi]. split; [exact E0|]. intros i Hi'. destruct (Nat.eq_dec i k) as [->|ne]; [exact Ek|apply Hi; lia].
    + intros [E0 Hi]. split; [split; [exact E0|apply Hi; lia]|]. intros i Hi'. apply Hi. lia.
Qed.

Lemma isNonQuadRes_eq : forall v, fp_red v ->
  isNonQuadRes v = if val (modExpRdc512 v pMin1By2) =? val one then 0 else 1.
Proof.
  intros v Hv. unfold isNonQuadRes.
  pose proof (modExpRdc512_ok v _ pMin1By2 (mrep_fv v Hv) pMin1By2_ok) as [[[W L] _] _].
  set (r := modExpRdc512 v pMin1By2) in *.
  pose proof (proj1 (proj1 (proj1 mrep_one))) as W1.
  destruct (fold_xor_one r one W W1 8%nat 0%nat 0 ltac:(unfold is_w64; lia)) as [Hw Hz].
  cbv zeta. rewrite ctIsNonZero64_ok by exact Hw.
  destruct (Z.eqb_spec (val r) (val one)) as [E|E].
  - apply val_inj in E; [| exact W | exact W1 | rewrite L; reflexivity].
    rewrite E. rewrite E in Hz. destruct Hz as [_ Hz]. rewrite Hz by (split; [reflexivity | intros; reflexivity]). reflexivity.
  - destruct (Z.eqb_spec (fold_left (fun b i => Z.lor b (Z.lxor (nth i r 0) (nth i one 0))) (seq 0 8) 0) 0) as [Z0|Z0]; [|reflexivity].
    exfalso. apply E. apply Hz in Z0. destruct Z0 as [_ Z0]. apply (f_equal val). apply (nth_ext _ _ 0 0).
    + rewrite L. reflexivity.
    + intros n Hn. apply Z0. rewrite L in Hn. lia.
Qed.

Lemma isNonQuadRes_ok : forall v a, mrep v a ->
  isNonQuadRes v = 0 <-> a mod P <> 0 /\ exists b, (b * b) mod P = a mod P.
Proof.
  intros v a H. rewrite isNonQuadRes_eq by exact (proj1 H).
  rewrite <- (euler_34 P a P_prime P_34). rewrite <- pMin1By2_val.
  pose proof (modExpRdc512_ok v a pMin1By2 H pMin1By2_ok) as Hr.
  set (r := modExpRdc512 v pMin1By2) in *. pose proof P_gt2.
  assert (one1 : 1 mod P = 1) by (apply Z.mod_small; lia).
  destruct (Z.eqb_spec (val r) (val one)) as [E|E].
  - split; [intros _ | reflexivity]. rewrite <- one1.
    apply (mrep_inj r); [exact Hr|]. split; [exact (proj1 Hr)|]. rewrite E. exact (proj2 mrep_one).
  - split; [discriminate|]. intros E1. exfalso. apply E.
    rewrite <- one1 in E1. pose proof (mrep_cong _ _ _ Hr E1) as Hr1. rewrite (proj2 Hr1). symmetry. exact (proj2 mrep_one).
Qed.
Lemma isNonQuadRes_01 : forall v, fp_red v -> isNonQuadRes v = 0 \/ isNonQuadRes v = 1.
Proof. intros v H. rewrite isNonQuadRes_eq by exact H. destruct (_ =? _); auto. Qed.
