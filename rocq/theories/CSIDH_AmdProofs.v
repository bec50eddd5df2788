(* The amd64 build of dh/csidh computes what the portable build does: field, curve, group action, API. *)
From Coq Require Import ZArith List Lia Bool.
From Verif Require Import Lib MP CSIDH_Field CSIDH_FieldProofs CSIDH_FieldProofs2 X86 X86_Call CSIDH_Asm CSIDH_AsmProofs CSIDH_AmdKern.
Import ListNotations.
Open Scope Z_scope.

Section Kern.
Variable M : amd.
Hypothesis HM : is_w64 (aBP M).

Lemma mul512A_ok k c : fp_ok k -> is_w64 c -> mul512A M k c = Some (mul512 k c).
Proof. intros Hk Hc. unfold mul512A. rewrite (proj2 (mul512_asm (aBMI2 M) k k c (aBP M) Hk Hk Hc HM)). reflexivity. Qed.
Lemma mul576A_ok t b c : words t -> length t = 9%nat -> fp_ok b -> is_w64 c -> mul576A M t b c = Some (mul576 b c).
Proof. intros Wt Lt Hb Hc. unfold mul576A. rewrite (mul576_asm (aBMI2 M) t b c (aBP M) Wt Lt Hb Hc HM). reflexivity. Qed.
Lemma cswap512A_ok x y (c : bool) : fp_ok x -> fp_ok y -> cswap512A M x y (if c then 1 else 0) = Some (if c then (y, x) else (x, y)).
Proof.
  intros Hx Hy. unfold cswap512A.
  assert (R : 0 <= (if c then 1 else 0) mod 256 <= 1) by (destruct c; cbn; lia).
  rewrite (cswap512_asm (aBMI2 M) x y (if c then 1 else 0) (aBP M) Hx Hy R). cbn [first2]. rewrite cswap512_ok; [destruct c; reflexivity|apply Hx|apply Hy|rewrite (proj2 Hx), (proj2 Hy); reflexivity|destruct c; cbn; lia].
Qed.

Lemma wrap64_w x : is_w64 (wrap64 x). Proof. unfold wrap64, is_w64. apply Z.mod_pos_bound. lia. Qed.
Lemma Add64_w x y c a d : Add64 x y c = (a, d) -> is_w64 a.
Proof. unfold Add64. intro E. injection E as <- _. apply wrap64_w. Qed.
Lemma sums_w t1 t2 s c u v d : sumsA t1 t2 s c = (u, v, d) -> words u /\ length u = 9%nat.
Proof.
  intro E. unfold sumsA in E.
  repeat match type of E with context [let (_, _) := Add64 ?x ?y ?c in _] => let a := fresh in let b := fresh in let K := fresh in destruct (Add64 x y c) as [a b] eqn:K; apply Add64_w in K end.
  injection E as E _ _. rewrite <- E. split; [|reflexivity]. repeat (apply Forall_cons; [assumption|]). apply Forall_nil.
Qed.
Ltac pairs := repeat match goal with |- context [let (_, _) := Add64 ?x ?y ?c in _] => let a := fresh in let b := fresh in destruct (Add64 x y c) as [a b] end.
Definition qOf (y s : list Z) (xi : Z) : Z := mul64w (add64w (mul64w xi y.[0]) s.[0]) pNegInv.[0].
Lemma sums_body y s xi : mul_body y s xi = let '(u, v, c) := sumsA (mul576 p (qOf y s xi)) (mul576 y xi) s 0 in (v, c).
Proof. unfold mul_body, sumsA, qOf. cbv zeta. set (t1 := mul576 p _). set (t2 := mul576 y xi). clearbody t1 t2. pairs. reflexivity. Qed.
Lemma sums_last y s xi c : mul_last y s xi c = let '(u, v, _) := sumsA (mul576 p (qOf y s xi)) (mul576 y xi) s c in v.
Proof. unfold mul_last, sumsA, qOf. cbv zeta. set (t1 := mul576 p _). set (t2 := mul576 y xi). clearbody t1 t2. pairs. reflexivity. Qed.
Lemma qOf_w y s xi : is_w64 (qOf y s xi). Proof. unfold qOf, mul64w. apply wrap64_w. Qed.
Lemma iterA_ok y xi t1 t2 s c : fp_ok y -> is_w64 xi -> words t1 -> length t1 = 9%nat -> words t2 -> length t2 = 9%nat ->
  exists u t2' v d, iterA M y xi t1 t2 s c = Some (u, t2', v, d) /\ words u /\ length u = 9%nat /\ words t2' /\ length t2' = 9%nat /\
    sumsA (mul576 p (qOf y s xi)) (mul576 y xi) s c = (u, v, d).
Proof.
  intros Hy Hx W1 L1 W2 L2. unfold iterA. cbv zeta. fold (qOf y s xi).
  rewrite (mul576A_ok t1 p _ W1 L1 p_ok (qOf_w y s xi)). cbn [ob]. rewrite (mul576A_ok t2 y xi W2 L2 Hy Hx). cbn [ob].
  destruct (sumsA (mul576 p (qOf y s xi)) (mul576 y xi) s c) as [[u v] d] eqn:E. destruct (sums_w _ _ _ _ _ _ _ E) as [Wu Lu].
  destruct (mul576_spec y xi Hy Hx) as (Wm & Lm & _). exists u, (mul576 y xi), v, d. repeat split; assumption.
Qed.
Lemma nth_w x i : fp_ok x -> is_w64 (nth i x 0).
Proof.
  intros [W L]. destruct (Nat.lt_ge_cases i (length x)) as [h|h].
  - unfold words in W. rewrite Forall_forall in W. apply W, nth_In, h.
  - rewrite nth_overflow by exact h. unfold is_w64. lia.
Qed.
Lemma itersA_ok x y (f : list Z * Z -> nat -> list Z * Z) : fp_ok x -> fp_ok y ->
  (forall s c i u v d, sumsA (mul576 p (qOf y s (nth i x 0))) (mul576 y (nth i x 0)) s 0 = (u, v, d) -> f (s, c) i = (v, d)) ->
  forall is t1 t2 s c, words t1 -> length t1 = 9%nat -> words t2 -> length t2 = 9%nat ->
  exists u1 u2, itersA M x y is (t1, t2, s, c) = Some (u1, u2, fst (fold_left f is (s, c)), snd (fold_left f is (s, c))) /\
    words u1 /\ length u1 = 9%nat /\ words u2 /\ length u2 = 9%nat.
Proof.
  intros Hx Hy Hf. induction is as [|i is IH]; intros t1 t2 s c W1 L1 W2 L2.
  - exists t1, t2. cbn [itersA fold_left fst snd]. repeat split; assumption.
  - destruct (iterA_ok y (nth i x 0) t1 t2 s 0 Hy (nth_w x i Hx) W1 L1 W2 L2) as (u & t2' & v & d & E & Wu & Lu & Wt & Lt & ES).
    destruct (IH u t2' v d Wu Lu Wt Lt) as (u1 & u2 & E2 & R). exists u1, u2. split; [|exact R].
    cbn [itersA fold_left]. rewrite (Hf s c i u v d ES), E. exact E2.
Qed.
Lemma body_step x y s (c : Z) i u v d : sumsA (mul576 p (qOf y s (nth i x 0))) (mul576 y (nth i x 0)) s 0 = (u, v, d) -> mul_body y (fst (s, c)) (nth i x 0) = (v, d).
Proof. intro E. cbn [fst]. rewrite sums_body, E. reflexivity. Qed.
Lemma words_zeros n : words (repeat 0 n). Proof. apply words_repeat_0. Qed.
Lemma mulGenericA_ok x y : fp_ok x -> fp_ok y -> mulGenericA M x y = Some (mulGeneric x y).
Proof.
  intros Hx Hy. unfold mulGenericA, mulGeneric.
  destruct (itersA_ok x y (fun sc i => mul_body y (fst sc) (nth i x 0)) Hx Hy (body_step x y) (seq 0 (numWords - 1)) (repeat 0 9) (repeat 0 9) (repeat 0 8) 0 (words_zeros 9) eq_refl (words_zeros 9) eq_refl)
    as (u1 & u2 & E & W1 & L1 & W2 & L2).
  rewrite E. clear E. destruct (fold_left _ _ _) as [s c]. cbn [fst snd ob].
  destruct (iterA_ok y (nth (numWords - 1) x 0) u1 u2 s c Hy (nth_w x _ Hx) W1 L1 W2 L2) as (u & t2' & v & d & E2 & _ & _ & _ & _ & ES).
  rewrite E2. cbn [ob]. rewrite sums_last, ES. reflexivity.
Qed.

Lemma mulRdcA_ok d a b m : fp_ok (m d) -> fp_ok (m a) -> fp_ok (m b) -> val (m b) <= P -> mulRdcA M d a b m = Some (mulRdc (m a) (m b)).
Proof.
  intros Hd Ha Hb Vb. unfold mulRdcA. destruct (fast M); [|rewrite mulGenericA_ok by assumption; reflexivity].
  unfold pat.
  assert (T : forall i j k n bl, In (i, j, k, n) aliasings -> Forall fp_ok bl -> length bl = n -> nth j bl [] = m a -> nth k bl [] = m b -> i = 0%nat -> (0 < n)%nat ->
    ob (first1 (call 1 mulBmiAsm [Pt (S i) 0; Pt (S j) 0; Pt (S k) 0] bl (csGlob (aBMI2 M)) (aBP M))) (fun r => Some (reduceOnce r)) = Some (mulRdc (m a) (m b))).
  { intros i j k n bl Hin Hbl Ln Ej Ek -> Hn. rewrite (mulBmi_asm (aBMI2 M) 0 j k n Hin bl (aBP M) (m a) (m b) Hbl Ln HM Ej Ek Vb).
    unfold setl. cbn [firstn app first1 ob]. reflexivity. }
  destruct (Nat.eqb_spec a d) as [->|Na]; [destruct (Nat.eqb_spec b d) as [->|Nb]|destruct (Nat.eqb_spec b d) as [->|Nb]; [|destruct (Nat.eqb_spec a b) as [->|Nab]]].
  - apply (T 0%nat 0%nat 0%nat 1%nat [m d]); [unfold aliasings; cbn [In]; tauto|repeat (apply Forall_cons; [assumption|]); apply Forall_nil|reflexivity|reflexivity|reflexivity|reflexivity|lia].
  - apply (T 0%nat 0%nat 1%nat 2%nat [m d; m b]); [unfold aliasings; cbn [In]; tauto|repeat (apply Forall_cons; [assumption|]); apply Forall_nil|reflexivity|reflexivity|reflexivity|reflexivity|lia].
  - apply (T 0%nat 1%nat 0%nat 2%nat [m d; m a]); [unfold aliasings; cbn [In]; tauto|repeat (apply Forall_cons; [assumption|]); apply Forall_nil|reflexivity|reflexivity|reflexivity|reflexivity|lia].
  - apply (T 0%nat 1%nat 1%nat 2%nat [m d; m b]); [unfold aliasings; cbn [In]; tauto|repeat (apply Forall_cons; [assumption|]); apply Forall_nil|reflexivity|reflexivity|reflexivity|reflexivity|lia].
  - apply (T 0%nat 1%nat 2%nat 3%nat [m d; m a; m b]); [unfold aliasings; cbn [In]; tauto|repeat (apply Forall_cons; [assumption|]); apply Forall_nil|reflexivity|reflexivity|reflexivity|reflexivity|lia].
Qed.
Lemma red_mul x y : fp_red x -> fp_red y -> fp_red (mulRdc x y).
Proof. intros Hx Hy. exact (proj1 (mrep_mul _ _ _ _ (mrep_fv _ Hx) (mrep_fv _ Hy))). Qed.
Lemma zero_ok : fp_ok (repeat 0 8). Proof. split; [apply words_zeros|reflexivity]. Qed.
Lemma mulL_ok d a b l : fp_ok (nth d l []) -> fp_red (nth a l []) -> fp_red (nth b l []) -> mulL M d a b l = Some (mulRdc (nth a l []) (nth b l [])).
Proof. intros Hd [Ha _] [Hb Vb]. unfold mulL. apply (mulRdcA_ok d a b (fun i => nth i l [])); try assumption. lia. Qed.
Lemma sqrA_ok r : fp_red r -> sqrA M r = Some (mulRdc r r).
Proof. intro H. unfold sqrA. apply (mulL_ok 0 0 0 [r]); try exact H. apply H. Qed.
Lemma precompA_ok b : fp_red b -> forall n tab, (2 <= length tab)%nat -> Forall fp_red tab ->
  precompA M b n tab = Some (precomp_loop b n tab) /\ Forall fp_red (precomp_loop b n tab).
Proof.
  intros Hb. induction n as [|n IH]; intros tab L H; [split; [reflexivity|exact H]|]. cbn [precompA precomp_loop]. cbv zeta.
  assert (Hk : fp_red (nth (length tab / 2) tab [])).
  { rewrite Forall_forall in H. apply H, nth_In. apply Nat.div_lt; lia. }
  rewrite (mulL_ok 0 1 1 [repeat 0 8; nth (length tab / 2) tab []] zero_ok Hk Hk). cbn [ob nth].
  pose proof (red_mul _ _ Hk Hk) as Hs. set (sq := mulRdc _ _) in *.
  rewrite (mulL_ok 0 1 2 [repeat 0 8; sq; b] zero_ok Hs Hb). cbn [ob nth].
  apply IH; [rewrite app_length; cbn [length]; lia|]. apply Forall_app. split; [exact H|]. apply Forall_cons; [exact Hs|apply Forall_cons; [apply (red_mul _ _ Hs Hb)|apply Forall_nil]].
Qed.
Lemma precomp_loop_len b n : forall tab, length (precomp_loop b n tab) = (length tab + 2 * n)%nat.
Proof. induction n as [|n IH]; intro tab; cbn [precomp_loop]; [lia|]. cbv zeta. rewrite IH, app_length. cbn [length]. lia. Qed.
Lemma idx_lt x : (Z.to_nat (Z.land x 15) < 16)%nat.
Proof. change 15 with (Z.ones 4). rewrite Z.land_ones by lia. pose proof (Z.mod_pos_bound x (2 ^ 4) ltac:(lia)). lia. Qed.
Lemma modexpA_ok tab e : Forall fp_red tab -> length tab = 16%nat -> forall i r, fp_red r ->
  modexpA M tab e i r = Some (modexp_loop tab e i r) /\ fp_red (modexp_loop tab e i r).
Proof.
  intros Ht Lt. induction i as [|i IH]; intros r Hr; [split; [reflexivity|exact Hr]|]. cbn [modexpA modexp_loop]. cbv zeta.
  rewrite (sqrA_ok r Hr). cbn [ob]. pose proof (red_mul _ _ Hr Hr) as H1. rewrite (sqrA_ok _ H1). cbn [ob]. pose proof (red_mul _ _ H1 H1) as H2.
  rewrite (sqrA_ok _ H2). cbn [ob]. pose proof (red_mul _ _ H2 H2) as H3. rewrite (sqrA_ok _ H3). cbn [ob]. pose proof (red_mul _ _ H3 H3) as H4.
  clear H1 H2 H3. remember (mulRdc (mulRdc (mulRdc (mulRdc r r) (mulRdc r r)) (mulRdc (mulRdc r r) (mulRdc r r))) (mulRdc (mulRdc (mulRdc r r) (mulRdc r r)) (mulRdc (mulRdc r r) (mulRdc r r)))) as r4 eqn:Er4. clear Er4. set (x := Z.shiftr _ _).
  assert (Hi : fp_red (nth (Z.to_nat (Z.land x 15)) tab [])).
  { rewrite Forall_forall in Ht. apply Ht, nth_In. rewrite Lt. apply idx_lt. }
  rewrite (mulL_ok 0 0 1 [r4; nth (Z.to_nat (Z.land x 15)) tab []] (proj1 H4) H4 Hi). cbn [ob nth].
  apply IH, red_mul; assumption.
Qed.
Lemma one_red : fp_red one. Proof. exact (proj1 mrep_one). Qed.
Lemma modExpA_ok b e n : fp_red b -> modExpA M b e n = Some (modExpRdcCommon b e n) /\ fp_red (modExpRdcCommon b e n).
Proof.
  intro Hb. unfold modExpA, modExpRdcCommon, precomp.
  destruct (precompA_ok b Hb 7 [one; b] ltac:(cbn; lia)) as [E F]; [apply Forall_cons; [exact one_red|apply Forall_cons; [exact Hb|apply Forall_nil]]|]. rewrite E. cbn [ob].
  destruct (modexpA_ok _ e F (precomp_loop_len b 7 [one; b]) (n / 4) one one_red) as [E2 F2]. rewrite E2. cbn [ob]. rewrite (reduceOnce_id _ F2). split; [reflexivity|exact F2].
Qed.
Lemma isNonQuadResA_ok v : fp_red v -> isNonQuadResA M v = Some (isNonQuadRes v).
Proof.
  intro Hv. unfold isNonQuadResA, modExp512A. rewrite (proj1 (modExpA_ok v pMin1By2 512 Hv)). unfold isNonQuadRes, modExpRdc512.
  generalize (modExpRdcCommon v pMin1By2 512). intro r. cbn [ob]. cbv zeta. reflexivity.
Qed.
End Kern.
