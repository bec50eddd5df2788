(* Proofs about the CSIDH field layer. *)
From Coq Require Import ZArith List Lia Bool Znumtheory.
From Verif Require Import Lib MP CSIDH_Field.
Import ListNotations.
Open Scope Z_scope.

Definition fp_ok (x : list Z) : Prop := words x /\ length x = 8%nat.

Lemma fp_ok_ex : forall x, fp_ok x -> exists x0 x1 x2 x3 x4 x5 x6 x7,
  x = [x0; x1; x2; x3; x4; x5; x6; x7] /\
  is_w64 x0 /\ is_w64 x1 /\ is_w64 x2 /\ is_w64 x3 /\ is_w64 x4 /\ is_w64 x5 /\ is_w64 x6 /\ is_w64 x7.
Proof.
  intros x [W L]. do 8 (destruct x as [|? x]; [discriminate|]). destruct x; [|discriminate].
  repeat match goal with H : words (_ :: _) |- _ => inversion H; clear H; subst
                       | H : Forall is_w64 (_ :: _) |- _ => inversion H; clear H; subst end.
  do 8 eexists. split; [reflexivity|]. tauto.
Qed.

Ltac wsplit := unfold words; repeat (apply Forall_cons; [assumption|]); apply Forall_nil.

(* ---------- select ---------- *)
Lemma ctPick64_1 : forall a b, is_w64 a -> ctPick64 (B - 1) a b = a.
Proof.
  intros. unfold ctPick64. rewrite land_ones64 by assumption.
  change (not64 (B - 1)) with 0. rewrite Z.land_0_r, Z.lor_0_r. reflexivity.
Qed.
Lemma ctPick64_0 : forall a b, is_w64 b -> ctPick64 0 a b = b.
Proof.
  intros. unfold ctPick64. change (not64 0) with (B - 1). rewrite land_ones64 by assumption.
  rewrite Z.land_0_r. reflexivity.
Qed.

Lemma ctIsNonZero64_ok : forall i, is_w64 i -> ctIsNonZero64 i = if i =? 0 then 0 else 1.
Proof.
  intros i Hi. unfold ctIsNonZero64. destruct (Z.eqb_spec i 0) as [->|N]; [reflexivity|].
  unfold is_w64 in Hi.
  assert (E : sub64w i 1 = i - 1) by (apply Z.mod_small; lia). rewrite E.
  unfold not64. replace (B - 1 - (i - 1)) with (B - i) by lia.
  rewrite Z.shiftr_lor, !Z.shiftr_div_pow2 by lia.
  destruct (Z_lt_le_dec i (2 ^ 63)) as [C|C].
  - replace (i / 2 ^ 63) with 0 by (symmetry; apply Z.div_small; lia).
    replace ((B - i) / 2 ^ 63) with 1; [reflexivity|].
    apply Z.div_unique with (r := B - i - 2 ^ 63); lia.
  - replace (i / 2 ^ 63) with 1 by (apply Z.div_unique with (r := i - 2 ^ 63); lia).
    destruct (Z.eq_dec i (2 ^ 63)) as [->|D]; [reflexivity|].
    replace ((B - i) / 2 ^ 63) with 0; [reflexivity|].
    symmetry; apply Z.div_small; lia.
Qed.

(* ---------- multiplication by a word ---------- *)
Lemma mac : forall a x c h l r k, is_w64 a -> is_w64 x -> is_w64 c ->
  Mul64 a x = (h, l) -> Add64 l c 0 = (r, k) ->
  r + B * add64w h k = a * x + c /\ is_w64 r /\ is_w64 (add64w h k) /\ add64w h k = h + k.
Proof.
  intros a x c h l r k Ha Hx Hc E1 E2.
  apply Mul64_spec in E1; auto. destruct E1 as (M1 & M2 & M3).
  apply Add64_spec in E2; auto; try lia. destruct E2 as (A1 & A2 & A3).
  assert (h + k < B) by lia.
  assert (E : add64w h k = h + k) by (apply Z.mod_small; lia).
  rewrite E. unfold is_w64 in *. repeat split; try lia.
Qed.

Ltac step_mac H :=
  match goal with
  | |- context [Mul64 ?a ?x] =>
      let h := fresh "h" in let l := fresh "l" in let E1 := fresh "E" in
      destruct (Mul64 a x) as [h l] eqn:E1;
      match goal with
      | |- context [Add64 l ?c 0] =>
          let r := fresh "r" in let k := fresh "k" in let E2 := fresh "E" in
          destruct (Add64 l c 0) as [r k] eqn:E2;
          pose proof (mac a x c h l r k ltac:(assumption) ltac:(assumption) ltac:(assumption) E1 E2) as H;
          destruct H as (H & ? & ? & ?)
      end
  end.

Lemma mul576_spec : forall m1 m2, fp_ok m1 -> is_w64 m2 ->
  words (mul576 m1 m2) /\ length (mul576 m1 m2) = 9%nat /\ val (mul576 m1 m2) = val m1 * m2.
Proof.
  intros m1 m2 H1 H2. apply fp_ok_ex in H1.
  destruct H1 as (x0 & x1 & x2 & x3 & x4 & x5 & x6 & x7 & -> & ? & ? & ? & ? & ? & ? & ? & ?).
  unfold mul576. cbn [nth].
  destruct (Mul64 m2 x0) as [c r0] eqn:E0. apply Mul64_spec in E0; auto. destruct E0 as (E0 & ? & ?).
  assert (is_w64 c) by (unfold is_w64; lia).
  step_mac F1. step_mac F2. step_mac F3. step_mac F4. step_mac F5. step_mac F6. step_mac F7.
  assert (G : Add64 h5 k5 0 = (add64w h5 k5, 0)).
  { unfold Add64. f_equal. { unfold add64w. f_equal. lia. }
    apply Z.div_small. unfold is_w64 in *. lia. }
  rewrite G.
  assert (G2 : add64w (add64w h5 k5) 0 = add64w h5 k5).
  { unfold add64w at 1. rewrite Z.add_0_r. apply wrap64_id. assumption. }
  rewrite G2.
  split; [wsplit|]. split; [reflexivity|].
  cbn [val]. lia.
Qed.

Lemma mul512_spec : forall m1 m2, fp_ok m1 -> is_w64 m2 ->
  fp_ok (mul512 m1 m2) /\ val (mul512 m1 m2) = (val m1 * m2) mod 2 ^ 512.
Proof.
  intros m1 m2 H1 H2. apply fp_ok_ex in H1.
  destruct H1 as (x0 & x1 & x2 & x3 & x4 & x5 & x6 & x7 & -> & ? & ? & ? & ? & ? & ? & ? & ?).
  unfold mul512. cbn [nth].
  destruct (Mul64 m2 x0) as [c r0] eqn:E0. apply Mul64_spec in E0; auto. destruct E0 as (E0 & ? & ?).
  assert (is_w64 c) by (unfold is_w64; lia).
  step_mac F1. step_mac F2. step_mac F3. step_mac F4. step_mac F5. step_mac F6. step_mac F7.
  assert (W : words [r0; r; r1; r2; r3; r4; r5; r6]) by wsplit.
  split; [split; [exact W | reflexivity]|].
  pose proof (val_bound _ W) as V. change (B ^ Z.of_nat (length _)) with (2 ^ 512) in V.
  apply Z.mod_unique_pos with (q := add64w h5 k5); [exact V|].
  cbn [val]. lia.
Qed.

(* ---------- constants ---------- *)
Definition P : Z := val p.
Lemma p_ok : fp_ok p.
Proof. split; [|reflexivity]. unfold p, words. repeat (apply Forall_cons; [unfold is_w64; lia|]). apply Forall_nil. Qed.
Lemma P_lt : 0 < P < 2 ^ 511. Proof. unfold P. vm_compute. split; reflexivity. Qed.

Lemma fp_ok_bound : forall x, fp_ok x -> 0 <= val x < 2 ^ 512.
Proof. intros x [W L]. pose proof (val_bound x W) as V. rewrite L in V. exact V. Qed.

(* ---------- conditional subtraction ---------- *)
Definition pick_list (w : Z) (a b : list Z) : list Z :=
  map (fun ab => ctPick64 w (fst ab) (snd ab)) (combine a b).

Lemma pick_list_1 : forall a b, words a -> length a = length b -> pick_list (B - 1) a b = a.
Proof.
  unfold pick_list. induction a; intros [|y b] W L; try discriminate; [reflexivity|].
  inversion W; subst. injection L as L. cbn [combine map fst snd].
  rewrite ctPick64_1 by assumption. f_equal. apply IHa; assumption.
Qed.
Lemma pick_list_0 : forall a b, words b -> length a = length b -> pick_list 0 a b = b.
Proof.
  unfold pick_list. induction a; intros [|y b] W L; try discriminate; [reflexivity|].
  inversion W; subst. injection L as L. cbn [combine map fst snd].
  rewrite ctPick64_0 by assumption. f_equal. apply IHa; assumption.
Qed.

Lemma reduceOnce_chain : forall r, fp_ok r ->
  reduceOnce r = pick_list (sub64w 0 (snd (subb r p 0))) r (fst (subb r p 0)).
Proof.
  intros r H. apply fp_ok_ex in H.
  destruct H as (x0 & x1 & x2 & x3 & x4 & x5 & x6 & x7 & -> & _). reflexivity.
Qed.

Lemma reduceOnce_spec : forall r, fp_ok r ->
  fp_ok (reduceOnce r) /\ val (reduceOnce r) = if val r <? P then val r else val r - P.
Proof.
  intros r H. rewrite reduceOnce_chain by assumption.
  destruct (subb r p 0) as [t c] eqn:E. cbn [fst snd].
  pose proof H as [W L]. pose proof p_ok as [Wp Lp].
  apply subb_spec in E; [| assumption | assumption | congruence | lia].
  destruct E as (E & Wt & Lt & Hc). rewrite L in E. change (B ^ Z.of_nat 8) with (2 ^ 512) in E.
  pose proof (fp_ok_bound r H). assert (Ht : fp_ok t) by (split; congruence).
  pose proof (fp_ok_bound t Ht). fold P in E. pose proof P_lt.
  destruct (mask_cases c Hc) as [[-> ->]|[-> ->]].
  - rewrite pick_list_0 by (auto; congruence). split; [assumption|].
    destruct (Z.ltb_spec (val r) P); lia.
  - rewrite pick_list_1 by (auto; congruence). split; [assumption|].
    destruct (Z.ltb_spec (val r) P); lia.
Qed.

(* ---------- addition, subtraction ---------- *)
Lemma addRdc_chain : forall x y, fp_ok x -> fp_ok y -> addRdc x y = reduceOnce (fst (addc x y 0)).
Proof.
  intros x y H H'. apply fp_ok_ex in H, H'.
  destruct H as (x0 & x1 & x2 & x3 & x4 & x5 & x6 & x7 & -> & _).
  destruct H' as (y0 & y1 & y2 & y3 & y4 & y5 & y6 & y7 & -> & _). reflexivity.
Qed.

Lemma addRdc_spec : forall x y, fp_ok x -> fp_ok y -> val x < P -> val y < P ->
  fp_ok (addRdc x y) /\ val (addRdc x y) = (val x + val y) mod P.
Proof.
  intros x y Hx Hy Bx By. rewrite addRdc_chain by assumption.
  destruct (addc x y 0) as [t c] eqn:E. cbn [fst].
  pose proof Hx as [Wx Lx]. pose proof Hy as [Wy Ly].
  apply addc_spec in E; [| assumption | assumption | congruence | lia].
  destruct E as (E & Wt & Lt & Hc). rewrite Lx in E. change (B ^ Z.of_nat 8) with (2 ^ 512) in E.
  assert (Ht : fp_ok t) by (split; congruence).
  pose proof (fp_ok_bound t Ht). pose proof (fp_ok_bound x Hx). pose proof (fp_ok_bound y Hy).
  pose proof P_lt.
  destruct (reduceOnce_spec t Ht) as [F V]. split; [exact F|]. rewrite V.
  assert (val t = val x + val y) by lia.
  destruct (Z.ltb_spec (val t) P).
  - rewrite Z.mod_small; lia.
  - apply Z.mod_unique with (q := 1); lia.
Qed.

Lemma sub512_chain : forall x y, fp_ok x -> fp_ok y -> sub512 x y = subb x y 0.
Proof.
  intros x y H H'. apply fp_ok_ex in H, H'.
  destruct H as (x0 & x1 & x2 & x3 & x4 & x5 & x6 & x7 & -> & _).
  destruct H' as (y0 & y1 & y2 & y3 & y4 & y5 & y6 & y7 & -> & _). reflexivity.
Qed.

Lemma sub512_spec : forall x y, fp_ok x -> fp_ok y ->
  fp_ok (fst (sub512 x y)) /\ val (fst (sub512 x y)) = (val x - val y) mod 2 ^ 512 /\
  snd (sub512 x y) = if val x <? val y then 1 else 0.
Proof.
  intros x y Hx Hy. rewrite sub512_chain by assumption.
  destruct (subb x y 0) as [t c] eqn:E. cbn [fst snd].
  pose proof Hx as [Wx Lx]. pose proof Hy as [Wy Ly].
  apply subb_spec in E; [| assumption | assumption | congruence | lia].
  destruct E as (E & Wt & Lt & Hc). rewrite Lx in E. change (B ^ Z.of_nat 8) with (2 ^ 512) in E.
  assert (Ht : fp_ok t) by (split; congruence).
  pose proof (fp_ok_bound t Ht). pose proof (fp_ok_bound x Hx). pose proof (fp_ok_bound y Hy).
  split; [assumption|]. split.
  - apply Z.mod_unique with (q := - c); lia.
  - destruct (Z.ltb_spec (val x) (val y)); lia.
Qed.

Lemma subRdc_chain : forall x y, fp_ok x -> fp_ok y ->
  subRdc x y = fst (addc (fst (subb x y 0))
                         (pick_list (sub64w 0 (snd (subb x y 0))) p (repeat 0 8)) 0).
Proof.
  intros x y H H'. apply fp_ok_ex in H, H'.
  destruct H as (x0 & x1 & x2 & x3 & x4 & x5 & x6 & x7 & -> & _).
  destruct H' as (y0 & y1 & y2 & y3 & y4 & y5 & y6 & y7 & -> & _). reflexivity.
Qed.

Lemma subRdc_spec : forall x y, fp_ok x -> fp_ok y -> val x < P -> val y < P ->
  fp_ok (subRdc x y) /\ val (subRdc x y) = (val x - val y) mod P.
Proof.
  intros x y Hx Hy Bx By. rewrite subRdc_chain by assumption.
  destruct (subb x y 0) as [t c] eqn:E. cbn [fst snd].
  pose proof Hx as [Wx Lx]. pose proof Hy as [Wy Ly]. pose proof p_ok as [Wp Lp].
  apply subb_spec in E; [| assumption | assumption | congruence | lia].
  destruct E as (E & Wt & Lt & Hc). rewrite Lx in E. change (B ^ Z.of_nat 8) with (2 ^ 512) in E.
  assert (Ht : fp_ok t) by (split; congruence).
  pose proof (fp_ok_bound t Ht). pose proof (fp_ok_bound x Hx). pose proof (fp_ok_bound y Hy).
  pose proof P_lt.
  assert (Q : exists q, pick_list (sub64w 0 c) p (repeat 0 8) = q /\ fp_ok q /\ val q = P * c).
  { destruct (mask_cases c Hc) as [[-> ->]|[-> ->]].
    - rewrite pick_list_0 by (try apply words_repeat_0; auto). eexists; split; [reflexivity|].
      split; [split; [apply words_repeat_0|reflexivity]|]. rewrite Z.mul_0_r. reflexivity.
    - rewrite pick_list_1 by (auto). eexists; split; [reflexivity|].
      split; [exact p_ok|]. unfold P. lia. }
  destruct Q as (q & -> & Hq & Vq).
  destruct (addc t q 0) as [z k] eqn:E2. cbn [fst].
  pose proof Hq as [Wq Lq].
  apply addc_spec in E2; [| assumption | assumption | congruence | lia].
  destruct E2 as (E2 & Wz & Lz & Hk). rewrite Lt, Lx in E2. change (B ^ Z.of_nat 8) with (2 ^ 512) in E2.
  assert (Hz : fp_ok z) by (split; congruence). pose proof (fp_ok_bound z Hz).
  split; [assumption|].
  assert (C : c = 0 \/ c = 1) by lia. destruct C as [-> | ->].
  - rewrite Z.mod_small; lia.
  - apply Z.mod_unique with (q := -1); lia.
Qed.

(* ---------- Montgomery multiplication ---------- *)
Definition mq (y s : list Z) (xi : Z) : Z :=
  mul64w (add64w (mul64w xi y.[0]) s.[0]) pNegInv.[0].

Tactic Notation "dlist" ident(l) ident(L) integer(n) :=
  do n (destruct l as [|? l]; [discriminate L|]); destruct l; [|discriminate L]; clear L.

Lemma mul_body_chain : forall y s xi t1 t2,
  mul576 p (mq y s xi) = t1 -> mul576 y xi = t2 ->
  length t1 = 9%nat -> length t2 = 9%nat -> length s = 8%nat ->
  mul_body y s xi =
    (tl (fst (addc (fst (addc t1 t2 0)) (s ++ [0]) 0)),
     snd (addc (firstn 8 (fst (addc t1 t2 0))) s 0)).
Proof.
  intros y s xi t1 t2 E1 E2 L1 L2 L3. unfold mul_body. cbv zeta. fold (mq y s xi).
  rewrite E1, E2. clear E1 E2.
  dlist t1 L1 9. dlist t2 L2 9. dlist s L3 8. reflexivity.
Qed.

Lemma mul_last_chain : forall y s xi c t1 t2,
  mul576 p (mq y s xi) = t1 -> mul576 y xi = t2 ->
  length t1 = 9%nat -> length t2 = 9%nat -> length s = 8%nat ->
  mul_last y s xi c = tl (fst (addc (fst (addc t1 t2 c)) (s ++ [0]) 0)).
Proof.
  intros y s xi c t1 t2 E1 E2 L1 L2 L3. unfold mul_last. cbv zeta. fold (mq y s xi).
  rewrite E1, E2. clear E1 E2.
  dlist t1 L1 9. dlist t2 L2 9. dlist s L3 8. reflexivity.
Qed.

Lemma mq_word : forall y s xi, is_w64 (mq y s xi).
Proof. intros. apply wrap64_w. Qed.

Lemma fp_ok_low : forall x, fp_ok x -> exists h, val x = x.[0] + B * h.
Proof.
  intros x H. apply fp_ok_ex in H.
  destruct H as (x0 & x1 & x2 & x3 & x4 & x5 & x6 & x7 & -> & _).
  exists (val [x1; x2; x3; x4; x5; x6; x7]). reflexivity.
Qed.

Lemma ninv_ok : exists k, p.[0] * pNegInv.[0] + 1 = B * k.
Proof. exists ((p.[0] * pNegInv.[0] + 1) / B). vm_compute. reflexivity. Qed.

Lemma mod_witness : forall a b, 0 < b -> exists k, a mod b = a - b * k.
Proof. intros. exists (a / b). pose proof (Z.div_mod a b). lia. Qed.

Lemma mq_low : forall y s xi, fp_ok y -> fp_ok s ->
  exists k, mq y s xi * P + xi * val y + val s = B * k.
Proof.
  intros y s xi Hy Hs.
  destruct (fp_ok_low y Hy) as [hy Ey]. destruct (fp_ok_low s Hs) as [hs Es].
  destruct (fp_ok_low p p_ok) as [hp Ep]. destruct ninv_ok as [kn En]. fold P in Ep.
  unfold mq, mul64w, add64w, wrap64.
  set (y0 := y.[0]) in *. set (s0 := s.[0]) in *. set (p0 := p.[0]) in *. set (n0 := pNegInv.[0]) in *.
  destruct (mod_witness (xi * y0) B B_pos) as [k1 ->].
  destruct (mod_witness (xi * y0 - B * k1 + s0) B B_pos) as [k2 ->].
  destruct (mod_witness ((xi * y0 - B * k1 + s0 - B * k2) * n0) B B_pos) as [k3 ->].
  rewrite Ey, Es, Ep.
  exists ((xi * y0 + s0) * kn - (k1 + k2) * n0 * p0 - k3 * p0
          + ((xi * y0 - B * k1 + s0 - B * k2) * n0 - B * k3) * hp + xi * hy + hs).
  replace (((xi * y0 - B * k1 + s0 - B * k2) * n0 - B * k3) * (p0 + B * hp))
    with ((xi * y0 + s0) * (p0 * n0 + 1) - (xi * y0 + s0) - B * (k1 + k2) * n0 * p0 - B * k3 * p0
          + ((xi * y0 - B * k1 + s0 - B * k2) * n0 - B * k3) * (B * hp)) by ring.
  rewrite En. ring.
Qed.

Lemma mont_step : forall y s xi c t1 t2 w, fp_ok y -> val y <= P -> fp_ok s -> val s < P + val y ->
  is_w64 xi -> 0 <= c <= 1 ->
  mul576 p (mq y s xi) = t1 -> mul576 y xi = t2 ->
  w = fst (addc (fst (addc t1 t2 c)) (s ++ [0]) 0) ->
  length t1 = 9%nat /\ length t2 = 9%nat /\
  fp_ok (tl w) /\ val (tl w) < P + val y /\
  val (tl w) * B = mq y s xi * P + xi * val y + val s.
Proof.
  intros y s xi c t1 t2 w Hy By Hs Bs Hxi Hc E1 E2 Ew.
  pose proof (mq_word y s xi) as Hq. pose proof (mq_low y s xi Hy Hs) as [k Hk].
  destruct (mul576_spec p _ p_ok Hq) as (W1 & L1 & V1).
  destruct (mul576_spec y xi Hy Hxi) as (W2 & L2 & V2).
  rewrite E1 in *. rewrite E2 in *. clear E1 E2. fold P in V1.
  set (q := mq y s xi) in *. clearbody q.
  split; [assumption|]. split; [assumption|].
  destruct (addc t1 t2 c) as [u cu] eqn:Eu. cbn [fst] in Ew.
  apply addc_spec in Eu; [| assumption | assumption | congruence | lia].
  destruct Eu as (Eu & Wu & Lu & Hcu). rewrite L1 in *. change (B ^ Z.of_nat 9) with (2 ^ 576) in Eu.
  pose proof Hs as [Ws Ls].
  assert (Ws0 : words (s ++ [0])).
  { apply Forall_app. split; [assumption|]. constructor; [unfold is_w64; lia|constructor]. }
  assert (Ls0 : length (s ++ [0]) = 9%nat) by (rewrite app_length, Ls; reflexivity).
  assert (Vs0 : val (s ++ [0]) = val s) by (rewrite val_app; cbn [val]; ring).
  destruct (addc u (s ++ [0]) 0) as [w' cw] eqn:Ew'. cbn [fst] in Ew. subst w'.
  apply addc_spec in Ew'; [| assumption | assumption | congruence | lia].
  destruct Ew' as (Ew & Ww & Lw & Hcw). rewrite Lu in *. change (B ^ Z.of_nat 9) with (2 ^ 576) in Ew.
  rewrite Vs0 in Ew.
  pose proof (fp_ok_bound y Hy). pose proof (fp_ok_bound s Hs). pose proof P_lt. unfold is_w64 in *.
  assert (Vq : 0 <= q * P <= (B - 1) * P) by (split; [apply Z.mul_nonneg_nonneg; lia | apply Z.mul_le_mono_nonneg_r; lia]).
  assert (Vx : 0 <= xi * val y <= (B - 1) * val y) by (split; [apply Z.mul_nonneg_nonneg; lia | apply Z.mul_le_mono_nonneg_r; lia]).
  pose proof (val_bound u Wu) as Bu. rewrite Lu in Bu. change (B ^ Z.of_nat 9) with (2 ^ 576) in Bu.
  pose proof (val_bound w Ww) as Bw. rewrite Lw in Bw. change (B ^ Z.of_nat 9) with (2 ^ 576) in Bw.
  rewrite V1, V2 in Eu. rewrite (Z.mul_comm P q), (Z.mul_comm (val y) xi) in Eu.
  assert (cu = 0) by lia. subst cu.
  assert (cw = 0) by lia. subst cw.
  destruct w as [|d v]; [discriminate|]. cbn [tl]. injection Lw as Lw.
  inversion Ww as [|? ? Wd Wv]; subst. rewrite val_cons in *. unfold is_w64 in Wd.
  assert (Hv : fp_ok v) by (split; assumption). pose proof (fp_ok_bound v Hv).
  assert (Hv2 : val v * B = q * P + xi * val y + val s) by lia.
  split; [assumption|]. split; lia.
Qed.

Lemma mul_body_ok : forall y s xi, fp_ok y -> val y <= P -> fp_ok s -> val s < P + val y -> is_w64 xi ->
  exists s' c, mul_body y s xi = (s', c) /\ fp_ok s' /\ val s' < P + val y /\ 0 <= c <= 1 /\
  exists q, is_w64 q /\ val s' * B = q * P + xi * val y + val s.
Proof.
  intros y s xi Hy By Hs Bs Hxi.
  destruct (mont_step y s xi 0 _ _ _ Hy By Hs Bs Hxi ltac:(lia) eq_refl eq_refl eq_refl) as (L1 & L2 & F & V & E).
  rewrite (mul_body_chain y s xi _ _ eq_refl eq_refl L1 L2 (proj2 Hs)).
  eexists _, _. split; [reflexivity|]. split; [exact F|]. split; [exact V|]. split; [|eexists; split; [apply mq_word|exact E]].
  pose proof (mq_word y s xi) as Hq.
  destruct (mul576_spec p _ p_ok Hq) as (W1 & _ & _).
  destruct (mul576_spec y xi Hy Hxi) as (W2 & _ & _).
  destruct (addc (mul576 p (mq y s xi)) (mul576 y xi) 0) as [u cu] eqn:Eu.
  apply addc_spec in Eu; [| assumption | assumption | congruence | lia].
  destruct Eu as (_ & Wu & Lu & _). cbn [fst].
  destruct (addc (firstn 8 u) s 0) as [v cv] eqn:Ev. cbn [snd].
  apply addc_spec in Ev.
  - tauto.
  - apply Forall_firstn. exact Wu.
  - exact (proj1 Hs).
  - rewrite firstn_length, Lu, L1, (proj2 Hs). reflexivity.
  - lia.
Qed.

Lemma mul_last_ok : forall y s xi c, fp_ok y -> val y <= P -> fp_ok s -> val s < P + val y -> is_w64 xi ->
  0 <= c <= 1 -> fp_ok (mul_last y s xi c) /\ val (mul_last y s xi c) < P + val y /\
  exists q, is_w64 q /\ val (mul_last y s xi c) * B = q * P + xi * val y + val s.
Proof.
  intros y s xi c Hy By Hs Bs Hxi Hc.
  destruct (mont_step y s xi c _ _ _ Hy By Hs Bs Hxi Hc eq_refl eq_refl eq_refl) as (L1 & L2 & F & V & E).
  rewrite (mul_last_chain y s xi c _ _ eq_refl eq_refl L1 L2 (proj2 Hs)).
  split; [exact F|]. split; [exact V|]. eexists; split; [apply mq_word|exact E].
Qed.

Lemma mont_acc : forall b PP Y S S' q x X K bi,
  S' * b = q * PP + x * Y + S -> S * bi = X * Y + PP * K ->
  S' * (b * bi) = (X + bi * x) * Y + PP * (K + bi * q).
Proof.
  intros. replace (S' * (b * bi)) with (S' * b * bi) by ring. rewrite H.
  replace ((q * PP + x * Y + S) * bi) with (q * PP * bi + x * Y * bi + S * bi) by ring.
  rewrite H0. ring.
Qed.

(* the quotient is a 512-bit number: this determines the result *)
Lemma mulGeneric_exact : forall x y, fp_ok x -> fp_ok y -> val y <= P ->
  fp_ok (mulGeneric x y) /\ val (mulGeneric x y) < P + val y /\
  exists k, 0 <= k < 2 ^ 512 /\ val (mulGeneric x y) * 2 ^ 512 = val x * val y + P * k.
Proof.
  intros x y Hx Hy By. apply fp_ok_ex in Hx.
  destruct Hx as (x0 & x1 & x2 & x3 & x4 & x5 & x6 & x7 & -> & ? & ? & ? & ? & ? & ? & ? & ?).
  pose proof P_lt as HP. pose proof (fp_ok_bound y Hy) as Hyb.
  assert (F0 : fp_ok (repeat 0 8)) by (split; [apply words_repeat_0|reflexivity]).
  assert (V0 : val (repeat 0 8) < P + val y) by (rewrite val_repeat_0; lia).
  unfold mulGeneric. change (seq 0 (numWords - 1)) with [0;1;2;3;4;5;6]%nat.
  change (numWords - 1)%nat with 7%nat. cbn [fold_left fst nth].
  destruct (mul_body_ok y _ x0 Hy By F0 V0 ltac:(assumption)) as (s1 & c1 & -> & F1 & V1 & _ & q1 & W1 & Q1). cbn [fst].
  destruct (mul_body_ok y _ x1 Hy By F1 V1 ltac:(assumption)) as (s2 & c2 & -> & F2 & V2 & _ & q2 & W2 & Q2). cbn [fst].
  destruct (mul_body_ok y _ x2 Hy By F2 V2 ltac:(assumption)) as (s3 & c3 & -> & F3 & V3 & _ & q3 & W3 & Q3). cbn [fst].
  destruct (mul_body_ok y _ x3 Hy By F3 V3 ltac:(assumption)) as (s4 & c4 & -> & F4 & V4 & _ & q4 & W4 & Q4). cbn [fst].
  destruct (mul_body_ok y _ x4 Hy By F4 V4 ltac:(assumption)) as (s5 & c5 & -> & F5 & V5 & _ & q5 & W5 & Q5). cbn [fst].
  destruct (mul_body_ok y _ x5 Hy By F5 V5 ltac:(assumption)) as (s6 & c6 & -> & F6 & V6 & _ & q6 & W6 & Q6). cbn [fst].
  destruct (mul_body_ok y _ x6 Hy By F6 V6 ltac:(assumption)) as (s7 & c7 & -> & F7 & V7 & C7 & q7 & W7 & Q7). cbv beta iota.
  destruct (mul_last_ok y s7 x7 c7 Hy By F7 V7 ltac:(assumption) C7) as (F8 & V8 & q8 & W8 & Q8).
  split; [exact F8|]. split; [exact V8|].
  rewrite val_repeat_0 in Q1.
  assert (A0 : 0 * 1 = 0 * val y + P * 0) by ring.
  pose proof (mont_acc _ _ _ _ _ _ _ _ _ _ Q1 A0) as A1.
  pose proof (mont_acc _ _ _ _ _ _ _ _ _ _ Q2 A1) as A2.
  pose proof (mont_acc _ _ _ _ _ _ _ _ _ _ Q3 A2) as A3.
  pose proof (mont_acc _ _ _ _ _ _ _ _ _ _ Q4 A3) as A4.
  pose proof (mont_acc _ _ _ _ _ _ _ _ _ _ Q5 A4) as A5.
  pose proof (mont_acc _ _ _ _ _ _ _ _ _ _ Q6 A5) as A6.
  pose proof (mont_acc _ _ _ _ _ _ _ _ _ _ Q7 A6) as A7.
  pose proof (mont_acc _ _ _ _ _ _ _ _ _ _ Q8 A7) as A8.
  exists (val [q1; q2; q3; q4; q5; q6; q7; q8]). split.
  { change (2 ^ 512) with (B ^ Z.of_nat (length [q1; q2; q3; q4; q5; q6; q7; q8])). apply val_bound. repeat (constructor; [assumption|]). constructor. }
  change (2 ^ 512) with (B * (B * (B * (B * (B * (B * (B * (B * 1)))))))).
  rewrite A8. cbn [val]. ring.
Qed.
Lemma mulGeneric_ok : forall x y, fp_ok x -> fp_ok y -> val y <= P ->
  fp_ok (mulGeneric x y) /\ val (mulGeneric x y) < P + val y /\
  exists k, val (mulGeneric x y) * 2 ^ 512 = val x * val y + P * k.
Proof. intros x y Hx Hy By. destruct (mulGeneric_exact x y Hx Hy By) as (F & V & k & _ & E). eauto. Qed.

(* reduced field elements *)
Definition fp_red (x : list Z) : Prop := fp_ok x /\ val x < P.

Lemma fp_red_bound : forall x, fp_red x -> 0 <= val x < P.
Proof. intros x [H V]. pose proof (fp_ok_bound x H). lia. Qed.

Lemma mulRdc_spec : forall x y, fp_ok x -> fp_red y ->
  fp_red (mulRdc x y) /\ (val (mulRdc x y) * 2 ^ 512) mod P = (val x * val y) mod P.
Proof.
  intros x y Hx [Hy By]. unfold mulRdc.
  destruct (mulGeneric_ok x y Hx Hy ltac:(lia)) as (F & V & k & E).
  destruct (reduceOnce_spec _ F) as [F2 V2]. pose proof P_lt. pose proof (fp_ok_bound _ F).
  split.
  - split; [exact F2|]. rewrite V2. destruct (Z.ltb_spec (val (mulGeneric x y)) P); lia.
  - rewrite V2. destruct (Z.ltb_spec (val (mulGeneric x y)) P).
    + rewrite E, (Z.mul_comm P k). apply Z_mod_plus_full.
    + replace ((val (mulGeneric x y) - P) * 2 ^ 512) with (val x * val y + (k - 2 ^ 512) * P) by lia.
      apply Z_mod_plus_full.
Qed.

Lemma addRdc_red : forall x y, fp_red x -> fp_red y -> fp_red (addRdc x y).
Proof.
  intros x y [Hx Bx] [Hy By]. destruct (addRdc_spec x y Hx Hy Bx By) as [F V].
  split; [exact F|]. rewrite V. apply Z.mod_pos_bound, P_lt.
Qed.
Lemma subRdc_red : forall x y, fp_red x -> fp_red y -> fp_red (subRdc x y).
Proof.
  intros x y [Hx Bx] [Hy By]. destruct (subRdc_spec x y Hx Hy Bx By) as [F V].
  split; [exact F|]. rewrite V. apply Z.mod_pos_bound, P_lt.
Qed.
Lemma mulRdc_red : forall x y, fp_red x -> fp_red y -> fp_red (mulRdc x y).
Proof. intros x y [Hx Bx] Hy. apply mulRdc_spec; assumption. Qed.

(* the stale carry of the last iteration does not matter *)
Lemma mul_last_carry : forall y s xi c, fp_ok y -> val y <= P -> fp_ok s -> val s < P + val y -> is_w64 xi ->
  0 <= c <= 1 -> mul_last y s xi c = mul_last y s xi 0.
Proof.
  intros y s xi c Hy By Hs Bs Hxi Hc.
  destruct (mont_step y s xi c _ _ _ Hy By Hs Bs Hxi Hc eq_refl eq_refl eq_refl) as (L1 & L2 & F & V & E).
  destruct (mont_step y s xi 0 _ _ _ Hy By Hs Bs Hxi ltac:(lia) eq_refl eq_refl eq_refl) as (_ & _ & F' & V' & E').
  rewrite (mul_last_chain y s xi c _ _ eq_refl eq_refl L1 L2 (proj2 Hs)).
  rewrite (mul_last_chain y s xi 0 _ _ eq_refl eq_refl L1 L2 (proj2 Hs)).
  apply val_inj; [exact (proj1 F) | exact (proj1 F') | rewrite (proj2 F), (proj2 F'); reflexivity | lia].
Qed.

(* ---------- comparison, tests, swap ---------- *)
Lemma val_firstn_S : forall x i, (i < length x)%nat ->
  val (firstn (S i) x) = val (firstn i x) + B ^ Z.of_nat i * nth i x 0.
Proof.
  induction x as [|a x IH]; intros i H; [simpl in H; lia|].
  destruct i as [|i].
  - cbn [firstn val nth]. change (B ^ Z.of_nat 0) with 1. ring.
  - cbn [length] in H.
    change (firstn (S (S i)) (a :: x)) with (a :: firstn (S i) x).
    change (firstn (S i) (a :: x)) with (a :: firstn i x).
    rewrite !val_cons, IH by lia. change (nth (S i) (a :: x) 0) with (nth i x 0).
    rewrite Nat2Z.inj_succ, Z.pow_succ_r by lia. ring.
Qed.

Lemma words_nth : forall x i, words x -> is_w64 (nth i x 0).
Proof.
  intros x i W. destruct (Nat.lt_ge_cases i (length x)).
  - unfold words in W. rewrite Forall_forall in W. apply W, nth_In. assumption.
  - rewrite nth_overflow by lia. unfold is_w64. lia.
Qed.

Lemma isLess_loop_ok : forall i x y, words x -> words y -> (i <= length x)%nat -> length x = length y ->
  isLess_loop x y i = (val (firstn i x) <? val (firstn i y)).
Proof.
  induction i; intros x y Wx Wy H L. { reflexivity. }
  cbn [isLess_loop].
  destruct (Sub64 (nth i y 0) (nth i x 0) 0) as [v c] eqn:E.
  pose proof (words_nth x i Wx) as Hx. pose proof (words_nth y i Wy) as Hy.
  apply Sub64_spec in E; [| assumption | assumption | lia]. destruct E as (E & Hv & Hc).
  rewrite IHi by (auto; lia).
  rewrite !val_firstn_S by lia.
  assert (Wfx : words (firstn i x)) by (apply Forall_firstn; exact Wx).
  assert (Wfy : words (firstn i y)) by (apply Forall_firstn; exact Wy).
  pose proof (val_bound _ Wfx) as Bx. pose proof (val_bound _ Wfy) as By.
  rewrite firstn_length in Bx, By. replace (Nat.min i (length x)) with i in Bx by lia.
  replace (Nat.min i (length y)) with i in By by lia.
  set (b := B ^ Z.of_nat i) in *. unfold is_w64 in *.
  destruct (Z.eqb_spec c 0) as [->|C]; cbn [negb].
  - destruct (Z.eqb_spec v 0) as [->|V]; cbn [negb].
    + assert (nth i y 0 = nth i x 0) as -> by lia.
      destruct (Z.ltb_spec (val (firstn i x)) (val (firstn i y)));
      destruct (Z.ltb_spec (val (firstn i x) + b * nth i x 0) (val (firstn i y) + b * nth i x 0)); lia || reflexivity.
    + symmetry. apply Z.ltb_lt. assert (nth i x 0 + 1 <= nth i y 0) by lia.
      assert (b * (nth i x 0 + 1) <= b * nth i y 0) by (apply Z.mul_le_mono_nonneg_l; lia). lia.
  - symmetry. apply Z.ltb_ge. assert (nth i y 0 + 1 <= nth i x 0) by lia.
    assert (b * (nth i y 0 + 1) <= b * nth i x 0) by (apply Z.mul_le_mono_nonneg_l; lia). lia.
Qed.

Lemma isLess_ok : forall x y, fp_ok x -> fp_ok y -> isLess x y = (val x <? val y).
Proof.
  intros x y [Wx Lx] [Wy Ly]. unfold isLess. rewrite isLess_loop_ok; auto; try (unfold numWords; lia).
  rewrite !firstn_all2 by (unfold numWords; lia). reflexivity.
Qed.

Lemma lor_is_w64 : forall a b, is_w64 a -> is_w64 b -> is_w64 (Z.lor a b).
Proof.
  unfold is_w64. intros a b Ha Hb. split; [apply Z.lor_nonneg; lia|].
  destruct (Z.eq_dec a 0) as [->|Na]; [rewrite Z.lor_0_l; lia|].
  destruct (Z.eq_dec b 0) as [->|Nb]; [rewrite Z.lor_0_r; lia|].
  apply Z.log2_lt_pow2.
  - assert (0 <= Z.lor a b) by (apply Z.lor_nonneg; lia).
    destruct (Z.eq_dec (Z.lor a b) 0) as [E|]; [|lia]. apply Z.lor_eq_0_iff in E. lia.
  - rewrite Z.log2_lor by lia. apply Z.max_lub_lt; apply Z.log2_lt_pow2; lia.
Qed.
Lemma lxor_is_w64 : forall a b, is_w64 a -> is_w64 b -> is_w64 (Z.lxor a b).
Proof. unfold is_w64. intros. apply lxor_bound; lia. Qed.

Lemma isZero_ok : forall v, fp_ok v -> isZero v = (val v =? 0).
Proof.
  intros v H. pose proof H as Hv. apply fp_ok_ex in H.
  destruct H as (x0 & x1 & x2 & x3 & x4 & x5 & x6 & x7 & -> & ? & ? & ? & ? & ? & ? & ? & ?).
  unfold isZero, numWords. cbn [seq fold_left nth].
  rewrite ctIsNonZero64_ok by (repeat apply lor_is_w64; try assumption; unfold is_w64; lia).
  match goal with |- ((if ?l =? 0 then _ else _) =? 0) = _ =>
    replace ((if l =? 0 then 0 else 1) =? 0) with (l =? 0) by (destruct (l =? 0); reflexivity);
    destruct (Z.eqb_spec l 0) as [E|E] end.
  - rewrite !Z.lor_eq_0_iff in E. destruct E as [[[[[[[[_ ->] ->] ->] ->] ->] ->] ->] ->]. reflexivity.
  - symmetry. apply Z.eqb_neq. intro V. apply E. rewrite !Z.lor_eq_0_iff.
    unfold is_w64 in *. cbn [val] in V. lia.
Qed.

Lemma lxor_0_eq : forall a b, Z.lxor a b = 0 <-> a = b.
Proof. intros. split; [apply Z.lxor_eq | intros ->; apply Z.lxor_nilpotent]. Qed.

Lemma equal_ok : forall v w, fp_ok v -> fp_ok w -> equal v w = (val v =? val w).
Proof.
  intros v w H H'. pose proof H as Hv. pose proof H' as Hw. apply fp_ok_ex in H, H'.
  destruct H as (x0 & x1 & x2 & x3 & x4 & x5 & x6 & x7 & -> & ? & ? & ? & ? & ? & ? & ? & ?).
  destruct H' as (y0 & y1 & y2 & y3 & y4 & y5 & y6 & y7 & -> & ? & ? & ? & ? & ? & ? & ? & ?).
  unfold equal. cbn [seq fold_left nth].
  rewrite ctIsNonZero64_ok by (repeat first [apply lor_is_w64 | apply lxor_is_w64]; try assumption; unfold is_w64; lia).
  match goal with |- ((if ?l =? 0 then _ else _) =? 0) = _ =>
    replace ((if l =? 0 then 0 else 1) =? 0) with (l =? 0) by (destruct (l =? 0); reflexivity);
    destruct (Z.eqb_spec l 0) as [E|E] end.
  - rewrite !Z.lor_eq_0_iff, !lxor_0_eq in E. destruct E as [[[[[[[[_ ->] ->] ->] ->] ->] ->] ->] ->].
    symmetry. apply Z.eqb_refl.
  - symmetry. apply Z.eqb_neq. intro V.
    apply val_inj in V; [| exact (proj1 Hv) | exact (proj1 Hw) | reflexivity].
    injection V as -> -> -> -> -> -> -> ->. apply E. rewrite !Z.lxor_nilpotent. reflexivity.
Qed.

Lemma cswap512_ok : forall x y c, words x -> words y -> length x = length y -> 0 <= c <= 1 ->
  cswap512 x y c = if c =? 1 then (y, x) else (x, y).
Proof.
  intros x y c Wx Wy L Hc. unfold cswap512. cbv zeta.
  destruct (mask_cases c Hc) as [[-> ->]|[-> ->]].
  - change (0 =? 1) with false. cbv iota. f_equal; revert y Wy L; induction Wx as [|a x Ha Wx IH]; intros [|b y] Wy L; try discriminate; auto;
    cbn [combine map fst snd]; inversion Wy; subst; injection L as L;
    rewrite Z.land_0_l, Z.lxor_0_l; f_equal; apply IH; auto.
  - change (1 =? 1) with true. cbv iota.
    f_equal; revert y Wy L; induction Wx as [|a x Ha Wx IH]; intros [|b y] Wy L; try discriminate; auto;
    cbn [combine map fst snd]; inversion Wy; subst; injection L as L;
    rewrite (Z.land_comm (B - 1)), land_ones64 by (apply lxor_is_w64; assumption); f_equal.
    + rewrite Z.lxor_comm, <- Z.lxor_assoc, Z.lxor_nilpotent, Z.lxor_0_l. reflexivity.
    + apply IH; auto.
    + rewrite Z.lxor_assoc, Z.lxor_nilpotent, Z.lxor_0_r. reflexivity.
    + apply IH; auto.
Qed.
