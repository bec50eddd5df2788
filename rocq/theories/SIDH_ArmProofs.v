(* The arm64 kernels of dh/sidh: what they compute. *)
From Coq Require Import ZArith Znumtheory List Lia Bool.
From Verif Require Import Lib MP SIDH_Consts SIDH_Field SIDH_FieldProofs SIDH_Inst X86 X86_Sym X86_Call X86_Lin X86_Mul SIDH_AsmModel SIDH_AsmChk SIDH_AsmRuns SIDH_AsmProofs
  SIDH_Arm503 SIDH_Arm751 SIDH_ArmModel SIDH_ArmChk SIDH_ArmRuns.
Import ListNotations.
Open Scope Z_scope.

Lemma arm_words Q : Forall words (armGlob Q).
Proof.
  constructor; [apply (fo_P _ _ (okOf (pk Q)))|]. constructor; [apply (fo_Px2 _ _ (okOf (pk Q)))|]. constructor; [|constructor].
  destruct Q; [|apply (fo_Pp1 _ _ (okOf P751))]. unfold P503p1s8. repeat (constructor; [unfold is_w64; lia|]). constructor.
Qed.
Lemma armCall_eq code Q ps blocks r bp : call 0 (code Q) (map (fun a => Pt (S a) 0) ps) blocks (armGlob Q) 0 = Some (r, bp) -> armCall code Q ps blocks = Some r.
Proof. unfold armCall. intros ->. reflexivity. Qed.
Lemma w0 : is_w64 0. Proof. unfold is_w64; lia. Qed.
Section Kernels.
Variable Q : apkg.
Notation F := (fieldOf (pk Q)).
Notation n := (nOf (pk Q)).
Theorem add_arm a b c m blocks : In (a, b, c, m) aliasings -> length blocks = m -> Forall (isW n) blocks ->
  armCall addArm Q [a; b; c] blocks = Some (setl blocks a (addP F (nth b blocks []) (nth c blocks []))).
Proof.
  intros Hin Hm Hb. destruct (alias_lt _ _ _ _ Hin) as (La & Lb & Lc). destruct (blocks_lens _ _ Hb) as [El Hw]. rewrite Hm in El. rewrite <- Hm in La, Lb, Lc.
  destruct (add_run (armGlob Q) (arm_words Q) blocks _ 0 Hw El w0 _ _ _ _ _ _ _ _ (arm_add_check Q a b c m Hin) (spec3 _ _ _) Lb Lc) as (r & E & W & L & V).
  destruct (addP_any (pk Q) _ _ (nth_isW _ _ _ Hb Lb) (nth_isW _ _ _ Hb Lc)) as [Hp Vp].
  rewrite (same _ _ _ W L Hp) in E by (rewrite Vp; exact V). unfold armCall. cbn [map zarg] in E |- *. rewrite E. reflexivity.
Qed.
Theorem sub_arm a b c m blocks : In (a, b, c, m) aliasings -> length blocks = m -> Forall (isW n) blocks ->
  armCall subArm Q [a; b; c] blocks = Some (setl blocks a (subP F (nth b blocks []) (nth c blocks []))).
Proof.
  intros Hin Hm Hb. destruct (alias_lt _ _ _ _ Hin) as (La & Lb & Lc). destruct (blocks_lens _ _ Hb) as [El Hw]. rewrite Hm in El. rewrite <- Hm in La, Lb, Lc.
  destruct (sub_run (armGlob Q) (arm_words Q) blocks _ 0 Hw El w0 _ _ _ _ _ _ _ (arm_sub_check Q a b c m Hin) (spec3 _ _ _) Lb Lc) as (r & E & W & L & V).
  destruct (subP_any (pk Q) _ _ (nth_isW _ _ _ Hb Lb) (nth_isW _ _ _ Hb Lc)) as [Hp Vp].
  rewrite (same _ _ _ W L Hp) in E by (rewrite Vp; exact V). unfold armCall. cbn [map zarg] in E |- *. rewrite E. reflexivity.
Qed.
Theorem sul_arm a b c m blocks : In (a, b, c, m) aliasings -> length blocks = m -> Forall (isW (2 * n)) blocks ->
  armCall sulArm Q [a; b; c] blocks = Some (setl blocks a (sulP F (nth b blocks []) (nth c blocks []))).
Proof.
  intros Hin Hm Hb. destruct (alias_lt _ _ _ _ Hin) as (La & Lb & Lc). destruct (blocks_lens _ _ Hb) as [El Hw]. rewrite Hm in El. rewrite <- Hm in La, Lb, Lc.
  destruct (sub_run (armGlob Q) (arm_words Q) blocks _ 0 Hw El w0 _ _ _ _ _ _ _ (arm_sul_check Q a b c m Hin) (spec3 _ _ _) Lb Lc) as (r & E & W & L & V).
  destruct (sulP_any (pk Q) _ _ (nth_isW _ _ _ Hb Lb) (nth_isW _ _ _ Hb Lc)) as [Hp Vp].
  rewrite (same _ _ _ W L Hp) in E by (rewrite Vp; exact V). unfold armCall. cbn [map zarg] in E |- *. rewrite E. reflexivity.
Qed.
Theorem adl_arm a b c m blocks : In (a, b, c, m) aliasings -> length blocks = m -> Forall (isW (2 * n)) blocks ->
  armCall adlArm Q [a; b; c] blocks = Some (setl blocks a (adlP (nth b blocks []) (nth c blocks []))).
Proof.
  intros Hin Hm Hb. destruct (alias_lt _ _ _ _ Hin) as (La & Lb & Lc). destruct (blocks_lens _ _ Hb) as [El Hw]. rewrite Hm in El. rewrite <- Hm in La, Lb, Lc.
  destruct (sum_run (armGlob Q) (arm_words Q) blocks _ 0 Hw El w0 _ _ _ _ _ _ (arm_adl_check Q a b c m Hin) (spec3 _ _ _) Lb Lc) as (r & E & W & L & V).
  destruct (adlP_any _ _ _ (nth_isW _ _ _ Hb Lb) (nth_isW _ _ _ Hb Lc)) as [Hp Vp].
  rewrite (same _ _ _ W L Hp) in E by (rewrite Vp; exact V). unfold armCall. cbn [map zarg] in E |- *. rewrite E. reflexivity.
Qed.
Theorem mod_arm x : isW n x -> armCall modArm Q [0%nat] [x] = Some [modP F x].
Proof.
  intros Hx. assert (Hb : Forall (isW n) [x]) by (constructor; [exact Hx|constructor]). destruct (blocks_lens _ _ Hb) as [El Hw].
  destruct (subc_run (armGlob Q) (arm_words Q) [x] _ 0 Hw El w0 _ _ _ _ _ _ _ (arm_mod_check Q) ltac:(repeat constructor) ltac:(cbn; lia)) as (r & E & W & L & V).
  destruct (modP_any (pk Q) _ Hx) as [Hp Vp]. cbn [nth] in V.
  rewrite (same _ _ _ W L Hp) in E by (rewrite Vp; exact V). unfold armCall. cbn [map zarg] in E |- *. rewrite E. reflexivity.
Qed.

(* ---------- rdc ---------- *)
Lemma symOkB_both k code spec naw us gl c1 c2 : symOkB k code spec naw us gl (fun o b f => c1 o b f && c2 o b f) = true ->
  symOkB k code spec naw us gl c1 = true /\ symOkB k code spec naw us gl c2 = true.
Proof. unfold symOkB. destruct (symCallB k code spec naw us gl) as [[[o b] f]|]; [apply andb_prop|discriminate]. Qed.
Theorem rdc_arm z x : isW n z -> isW (2 * n) x -> val x < primeOf (pk Q) * B ^ Z.of_nat n ->
  armCall rdcArm Q [0; 1]%nat [z; x] = Some [rdcP F z x; x].
Proof.
  intros Hz Hx Vx. destruct (symOkB_both _ _ _ _ _ _ (fun outs _ _ => outAt 0 [nA Q; 2 * nA Q]%nat 0 outs) _ (arm_rdc_check Q)) as [C1 C2].
  assert (Hu : under [full n; full (2 * n)] [z; x]) by (constructor; [apply under_full, Hz|constructor; [apply under_full, Hx|constructor]]).
  assert (Hl : map (@length Z) [z; x] = [nA Q; 2 * nA Q]%nat) by (cbn [map]; rewrite (proj2 Hz), (proj2 Hx); reflexivity).
  destruct (sym_outB _ _ _ _ _ _ _ C1 0 [] [z; x] w0 (Forall_nil _) Hu (arm_words Q) eq_refl ltac:(repeat constructor)) as (e & outs & bpp & facts & E1 & E2 & _ & _ & _ & E5).
  rewrite (outAt_ok e 0 [] [z; x] _ 0 outs (proj2 E1) Hl E5) in E2. cbn [map zarg setl firstn skipn app] in E2. clear C1 E5.
  destruct (rdc_run (armGlob Q) (arm_words Q) _ _ n _ _ _ z x 0 C2 w0 Hu) as (r & x' & bp' & q & E & Hb' & Hk & Wr & Lr & Wx' & Lx' & Hq & Hd). { apply Hz. } { apply Hx. }
  rewrite E2 in E. apply (f_equal (fun o => match o with Some (t :: _, _) => t | _ => [] end)) in E. rename E into Er. cbn beta iota in Er. 
  rewrite (armCall_eq rdcArm Q [0; 1]%nat [z; x] _ _ E2), Er. apply (f_equal (fun t => Some [t; x])).
  destruct (rdcP_spec F (primeOf (pk Q)) (okOf (pk Q)) z x (proj1 Hz) (proj2 Hz) (proj1 Hx) (proj2 Hx) Vx) as (Wp & Lp & Bp & q' & Hq' & Ep).
  apply (same n); [exact Wr|exact Lr|split; [exact Wp|exact Lp]|].
  destruct (fo_Pp1 _ _ (okOf (pk Q))) as (_ & _ & V1). unfold FA in Hd. rewrite V1, R2 in Hd.
  pose proof (fo_R _ _ (okOf (pk Q))) as HR. fold n in HR, Hq', Ep. pose proof (p_pos _ _ (okOf (pk Q))) as Hp. pose proof (R_coprime _ _ (okOf (pk Q))) as Hc. fold n in Hc.
  pose proof (val_isW _ _ Hx) as Bx. pose proof (val_isW n r (conj Wr Lr)) as Br. clear - Vx Hq Hq' Ep Hd HR Hp Hc Bx Br Bp.
  set (R := B ^ Z.of_nat n) in *. set (p := primeOf (pk Q)) in *. set (X := val x) in *. set (o := val r) in *. set (o' := val (rdcP F z x)) in *. clearbody R p X o o'.
  assert (Eo : R * o = X + q * p).
  { apply (cong_eq (R * R)); [nia|nia|]. replace (R * o - (X + q * p)) with (R * o + q - (X + q * (p + 1))) by ring. exact Hd. }
  assert (G : q = q').
  { assert (DV : (R | q' - q)). { apply Gauss with p; [|exact Hc]. exists (o' - o). lia. }
    destruct DV as [d Hd']. assert (d = 0) by nia. subst d. lia. }
  subst q'. nia.
Qed.
End Kernels.

(* ---------- mul ---------- *)
Lemma unders3 k z x y : isW (2 * k) z -> isW k x -> isW k y -> under [full (2 * k); full k; full k] [z; x; y] /\ map (@length Z) [z; x; y] = [2 * k; k; k]%nat.
Proof.
  intros Hz Hx Hy. split; [repeat (constructor; [apply under_full; assumption|]); constructor|].
  cbn [map]. rewrite (proj2 Hz), (proj2 Hx), (proj2 Hy). reflexivity.
Qed.
Lemma unders2 k z x : isW (2 * k) z -> isW k x -> under [full (2 * k); full k] [z; x] /\ map (@length Z) [z; x] = [2 * k; k]%nat.
Proof.
  intros Hz Hx. split; [repeat (constructor; [apply under_full; assumption|]); constructor|].
  cbn [map]. rewrite (proj2 Hz), (proj2 Hx). reflexivity.
Qed.
Theorem mul751_arm z x y : isW 24 z -> isW 12 x -> isW 12 y ->
  armCall mulArm Q751 [0; 1; 2]%nat [z; x; y] = Some [mulPx f751 x y; x; y] /\
  armCall mulArm Q751 [0; 1; 1]%nat [z; x] = Some [mulPx f751 x x; x].
Proof.
  intros Hz Hx Hy. destruct (unders3 12 z x y Hz Hx Hy) as [U3 L3]. destruct (unders2 12 z x Hz Hx) as [U2 L2]. unfold armCall. cbn [map mulArm].
  destruct (mulPx_spec f751 x y) as (Wp & Lp & Vp); try apply Hx; try apply Hy; try apply ok751.
  destruct (mulPx_spec f751 x x) as (Wq & Lq & Vq); try apply Hx; try apply ok751.
  split.
  - destruct (prod_run (armGlob Q751) (arm_words Q751) mulP751Arm [AP 1; AP 2; AP 3] 1 2 12 _ _ [z; x; y] 0 (spec3 _ _ _) w0 U3 L3
      ltac:(cbn; lia) ltac:(cbn; lia) (proj2 Hx) (proj2 Hy) _ mul751_check) as (r & bp' & E & W & L & V).
    cbn [map zarg nth setl firstn skipn app] in E, V. rewrite E. rewrite (same _ _ (mulPx f751 x y) W L) by (try split; try assumption; congruence). reflexivity.
  - destruct (prod_run (armGlob Q751) (arm_words Q751) mulP751Arm [AP 1; AP 2; AP 2] 1 1 12 _ _ [z; x] 0 (spec3 _ _ _) w0 U2 L2
      ltac:(cbn; lia) ltac:(cbn; lia) (proj2 Hx) (proj2 Hx) _ sqr751_check) as (r & bp' & E & W & L & V).
    cbn [map zarg nth setl firstn skipn app] in E, V. rewrite E. rewrite (same _ _ (mulPx f751 x x) W L) by (try split; try assumption; congruence). reflexivity.
Qed.
Lemma halves h x : words x -> (h <= length x)%nat -> val (firstn h x) = val x mod B ^ Z.of_nat h /\ val (skipn h x) = val x / B ^ Z.of_nat h.
Proof.
  intros W L. assert (Lf : length (firstn h x) = h) by (rewrite firstn_length; lia). pose proof (val_bound _ (Forall_firstn _ _ h x W)) as V. rewrite Lf in V.
  assert (E : val x = val (firstn h x) + B ^ Z.of_nat h * val (skipn h x)) by (rewrite <- (firstn_skipn h x) at 1; rewrite val_app, Lf; reflexivity).
  split; [apply Z.mod_unique with (q := val (skipn h x)); [left; exact V|lia]|apply Z.div_unique with (r := val (firstn h x)); [left; exact V|lia]].
Qed.
Theorem mul503_arm z x y : isW 16 z -> isW 8 x -> isW 8 y -> exists r,
  armCall mulArm Q503 [0; 1; 2]%nat [z; x; y] = Some [r; x; y] /\ isW 16 r /\
  val r = (val x * val y + (if loses (2 ^ 256) (val x mod 2 ^ 256) (val x / 2 ^ 256) (val y mod 2 ^ 256) (val y / 2 ^ 256) then 2 ^ 832 else 0)) mod 2 ^ 1024.
Proof.
  intros Hz Hx Hy. destruct (unders3 8 z x y Hz Hx Hy) as [U3 L3]. unfold armCall. cbn [map mulArm].
  destruct (loss_run (armGlob Q503) (arm_words Q503) mulP503Arm [AP 1; AP 2; AP 3] 1 2 8 _ _ [z; x; y] 0 (spec3 _ _ _) w0 U3 L3
      ltac:(cbn; lia) ltac:(cbn; lia) (proj2 Hx) (proj2 Hy) 4 _ _ _ _ _ eq_refl ltac:(lia) mul503_check) as (r & bp' & E & W & L & V).
  exists r. cbn [map zarg nth setl firstn skipn app] in E. rewrite E. split; [reflexivity|]. split; [split; assumption|]. cbn [nth] in V.
  destruct (halves 4 x) as [X1 X2]; [apply Hx|rewrite (proj2 Hx); lia|]. destruct (halves 4 y) as [Y1 Y2]; [apply Hy|rewrite (proj2 Hy); lia|].
  change (B ^ Z.of_nat 4) with (2 ^ 256) in *. change (B ^ Z.of_nat (3 * 4 + 1)) with (2 ^ 832) in V. change (B ^ Z.of_nat (4 * 4)) with (2 ^ 1024) in V.
  rewrite <- X1, <- X2, <- Y1, <- Y2. exact V.
Qed.
Theorem sqr503_arm z x : isW 16 z -> isW 8 x -> exists r,
  armCall mulArm Q503 [0; 1; 1]%nat [z; x] = Some [r; x] /\ isW 16 r /\
  val r = (val x * val x + (if loses (2 ^ 256) (val x mod 2 ^ 256) (val x / 2 ^ 256) (val x mod 2 ^ 256) (val x / 2 ^ 256) then 2 ^ 832 else 0)) mod 2 ^ 1024.
Proof.
  intros Hz Hx. destruct (unders2 8 z x Hz Hx) as [U3 L3]. unfold armCall. cbn [map mulArm].
  destruct (loss_run (armGlob Q503) (arm_words Q503) mulP503Arm [AP 1; AP 2; AP 2] 1 1 8 _ _ [z; x] 0 (spec3 _ _ _) w0 U3 L3
      ltac:(cbn; lia) ltac:(cbn; lia) (proj2 Hx) (proj2 Hx) 4 _ _ _ _ _ eq_refl ltac:(lia) sqr503_check) as (r & bp' & E & W & L & V).
  exists r. cbn [map zarg nth setl firstn skipn app] in E. rewrite E. split; [reflexivity|]. split; [split; assumption|]. cbn [nth] in V.
  destruct (halves 4 x) as [X1 X2]; [apply Hx|rewrite (proj2 Hx); lia|].
  change (B ^ Z.of_nat 4) with (2 ^ 256) in *. change (B ^ Z.of_nat (3 * 4 + 1)) with (2 ^ 832) in V. change (B ^ Z.of_nat (4 * 4)) with (2 ^ 1024) in V.
  rewrite <- X1, <- X2. exact V.
Qed.

Definition wrong503 (x y : Z) : bool := loses (2 ^ 256) (x mod 2 ^ 256) (x / 2 ^ 256) (y mod 2 ^ 256) (y / 2 ^ 256).
Lemma mul503_right z x y : isW 16 z -> isW 8 x -> isW 8 y -> wrong503 (val x) (val y) = false ->
  armCall mulArm Q503 [0; 1; 2]%nat [z; x; y] = Some [mulPx f503 x y; x; y].
Proof.
  intros Hz Hx Hy H. destruct (mul503_arm z x y Hz Hx Hy) as (r & E & W & V). rewrite E. apply (f_equal (fun t => Some [t; x; y])).
  destruct (mulPx_spec f503 x y) as (Wp & Lp & Vp); try apply Hx; try apply Hy; try apply ok503.
  apply (same 16); [apply W|apply W|split; assumption|]. unfold wrong503 in H. rewrite V, Vp, H, Z.add_0_r. apply Z.mod_small. rewrite <- Vp.
  apply (val_isW 16). split; assumption.
Qed.
Lemma sqr503_right z x : isW 16 z -> isW 8 x -> wrong503 (val x) (val x) = false ->
  armCall mulArm Q503 [0; 1; 1]%nat [z; x] = Some [mulPx f503 x x; x].
Proof.
  intros Hz Hx H. destruct (sqr503_arm z x Hz Hx) as (r & E & W & V). rewrite E. apply (f_equal (fun t => Some [t; x])).
  destruct (mulPx_spec f503 x x) as (Wp & Lp & Vp); try apply Hx; try apply ok503.
  apply (same 16); [apply W|apply W|split; assumption|]. unfold wrong503 in H. rewrite V, Vp, H, Z.add_0_r. apply Z.mod_small. rewrite <- Vp.
  apply (val_isW 16). split; assumption.
Qed.
(* the constant of ToMontgomery never meets the wrong case: for a second factor with these halves only few cases are left *)
Lemma few_wrong N l h x : 0 < N -> 0 < l < N -> 0 < h < N -> 0 <= x ->
  loses N (x mod N) (x / N) l h = true -> x mod N <= N / h /\ x / N <= N / l.
Proof.
  intros HN Hl Hh Hx H. unfold loses in H. cbv zeta in H. apply andb_prop in H as [H _]. apply Z.ltb_lt in H.
  pose proof (Z.mod_pos_bound x N HN). pose proof (Z.div_pos x N Hx HN). assert (0 <= (x mod N) * l / N) by (apply Z.div_pos; nia).
  set (a := x mod N) in *. set (b := x / N) in *. clearbody a b. set (H' := a * l / N) in *. clearbody H'.
  split; apply Z.div_le_lower_bound; try lia; nia.
Qed.
Lemma R2_halves : val (fR2 f503) mod 2 ^ 256 = 0x5bc57ab6eff168eca3b365d58dc8f17a9b88257189fed2b95289a0cf641d011f /\
  val (fR2 f503) / 2 ^ 256 = 0x3f6cfce8b8177146e9127bce14cdb6bf8999cbac3b56959e51998bd84d4423.
Proof. split; vm_compute; reflexivity. Qed.
Lemma R2_right x : 0 <= x -> wrong503 x (val (fR2 f503)) = false.
Proof.
  intros Hx. unfold wrong503. destruct R2_halves as [-> ->]. set (N := 2 ^ 256).
  match goal with |- loses _ _ _ ?l ?h = _ => destruct (loses N (x mod N) (x / N) l h) eqn:E; [|reflexivity]; destruct (few_wrong N l h x ltac:(lia) ltac:(lia) ltac:(lia) Hx E) as [C1 C2] end.
  pose proof (Z.mod_pos_bound x N ltac:(lia)) as A0. pose proof (Z.div_pos x N Hx ltac:(lia)) as B0.
  set (a := x mod N) in *. set (b := x / N) in *. clearbody a b. unfold loses in E. cbv zeta in E. apply andb_prop in E as [E1 E2]. apply Z.ltb_lt in E1. apply Z.leb_le in E2.
  assert (Hb : b = 0 \/ b = 1 \/ b = 2). { match type of C2 with _ <= ?k => assert (k = 2) by (vm_compute; reflexivity) end. lia. }
  match type of E1 with _ + a * ?l / N < _ => assert (HH : 0 <= a * l / N <= a) by (split; [apply Z.div_pos; lia|apply Z.div_le_upper_bound; lia]); set (H := a * l / N) in * end. clearbody H.
  match type of C1 with _ <= ?k => assert (K1 : k = 1033) by (vm_compute; reflexivity); rewrite K1 in C1 end.
  match type of E2 with _ <= ?t mod N + _ => destruct (Z_lt_ge_dec t N) as [L|L]; [rewrite (Z.mod_small t N) in E2 by lia|
    assert (M : t mod N = t - N) by (symmetry; apply Z.mod_unique with (q := 1); lia); rewrite M in E2] end; unfold N in *; clear - E1 E2 L Hb HH C1 A0; destruct Hb as [-> | [-> | ->]]; lia.
Qed.

(* ---------- cswap: the argument slot holds the word w, of which the low byte counts ---------- *)
Definition sxByte (w : Z) : Z := if w mod 256 <? 128 then w mod 256 else B - 256 + w mod 256.
Lemma sxByte_0 w : (sxByte w =? 0) = (w mod 256 =? 0).
Proof.
  pose proof (Z.mod_pos_bound w 256 ltac:(lia)). unfold sxByte. destruct (Z.ltb_spec (w mod 256) 128); [reflexivity|].
  destruct (Z.eqb_spec (w mod 256) 0), (Z.eqb_spec (B - 256 + w mod 256) 0); lia.
Qed.
Definition afterByte (s : st zdom) (b c : nat) (v : Z) : st zdom :=
  setreg zdom (setreg zdom (setreg zdom s (AR 0) (Pt b 0)) (AR 1) (Pt c 0)) (AR 2) (@Wd zdom v).
Lemma cswapArm_start Q b c w blocks gl bp :
  run zdom maxSteps (cswapArm Q) (start zdom Datatypes.tt bp 0 [Pt b 0; Pt c 0; @Wd zdom w] blocks gl) =
  run zdom 1997 (skipn 3 (cswapArm Q)) (afterByte (start zdom Datatypes.tt bp 0 [Pt b 0; Pt c 0; @Wd zdom w] blocks gl) b c (sxByte w)).
Proof.
  set (s0 := start zdom _ bp 0 _ _ gl). unfold maxSteps.
  transitivity (run zdom 1999 (skipn 1 (cswapArm Q)) (setreg zdom s0 (AR 0) (Pt b 0))); [destruct Q; (apply run_step; [exact Logic.I|reflexivity])|].
  transitivity (run zdom 1998 (skipn 2 (cswapArm Q)) (setreg zdom (setreg zdom s0 (AR 0) (Pt b 0)) (AR 1) (Pt c 0))); [destruct Q; (apply run_step; [exact Logic.I|reflexivity])|].
  destruct Q; (apply run_step; [exact Logic.I|reflexivity]).
Qed.
Theorem cswap_arm Q x y w : length x = nOf (pk Q) -> length y = nOf (pk Q) ->
  armCswap Q 0 1 w [x; y] = Some (if w mod 256 =? 0 then [x; y] else [y; x]) /\ armCswap Q 0 0 w [x] = Some [x].
Proof.
  intros Lx Ly. unfold armCswap, call. split.
  - rewrite (cswapArm_start Q 1 2 w [x; y] (armGlob Q) 0), <- sxByte_0. generalize (sxByte w). intro v.
    destruct Q; [open8 x; open8 y|open12 x; open12 y]; destruct v; lazy; reflexivity.
  - rewrite (cswapArm_start Q 1 1 w [x] (armGlob Q) 0). generalize (sxByte w). intro v.
    destruct Q; [open8 x|open12 x]; destruct v; lazy; reflexivity.
Qed.
