(* The amd64 routines of dh/csidh compute what the portable ones do. *)
From Coq Require Import ZArith List Lia Bool.
From Verif Require Import Lib MP CSIDH_Field CSIDH_FieldProofs X86 X86_Sym X86_Call X86_Lin X86_Cut CSIDH_Asm.
Import ListNotations.
Open Scope Z_scope.

(* the package variables, numbered as in CSIDH_Asm: hasBMI2 (fp511.go:15), p and pNegInv (consts.go) *)
Definition csGlob (bmi2 : bool) : list (list Z) := [[if bmi2 then 1 else 0]; p; pNegInv].
Lemma csGlob_words b : Forall words (csGlob b).
Proof.
  unfold csGlob. apply Forall_cons; [|apply Forall_cons; [exact (proj1 p_ok)|apply Forall_cons; [|apply Forall_nil]]].
  - constructor; [|constructor]. unfold is_w64. destruct b; lia.
  - unfold pNegInv. repeat (constructor; [unfold is_w64; lia|]). constructor.
Qed.
Definition pv (naw : nat) (lens : list nat) (j : nat) : poly := pvalue (pblock naw lens j).

(* ---------- mul512, mul576 ---------- *)
Definition mulChk (lens : list nat) (a b n : nat) (outs : list (list poly)) (facts : list poly) : bool :=
  outAt 1 lens a outs && (length (nth a outs []) =? n)%nat && pcong (B ^ Z.of_nat n) (pvalue (nth a outs [])) (pmul (pv 1 lens b) (parg 0)).
Lemma mul512_check f : symOk 0 mul512Asm [AP 1; AP 2; AW 0] 1 [8; 8]%nat (csGlob f) (mulChk [8; 8]%nat 0 1 8) = true.
Proof. destruct f; vm_compute; reflexivity. Qed.
Lemma mul512_check_same f : symOk 0 mul512Asm [AP 1; AP 1; AW 0] 1 [8]%nat (csGlob f) (mulChk [8]%nat 0 0 8) = true.
Proof. destruct f; vm_compute; reflexivity. Qed.
Lemma mul576_check f : symOk 0 mul576Asm [AP 1; AP 2; AW 0] 1 [9; 8]%nat (csGlob f) (mulChk [9; 8]%nat 0 1 9) = true.
Proof. destruct f; vm_compute; reflexivity. Qed.

Lemma mul_sym code f lens a b n k : symOk 0 code [AP (S a); AP (S b); AW 0] 1 lens (csGlob f) (mulChk lens a b n) = true ->
  (a < length lens)%nat -> (b < length lens)%nat ->
  forall blocks c bp, is_w64 bp -> is_w64 c -> Forall words blocks -> map (@length Z) blocks = lens -> k = n ->
  exists r, call 0 code [Pt (S a) 0; Pt (S b) 0; @Wd zdom c] blocks (csGlob f) bp = Some (setl blocks a r, bp) /\
    words r /\ length r = n /\ val r = (val (nth b blocks []) * c) mod B ^ Z.of_nat n.
Proof.
  intros H Ha Hb blocks c bp Hbp Hc Hbl El _.
  destruct (sym_out _ _ _ _ _ _ _ H bp [c] blocks Hbp) as (e & outs & facts & E1 & E2 & E3 & E4 & _ & E5); auto.
  { constructor; [exact Hc|constructor]. } { apply csGlob_words. } { repeat constructor. }
  unfold mulChk in E5. apply andb_prop in E5 as [E5 E7]. apply andb_prop in E5 as [E5 E6].
  apply Nat.eqb_eq in E6.
  pose proof (outAt_ok e bp [c] blocks lens a outs E2 El E5) as Eo. rewrite Eo in E3.
  exists (map (peval e) (nth a outs [])). split; [exact E3|].
  pose proof (outAt_words e outs a E4) as Hw. split; [exact Hw|]. rewrite map_length. split; [exact E6|].
  apply (pcong_ok _ _ _ e) in E7; [|apply Z.pow_pos_nonneg; lia].
  rewrite peval_value, peval_mul in E7. unfold pv in E7. rewrite peval_value in E7.
  assert (Hb' : (b < length blocks)%nat) by (rewrite <- El, map_length in Hb; exact Hb).
  pose proof (peval_block e bp [c] blocks E2 lens b (eq_sym El) Hb') as Eb. change (length [c]) with 1%nat in Eb. rewrite Eb in E7.
  rewrite (peval_arg e bp [c] blocks E2 0) in E7 by (cbn; lia). cbn [nth] in E7. rewrite <- E7.
  symmetry. apply Z.mod_small. pose proof (val_bound _ Hw) as Vb. rewrite map_length, E6 in Vb. exact Vb.
Qed.
Lemma val_same a b : words a -> words b -> length a = length b -> val a = val b -> a = b.
Proof. intros. apply val_inj; assumption. Qed.

Theorem mul512_asm f a b c bp : fp_ok a -> fp_ok b -> is_w64 c -> is_w64 bp ->
  call 0 mul512Asm [Pt 1 0; Pt 2 0; @Wd zdom c] [a; b] (csGlob f) bp = Some ([mul512 b c; b], bp) /\
  call 0 mul512Asm [Pt 1 0; Pt 1 0; @Wd zdom c] [b] (csGlob f) bp = Some ([mul512 b c], bp).
Proof.
  intros Ha Hb Hc Hbp. destruct (mul512_spec b c Hb Hc) as [Fm Vm]. split.
  - destruct (mul_sym _ _ _ _ _ _ 8 (mul512_check f) ltac:(cbn; lia) ltac:(cbn; lia) [a; b] c bp Hbp Hc) as (r & E & W & L & V); auto.
    { constructor; [apply Ha|constructor; [apply Hb|constructor]]. } { cbn [map]. rewrite (proj2 Ha), (proj2 Hb). reflexivity. }
    rewrite E. cbn [nth] in V. change (B ^ Z.of_nat 8) with (2 ^ 512) in V.
    rewrite (val_same r (mul512 b c) W (proj1 Fm) ltac:(rewrite L, (proj2 Fm); reflexivity) ltac:(congruence)). reflexivity.
  - destruct (mul_sym _ _ _ _ _ _ 8 (mul512_check_same f) ltac:(cbn; lia) ltac:(cbn; lia) [b] c bp Hbp Hc) as (r & E & W & L & V); auto.
    { constructor; [apply Hb|constructor]. } { cbn [map]. rewrite (proj2 Hb). reflexivity. }
    rewrite E. cbn [nth] in V. change (B ^ Z.of_nat 8) with (2 ^ 512) in V.
    rewrite (val_same r (mul512 b c) W (proj1 Fm) ltac:(rewrite L, (proj2 Fm); reflexivity) ltac:(congruence)). reflexivity.
Qed.
Theorem mul576_asm f a b c bp : words a -> length a = 9%nat -> fp_ok b -> is_w64 c -> is_w64 bp ->
  call 0 mul576Asm [Pt 1 0; Pt 2 0; @Wd zdom c] [a; b] (csGlob f) bp = Some ([mul576 b c; b], bp).
Proof.
  intros Wa La Hb Hc Hbp. destruct (mul576_spec b c Hb Hc) as (Wm & Lm & Vm).
  destruct (mul_sym _ _ _ _ _ _ 9 (mul576_check f) ltac:(cbn; lia) ltac:(cbn; lia) [a; b] c bp Hbp Hc) as (r & E & W & L & V); auto.
  { constructor; [exact Wa|constructor; [apply Hb|constructor]]. } { cbn [map]. rewrite La, (proj2 Hb). reflexivity. }
  rewrite E. cbn [nth] in V.
  assert (Hm : (val b * c) mod B ^ Z.of_nat 9 = val (mul576 b c)).
  { rewrite <- Vm. apply Z.mod_small. rewrite <- Lm. apply val_bound, Wm. }
  rewrite (val_same r (mul576 b c) W Wm ltac:(congruence) ltac:(congruence)). reflexivity.
Qed.

(* ---------- cswap512: choice is the low byte of its argument word ---------- *)
Lemma run_step D f i p s s' : (match i with JFLAG _ _ => False | _ => True end) -> step D i s = Some s' -> run D (S f) (i :: p) s = run D f p s'.
Proof. intros H E. destruct i; try contradiction; cbn [run]; rewrite E; reflexivity. Qed.
Lemma swap_lo m x y : Z.lxor x (Z.land (Z.lxor y x) m) = Z.lxor (Z.land m (Z.lxor x y)) x.
Proof. rewrite (Z.lxor_comm x (Z.land _ _)), (Z.land_comm _ m), (Z.lxor_comm y x). reflexivity. Qed.
Lemma swap_hi m x y : Z.lxor y (Z.land (Z.lxor y x) m) = Z.lxor (Z.land m (Z.lxor x y)) y.
Proof. rewrite (Z.lxor_comm y (Z.land _ _)), (Z.land_comm _ m), (Z.lxor_comm y x). reflexivity. Qed.
Theorem cswap512_asm f x y w bp : fp_ok x -> fp_ok y -> 0 <= w mod 256 <= 1 ->
  call 0 cswap512Asm [Pt 1 0; Pt 2 0; @Wd zdom w] [x; y] (csGlob f) bp =
  Some ([fst (cswap512 x y (w mod 256)); snd (cswap512 x y (w mod 256))], bp).
Proof.
  intros Hx Hy Hc. apply fp_ok_ex in Hx, Hy.
  destruct Hx as (x0 & x1 & x2 & x3 & x4 & x5 & x6 & x7 & -> & _). destruct Hy as (y0 & y1 & y2 & y3 & y4 & y5 & y6 & y7 & -> & _).
  unfold call. set (s0 := start zdom _ bp 0 _ _ (csGlob f)).
  set (s2 := setreg zdom (setreg zdom s0 DI (Pt 1 0)) SI (Pt 2 0)).
  assert (E : run zdom maxSteps cswap512Asm s0 = run zdom 1997 (skipn 3 cswap512Asm) (setreg zdom s2 AX (@Wd zdom (w mod 256)))).
  { unfold maxSteps.
    transitivity (run zdom 1999 (skipn 1 cswap512Asm) (setreg zdom s0 DI (Pt 1 0))); [apply run_step; [exact Logic.I|reflexivity]|].
    transitivity (run zdom 1998 (skipn 2 cswap512Asm) s2); [apply run_step; [exact Logic.I|reflexivity]|].
    apply run_step; [exact Logic.I|reflexivity]. }
  rewrite E. clear E. assert (Hc' : w mod 256 = 0 \/ w mod 256 = 1) by lia. clear Hc.
  destruct Hc' as [-> | ->]; lazy -[Z.land Z.lxor]; rewrite !swap_lo, !swap_hi; reflexivity.
Qed.

(* ---------- mulBmiAsm ---------- *)
(* r0 .. r8 of round i *)
Definition rot (i : nat) : list reg := firstn 9 (skipn i [R8; R9; R10; R11; R12; R13; R14; R15; BP; R8; R9; R10; R11; R12; R13; R14; R15]).
(* lines 120-133 *)
Definition preChk (t t' : st sdom) : bool :=
  match parrays t, parrays t', framePolys t' [0%nat], regPolys t [BP], regPolys t' (rot 0) with
  | Some bl, Some bl', Some f, Some b, Some a => peqbss bl bl' && peqbs f b && peqbs a (repeat [] 9)
  | _, _, _, _, _ => false
  end.
Definition preQ (s s' : st zdom) : Prop := forall bl bp, arrays s = Some bl -> regWords s [BP] = Some [bp] ->
  arrays s' = Some bl /\ frameWords s' [0%nat] = Some [bp] /\ regWords s' (rot 0) = Some (repeat 0 9).
Lemma pre_sound : sound preChk preQ.
Proof.
  intros e s t s' t' _ Hs Hs' _ H bl bp Hbl Hbp. unfold preChk in H.
  destruct (parrays t) as [pb|] eqn:E1; [|discriminate]. destruct (parrays t') as [pb'|] eqn:E2; [|discriminate].
  destruct (framePolys t' [0%nat]) as [pf|] eqn:E3; [|discriminate]. destruct (regPolys t [BP]) as [pbp|] eqn:E4; [|discriminate].
  destruct (regPolys t' (rot 0)) as [pa|] eqn:E5; [|discriminate].
  apply andb_prop in H as [H H3]. apply andb_prop in H as [H1 H2]. apply peqbss_eq in H1. apply peqbs_eq in H2, H3. subst pb' pf pa.
  destruct (V_arrays _ _ _ _ Hs E1) as [A1 _]. destruct (V_arrays _ _ _ _ Hs' E2) as [A2 _].
  destruct (V_reg _ _ _ _ _ Hs E4) as [A3 _]. destruct (V_frame _ _ _ _ _ Hs' E3) as [A4 _]. destruct (V_reg _ _ _ _ _ Hs' E5) as [A5 _].
  rewrite A1 in Hbl. rewrite A3 in Hbp. rewrite A2, A4, A5, <- Hbp, <- Hbl. auto.
Qed.
(* one use of MULS_MULX_512, lines 139-168.  The multiplier m is the third word computed; x and y are the arrays b and c. *)
Definition roundChk (b c i : nat) (t t' : st sdom) : bool :=
  match parrays t, parrays t', framePolys t [0%nat], framePolys t' [0%nat], regPolys t (rot i), regPolys t' (rot i), rev (snd (tt t')) with
  | Some bl, Some bl', Some f, Some f', Some a, Some a', _ :: _ :: m :: _ =>
      peqbss bl bl' && peqbs f f' && (length a' =? 9)%nat && coefsDiv B (hd [] a') &&
      pcong (B ^ 9) (pvalue a') (padd (pvalue a) (padd (pscale P m) (pmul (nth i (nth b bl []) []) (pvalue (nth c bl [])))))
  | _, _, _, _, _, _, _ => false
  end.
Definition roundQ (b c i : nat) (s s' : st zdom) : Prop := forall bl bp acc,
  arrays s = Some bl -> frameWords s [0%nat] = Some [bp] -> regWords s (rot i) = Some acc ->
  arrays s' = Some bl /\ frameWords s' [0%nat] = Some [bp] /\
  exists acc' m, regWords s' (rot i) = Some (0 :: acc') /\ words acc' /\ length acc' = 8%nat /\ is_w64 m /\
    (B * val acc') mod B ^ 9 = (val acc + m * P + nth i (nth b bl []) 0 * val (nth c bl [])) mod B ^ 9.
Lemma round_sound b c i : sound (roundChk b c i) (roundQ b c i).
Proof.
  intros e s t s' t' _ Hs Hs' HF H bl bp acc Hbl Hbp Hacc. unfold roundChk in H.
  destruct (parrays t) as [pb|] eqn:E1; [|discriminate]. destruct (parrays t') as [pb'|] eqn:E2; [|discriminate].
  destruct (framePolys t [0%nat]) as [pf|] eqn:E3; [|discriminate]. destruct (framePolys t' [0%nat]) as [pf'|] eqn:E4; [|discriminate].
  destruct (regPolys t (rot i)) as [pa|] eqn:E5; [|discriminate]. destruct (regPolys t' (rot i)) as [pa'|] eqn:E6; [|discriminate].
  destruct (rev (snd (tt t'))) as [|u1 [|u2 [|m us]]] eqn:E7; try discriminate.
  apply andb_prop in H as [H H5]. apply andb_prop in H as [H H4]. apply andb_prop in H as [H H3]. apply andb_prop in H as [H1 H2].
  apply peqbss_eq in H1. apply peqbs_eq in H2. apply Nat.eqb_eq in H3. subst pb' pf'.
  destruct (V_arrays _ _ _ _ Hs E1) as [A1 _]. destruct (V_arrays _ _ _ _ Hs' E2) as [A2 _].
  destruct (V_frame _ _ _ _ _ Hs E3) as [A3 _]. destruct (V_frame _ _ _ _ _ Hs' E4) as [A4 _].
  destruct (V_reg _ _ _ _ _ Hs E5) as [A5 _]. destruct (V_reg _ _ _ _ _ Hs' E6) as [A6 W6].
  assert (Hm : is_w64 (peval e m)) by (apply HF, in_rev; rewrite E7; cbn; auto).
  destruct pa' as [|p0 pa']; [discriminate|]. cbn [hd] in H4. cbn [map] in A6, W6. inversion W6 as [|z l W0 W1]; subst.
  apply (coefsDiv_ok B p0 e ltac:(lia)) in H4. rewrite Z.mod_small in H4 by exact W0. rewrite H4 in A6.
  rewrite A1 in Hbl. rewrite A3 in Hbp. rewrite A5 in Hacc. apply Some_inj in Hbl, Hacc.
  split; [rewrite A2, Hbl; reflexivity|]. split; [rewrite A4; exact Hbp|].
  exists (map (peval e) pa'), (peval e m). split; [exact A6|]. split; [exact W1|]. split; [rewrite map_length; injection H3; auto|]. split; [exact Hm|].
  apply (pcong_ok (B ^ 9) _ _ e eq_refl) in H5. cbn [pvalue] in H5. rewrite !peval_add, !peval_scale, !peval_value, peval_mul, peval_value, H4, Z.add_0_l in H5.
  rewrite H5. f_equal. rewrite <- Hacc, <- Hbl.
  replace (nth c (map (map (peval e)) pb) []) with (map (peval e) (nth c pb [])) by (symmetry; exact (map_nth (map (peval e)) pb [] c)).
  replace (nth b (map (map (peval e)) pb) []) with (map (peval e) (nth b pb [])) by (symmetry; exact (map_nth (map (peval e)) pb [] b)).
  replace (nth i (map (peval e) (nth b pb [])) 0) with (peval e (nth i (nth b pb []) [])) by (symmetry; exact (map_nth (peval e) (nth b pb []) [] i)). ring.
Qed.
(* lines 180-189 *)
Definition postChk (a : nat) (t t' : st sdom) : bool :=
  match parrays t, parrays t', framePolys t [0%nat], regPolys t' [BP], regPolys t (rot 8) with
  | Some bl, Some bl', Some f, Some b, Some acc => peqbss bl' (setl bl a (firstn 8 acc)) && peqbs b f
  | _, _, _, _, _ => false
  end.
Definition postQ (a : nat) (s s' : st zdom) : Prop := forall bl bp acc,
  arrays s = Some bl -> frameWords s [0%nat] = Some [bp] -> regWords s (rot 8) = Some acc ->
  arrays s' = Some (setl bl a (firstn 8 acc)) /\ regWords s' [BP] = Some [bp].
Lemma post_sound a : sound (postChk a) (postQ a).
Proof.
  intros e s t s' t' _ Hs Hs' _ H bl bp acc Hbl Hbp Hacc. unfold postChk in H.
  destruct (parrays t) as [pb|] eqn:E1; [|discriminate]. destruct (parrays t') as [pb'|] eqn:E2; [|discriminate].
  destruct (framePolys t [0%nat]) as [pf|] eqn:E3; [|discriminate]. destruct (regPolys t' [BP]) as [pbp|] eqn:E4; [|discriminate].
  destruct (regPolys t (rot 8)) as [pa|] eqn:E5; [|discriminate].
  apply andb_prop in H as [H1 H2]. apply peqbss_eq in H1. apply peqbs_eq in H2. subst pb' pbp.
  destruct (V_arrays _ _ _ _ Hs E1) as [A1 _]. destruct (V_arrays _ _ _ _ Hs' E2) as [A2 _].
  destruct (V_frame _ _ _ _ _ Hs E3) as [A3 _]. destruct (V_reg _ _ _ _ _ Hs' E4) as [A4 _]. destruct (V_reg _ _ _ _ _ Hs E5) as [A5 _].
  rewrite A1 in Hbl. rewrite A3 in Hbp. rewrite A5 in Hacc. apply Some_inj in Hbl, Hacc. rewrite A2, A4, <- Hbp, map_setl, <- firstn_map, Hbl, Hacc. auto.
Qed.
Definition bmiStages (a b c : nat) : list (nat * (st sdom -> st sdom -> bool)) :=
  (12%nat, preChk) :: map (fun i => (59%nat, roundChk b c i)) [0; 1; 2; 3; 4; 5; 6; 7]%nat ++ [(10%nat, postChk a)].
Definition bmiQs (a b c : nat) : list (st zdom -> st zdom -> Prop) :=
  preQ :: map (roundQ b c) [0; 1; 2; 3; 4; 5; 6; 7]%nat ++ [postQ a].
Lemma bmi_sound a b c : Forall2 (fun kc Q => sound (snd kc) Q) (bmiStages a b c) (bmiQs a b c).
Proof.
  unfold bmiStages, bmiQs. cbn [map app]. apply Forall2_cons; [exact pre_sound|].
  do 8 (apply Forall2_cons; [apply round_sound|]). apply Forall2_cons; [apply post_sound|]. apply Forall2_nil.
Qed.
(* which array each of r, x, y is, up to renaming *)
Definition aliasings : list (nat * nat * nat * nat) := [(0, 1, 2, 3); (0, 0, 1, 2); (0, 1, 0, 2); (0, 1, 1, 2); (0, 0, 0, 1)]%nat.
Lemma bmi_check f a b c n : In (a, b, c, n) aliasings ->
  stagesOk (bmiStages a b c) mulBmiAsm (sstart 1 [AP (S a); AP (S b); AP (S c)] 0 (repeat 8 n)%nat (csGlob f)) = true.
Proof.
  unfold aliasings. cbn [In]. intros [H|[H|[H|[H|[H|[]]]]]]; injection H as <- <- <- <-; vm_cast_no_check (eq_refl true).
Qed.
(* from the congruence of a round to Montgomery's equation *)
Lemma bmi_round S S' m xi Y : 0 <= S' < B ^ 8 -> is_w64 m -> is_w64 xi -> 0 <= Y <= P -> 0 <= S < P + Y ->
  (B * S') mod B ^ 9 = (S + m * P + xi * Y) mod B ^ 9 -> 0 <= S' < P + Y /\ S' * B = m * P + xi * Y + S.
Proof.
  intros HS' Hm Hxi HY HS Em. change (B ^ 9) with (B * B ^ 8) in Em. unfold is_w64 in Hxi, Hm.
  assert (HP : 2 * P < B ^ 8) by (unfold P; vm_compute; reflexivity). set (N := B ^ 8) in *. clearbody N.
  pose proof (proj1 P_lt) as P0. set (PP := P) in *. clearbody PP.
  assert (Hb : 0 <= S + m * PP + xi * Y < B * (PP + Y)).
  { assert (0 <= m * PP) by (apply Z.mul_nonneg_nonneg; lia). assert (0 <= xi * Y) by (apply Z.mul_nonneg_nonneg; lia).
    assert (m * PP <= (B - 1) * PP) by (apply Z.mul_le_mono_nonneg_r; lia). assert (xi * Y <= (B - 1) * Y) by (apply Z.mul_le_mono_nonneg_r; lia). lia. }
  rewrite Z.mod_small in Em by lia. rewrite Z.mod_small in Em by lia. split; [|lia].
  split; [lia|]. apply (Z.mul_lt_mono_pos_l B); lia.
Qed.
Lemma montgomery_unique r1 r2 k1 k2 z : 0 <= k1 < 2 ^ 512 -> 0 <= k2 < 2 ^ 512 -> r1 * 2 ^ 512 = z + P * k1 -> r2 * 2 ^ 512 = z + P * k2 -> r1 = r2.
Proof.
  intros H1 H2 E1 E2.
  assert (D : (2 ^ 512 | P * (k1 - k2))) by (exists (r1 - r2); rewrite Z.mul_sub_distr_r, E1, E2; ring).
  apply Z.gauss in D; [|vm_compute; reflexivity]. destruct D as [d Ed].
  assert (k1 = k2) by nia. subst k2. nia.
Qed.
Lemma blocks8 blocks : Forall fp_ok blocks -> map (@length Z) blocks = repeat 8%nat (length blocks) /\ Forall words blocks.
Proof.
  induction 1 as [|l ls Hl _ [IH1 IH2]]; [split; constructor|]. cbn [map length repeat]. rewrite (proj2 Hl), IH1. split; [reflexivity|]. constructor; [apply Hl|exact IH2].
Qed.
Lemma regWords_app s a : forall b l, regWords s (a ++ b) = Some l -> exists u v, regWords s a = Some u /\ regWords s b = Some v /\ l = u ++ v.
Proof.
  induction a as [|r a IH]; intros b l; cbn [app regWords]; [intro H; exists [], l; auto|].
  destruct (rreg zdom s r) as [[z| | |]|]; try discriminate. destruct (regWords s (a ++ b)) as [m|] eqn:E; [|discriminate].
  intro H; apply Some_inj in H; subst l. destruct (IH b m E) as (u & v & -> & Hv & ->). exists (z :: u), v. auto.
Qed.
Lemma regWords_app' s a : forall b u v, regWords s a = Some u -> regWords s b = Some v -> regWords s (a ++ b) = Some (u ++ v).
Proof.
  induction a as [|r a IH]; intros b u v; cbn [app regWords]; [intro H; apply Some_inj in H; subst; auto|].
  destruct (rreg zdom s r) as [[z| | |]|]; try discriminate. destruct (regWords s a) as [m|] eqn:E; [|discriminate].
  intros H Hb; apply Some_inj in H; subst u. rewrite (IH b m v eq_refl Hb). reflexivity.
Qed.
(* what was r0 is the top register of the next round *)
Lemma rot_next i s acc : (i < 8)%nat -> regWords s (rot i) = Some (0 :: acc) -> regWords s (rot (S i)) = Some (acc ++ [0]).
Proof.
  intros Hi H. destruct (rot i) as [|r rs] eqn:E; [discriminate|].
  assert (En : rot (S i) = rs ++ [r]) by (do 8 (destruct i as [|i]; [injection E as <- <-; reflexivity|]); lia).
  destruct (regWords_app s [r] rs (0 :: acc) H) as (u & v & Hu & Hv & Euv).
  assert (length u = 1%nat) by (cbn [regWords] in Hu; destruct (rreg zdom s r) as [[z| | |]|]; try discriminate; apply Some_inj in Hu; subst; reflexivity).
  destruct u as [|u0 [|]]; try discriminate. injection Euv as <- <-. rewrite En. apply regWords_app'; assumption.
Qed.
Lemma val_app0 l : val (l ++ [0]) = val l.
Proof. induction l as [|z l IH]; cbn [app val]; [reflexivity|]. rewrite IH. reflexivity. Qed.

Theorem mulBmi_asm f a b c n : In (a, b, c, n) aliasings -> forall blocks bp x y,
  Forall fp_ok blocks -> length blocks = n -> is_w64 bp -> nth b blocks [] = x -> nth c blocks [] = y -> val y <= P ->
  call 1 mulBmiAsm [Pt (S a) 0; Pt (S b) 0; Pt (S c) 0] blocks (csGlob f) bp = Some (setl blocks a (mulGeneric x y), bp).
Proof.
  intros Hin blocks bp x y Hb Ln Hbp Ex Ey Hy.
  assert (Hbc : (b < n)%nat /\ (c < n)%nat).
  { clear - Hin. unfold aliasings in Hin. cbn [In] in Hin. repeat (destruct Hin as [Hin|Hin]; [inversion Hin; subst; lia|]). destruct Hin. }
  assert (Hx : fp_ok x) by (rewrite <- Ex; rewrite Forall_forall in Hb; apply Hb, nth_In; lia).
  assert (Hy' : fp_ok y) by (rewrite <- Ey; rewrite Forall_forall in Hb; apply Hb, nth_In; lia).
  destruct (blocks8 blocks Hb) as [El Hw]. rewrite Ln in El.
  destruct (call_stages 1 mulBmiAsm [AP (S a); AP (S b); AP (S c)] 0 (repeat 8%nat n) (csGlob f) _ _ (bmi_sound a b c) (bmi_check f a b c n Hin) ltac:(apply Nat.ltb_lt; vm_compute; reflexivity)
    bp [] blocks Hbp (Forall_nil _) Hw (csGlob_words f) eq_refl ltac:(repeat constructor) El) as (s' & C & Hcall).
  cbn [bmiQs map app chain] in C.
  destruct C as (t0 & Q & C). destruct (Q blocks bp (start_arrays _ _ _ _ _ _) eq_refl) as (A0 & F0 & R0). clear Q.
  pose proof (fp_ok_bound y Hy') as By. pose proof P_lt as HP.
  assert (Wx : forall i, is_w64 (nth i x 0)) by (intro; apply words_nth, Hx).
  assert (Round : forall i s s2 acc, (i < 8)%nat -> roundQ b c i s s2 -> arrays s = Some blocks -> frameWords s [0%nat] = Some [bp] -> regWords s (rot i) = Some acc ->
    0 <= val acc < P + val y ->
    arrays s2 = Some blocks /\ frameWords s2 [0%nat] = Some [bp] /\ exists r m, regWords s2 (rot (S i)) = Some (r ++ [0]) /\ words r /\ length r = 8%nat /\ is_w64 m /\
      0 <= val r < P + val y /\ val r * B = m * P + nth i x 0 * val y + val acc).
  { intros i s s2 acc Hi Q HA HF HR Hacc. destruct (Q blocks bp acc HA HF HR) as (A1 & F1 & r & m & R1 & W1 & L1 & M1 & E1).
    split; [exact A1|]. split; [exact F1|]. exists r, m. split; [apply rot_next; assumption|]. split; [exact W1|]. split; [exact L1|]. split; [exact M1|].
    rewrite Ex, Ey in E1. apply bmi_round; auto; [|lia]. pose proof (val_bound r W1) as V. rewrite L1 in V. exact V. }
  destruct C as (t1 & Q & C). destruct (Round 0%nat _ _ _ ltac:(lia) Q A0 F0 R0 ltac:(rewrite val_repeat_0; lia)) as (A1 & F1 & r1 & q1 & R1 & W1 & L1 & M1 & B1 & E1). clear Q.
  destruct C as (t2 & Q & C). destruct (Round 1%nat _ _ _ ltac:(lia) Q A1 F1 R1 ltac:(rewrite val_app0; exact B1)) as (A2 & F2 & r2 & q2 & R2 & W2 & L2 & M2 & B2 & E2). clear Q. rewrite val_app0 in E2.
  destruct C as (t3 & Q & C). destruct (Round 2%nat _ _ _ ltac:(lia) Q A2 F2 R2 ltac:(rewrite val_app0; exact B2)) as (A3 & F3 & r3 & q3 & R3 & W3 & L3 & M3 & B3 & E3). clear Q. rewrite val_app0 in E3.
  destruct C as (t4 & Q & C). destruct (Round 3%nat _ _ _ ltac:(lia) Q A3 F3 R3 ltac:(rewrite val_app0; exact B3)) as (A4 & F4 & r4 & q4 & R4 & W4 & L4 & M4 & B4 & E4). clear Q. rewrite val_app0 in E4.
  destruct C as (t5 & Q & C). destruct (Round 4%nat _ _ _ ltac:(lia) Q A4 F4 R4 ltac:(rewrite val_app0; exact B4)) as (A5 & F5 & r5 & q5 & R5 & W5 & L5 & M5 & B5 & E5). clear Q. rewrite val_app0 in E5.
  destruct C as (t6 & Q & C). destruct (Round 5%nat _ _ _ ltac:(lia) Q A5 F5 R5 ltac:(rewrite val_app0; exact B5)) as (A6 & F6 & r6 & q6 & R6 & W6 & L6 & M6 & B6 & E6). clear Q. rewrite val_app0 in E6.
  destruct C as (t7 & Q & C). destruct (Round 6%nat _ _ _ ltac:(lia) Q A6 F6 R6 ltac:(rewrite val_app0; exact B6)) as (A7 & F7 & r7 & q7 & R7 & W7 & L7 & M7 & B7 & E7). clear Q. rewrite val_app0 in E7.
  destruct C as (t8 & Q & C). destruct (Round 7%nat _ _ _ ltac:(lia) Q A7 F7 R7 ltac:(rewrite val_app0; exact B7)) as (A8 & F8 & r8 & q8 & R8 & W8 & L8 & M8 & B8 & E8). clear Q. rewrite val_app0 in E8.
  destruct C as (t9 & Q & ->). destruct (Q blocks bp _ A8 F8 R8) as [A9 R9]. clear Q Round.
  change (map (zarg []) [AP (S a); AP (S b); AP (S c)]) with [@Pt zdom (S a) 0; @Pt zdom (S b) 0; @Pt zdom (S c) 0] in Hcall.
  rewrite (Hcall _ _ A9 R9).
  replace (firstn 8 (r8 ++ [0])) with r8 by (rewrite <- L8; symmetry; apply firstn_app_exact).
  destruct (mulGeneric_exact x y Hx Hy' Hy) as (Fg & Vg & k & Hk & Ek). rewrite val_repeat_0 in E1.
  assert (A0' : 0 * 1 = 0 * val y + P * 0) by ring.
  pose proof (mont_acc _ _ _ _ _ _ _ _ _ _ E1 A0') as A1'.
  pose proof (mont_acc _ _ _ _ _ _ _ _ _ _ E2 A1') as A2'.
  pose proof (mont_acc _ _ _ _ _ _ _ _ _ _ E3 A2') as A3'.
  pose proof (mont_acc _ _ _ _ _ _ _ _ _ _ E4 A3') as A4'.
  pose proof (mont_acc _ _ _ _ _ _ _ _ _ _ E5 A4') as A5'.
  pose proof (mont_acc _ _ _ _ _ _ _ _ _ _ E6 A5') as A6'.
  pose proof (mont_acc _ _ _ _ _ _ _ _ _ _ E7 A6') as A7'.
  pose proof (mont_acc _ _ _ _ _ _ _ _ _ _ E8 A7') as A8'.
  apply fp_ok_ex in Hx. destruct Hx as (x0 & x1 & x2 & x3 & x4 & x5 & x6 & x7 & Ex' & _). rewrite Ex' in A8', Ek. cbn [nth] in A8'.
  assert (Ev : val r8 = val (mulGeneric x y)).
  { rewrite <- Ex' in Ek. apply (montgomery_unique _ _ (val [q1; q2; q3; q4; q5; q6; q7; q8]) k (val x * val y)); [|exact Hk| |exact Ek].
    - change (2 ^ 512) with (B ^ Z.of_nat (length [q1; q2; q3; q4; q5; q6; q7; q8])). apply val_bound. repeat (constructor; [assumption|]). constructor.
    - change (2 ^ 512) with (B * (B * (B * (B * (B * (B * (B * (B * 1)))))))). rewrite A8', Ex'. cbn [val]. ring. }
  rewrite (val_same r8 _ W8 (proj1 Fg) ltac:(rewrite L8; symmetry; exact (proj2 Fg)) Ev). reflexivity.
Qed.

(* ---------- mulRdc, fp511_amd64.go:21-55: r, x, y are the arrays a, b, c ---------- *)
Definition mulRdcAmd64 (adx f : bool) (a b c : nat) (blocks : list (list Z)) (bp : Z) : option (list (list Z)) :=
  if adx
  then match call 1 mulBmiAsm [Pt (S a) 0; Pt (S b) 0; Pt (S c) 0] blocks (csGlob f) bp with
       | Some (bl, _) => Some (setl bl a (reduceOnce (nth a bl [])))
       | None => None
       end
  else let bl := setl blocks a (mulGeneric (nth b blocks []) (nth c blocks [])) in Some (setl bl a (reduceOnce (nth a bl []))).
Lemma setl_setl {X} (l : list X) i x y : (i < length l)%nat -> setl (setl l i x) i y = setl l i y.
Proof.
  intro H. unfold setl. pose proof (firstn_length_le l (n := i) ltac:(lia)) as L.
  rewrite firstn_app, L, Nat.sub_diag, firstn_O, app_nil_r, firstn_firstn, Nat.min_id. f_equal. f_equal.
  rewrite skipn_app, L, skipn_all2 by lia. replace (S i - i)%nat with 1%nat by lia. reflexivity.
Qed.
Lemma nth_setl {X} (l : list X) i x d : (i < length l)%nat -> nth i (setl l i x) d = x.
Proof. intro H. unfold setl. rewrite app_nth2; rewrite firstn_length_le by lia; [|lia]. rewrite Nat.sub_diag. reflexivity. Qed.
Theorem mulRdc_amd64 adx f a b c n : In (a, b, c, n) aliasings -> forall blocks bp,
  Forall fp_ok blocks -> length blocks = n -> is_w64 bp -> val (nth c blocks []) <= P ->
  mulRdcAmd64 adx f a b c blocks bp = Some (setl blocks a (mulRdc (nth b blocks []) (nth c blocks []))).
Proof.
  intros Hin blocks bp Hb Ln Hbp Hy.
  assert (Ha : (a < n)%nat).
  { clear - Hin. unfold aliasings in Hin. cbn [In] in Hin. repeat (destruct Hin as [Hin|Hin]; [inversion Hin; subst; lia|]). destruct Hin. }
  unfold mulRdcAmd64. destruct adx.
  - rewrite (mulBmi_asm f a b c n Hin blocks bp _ _ Hb Ln Hbp eq_refl eq_refl Hy). rewrite nth_setl, setl_setl by lia. reflexivity.
  - cbv zeta. rewrite nth_setl, setl_setl by lia. reflexivity.
Qed.
