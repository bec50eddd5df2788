(* The amd64 kernels of dh/sidh compute what the portable field code does. *)
From Coq Require Import ZArith Znumtheory List Lia Bool.
From Verif Require Import Lib MP SIDH_Consts SIDH_Field SIDH_FieldProofs SIDH_Inst X86 X86_Sym X86_Call X86_Lin X86_Mul X86_Glob SIDH_AsmModel SIDH_AsmChk SIDH_AsmRuns.
Import ListNotations.
Open Scope Z_scope.

Definition primeOf (P : pkg) : Z := match P with P434 => p434 | P503 => p503 | P751 => p751 end.
Lemma okOf P : field_ok (fieldOf P) (primeOf P).
Proof. destruct P; [exact ok434|exact ok503|exact ok751]. Qed.
Lemma sidhField P : sidh_field (fieldOf P) (primeOf P).
Proof. destruct P; unfold sidh_field; auto. Qed.
Notation Rof P := (B ^ Z.of_nat (nOf P)).
Lemma glob_words P f g : Forall words (sidhGlob P f g).
Proof.
  unfold sidhGlob. constructor; [constructor; [unfold is_w64; destruct f; lia|constructor]|]. constructor; [constructor; [unfold is_w64; destruct (f && g); lia|constructor]|].
  constructor; [apply (fo_Pp1 _ _ (okOf P))|constructor].
Qed.
(* n or 2n words *)
Definition isW (k : nat) (x : list Z) : Prop := words x /\ length x = k.
Lemma same k r x : words r -> length r = k -> isW k x -> val r = val x -> r = x.
Proof. intros W L [W' L'] V. apply val_inj; [exact W|exact W'|congruence|exact V]. Qed.

(* ---------- the portable functions on any words ---------- *)
Section Portable.
Variable P : pkg.
Notation F := (fieldOf P).
Notation n := (nOf P).
Notation p := (primeOf P).
Lemma val_isW k x : isW k x -> 0 <= val x < B ^ Z.of_nat k.
Proof. intros [W L]. rewrite <- L. apply val_bound, W. Qed.
Lemma condmod N U V b w z r c : 0 <= z < N -> 0 <= r < N -> 0 <= b <= 1 -> z - N * b = U - V -> r + N * c = z + b * w -> 0 <= c -> b * w = b * w ->
  (b = 0 -> c = 0) -> r = cond N U V w.
Proof.
  intros Hz Hr Hb E1 E2 Hc _ H0. unfold cond. assert (b = 0 \/ b = 1) as [-> | ->] by lia.
  - specialize (H0 eq_refl). subst c. destruct (Z.ltb_spec U V); lia.
  - destruct (Z.ltb_spec U V); [|lia]. apply Z.mod_unique with (q := c - 1); [left; lia|]. lia.
Qed.
Lemma nocarry N r z c : 0 <= r < N -> 0 <= z < N -> r + N * c = z + 0 * 0 -> c = 0.
Proof. intros. nia. Qed.
Lemma condadd (m z : list Z) b U V : isW n z -> isW n m -> 0 <= b <= 1 -> val z - Rof P * b = U - V ->
  isW n (fst (addc z (masked m b) 0)) /\ val (fst (addc z (masked m b) 0)) = cond (Rof P) U V (val m).
Proof.
  intros Hz Hm Hb E. destruct (masked_spec m b (proj1 Hm) Hb) as (Wm & Lm & Vm).
  destruct (addc z (masked m b) 0) as [r c] eqn:Ea. apply addc_spec in Ea; [|apply Hz|exact Wm|rewrite Lm, (proj2 Hm); apply Hz|lia].
  destruct Ea as (E2 & Wr & Lr & Hc). cbn [fst]. rewrite (proj2 Hz) in E2, Lr. assert (Hr : isW n r) by (split; assumption). split; [exact Hr|].
  rewrite Vm, Z.add_0_r in E2. apply (condmod _ _ _ b _ (val z) (val r) c); auto using val_isW; [lia|].
  intros ->. pose proof (val_isW _ _ Hz). pose proof (val_isW _ _ Hr). apply (nocarry (Rof P) (val r) (val z)); lia.
Qed.
Lemma addP_any x y : isW n x -> isW n y -> isW n (addP F x y) /\
  val (addP F x y) = cond (Rof P) ((val x + val y) mod Rof P) (val (fPx2 F)) (val (fPx2 F)).
Proof.
  intros Hx Hy. unfold addP. destruct (fo_Px2 _ _ (okOf P)) as (W2 & L2 & _).
  destruct (addc x y 0) as [z c] eqn:E0. apply addc_spec in E0; [|apply Hx|apply Hy|rewrite (proj2 Hx), (proj2 Hy); reflexivity|lia].
  destruct E0 as (E0 & Wz & Lz & Hc). rewrite (proj2 Hx) in E0, Lz.
  destruct (subb z (fPx2 F) 0) as [z' b] eqn:E1. apply subb_spec in E1; [|exact Wz|exact W2|rewrite L2; exact Lz|lia].
  destruct E1 as (E1 & Wz' & Lz' & Hb). rewrite Lz in E1, Lz'.
  pose proof (condadd (fPx2 F) z' b ((val x + val y) mod Rof P) (val (fPx2 F)) (conj Wz' Lz') (conj W2 L2) Hb) as H.
  destruct (addc z' (masked (fPx2 F) b) 0) as [r c'] eqn:E2. cbn [fst] in H. apply H.
  replace ((val x + val y) mod Rof P) with (val z); [lia|]. apply Z.mod_unique with (q := c); [left; apply val_isW; split; assumption|]. lia.
Qed.
Lemma subP_any x y : isW n x -> isW n y -> isW n (subP F x y) /\ val (subP F x y) = cond (Rof P) (val x) (val y) (val (fPx2 F)).
Proof.
  intros Hx Hy. unfold subP. destruct (fo_Px2 _ _ (okOf P)) as (W2 & L2 & _).
  destruct (subb x y 0) as [z b] eqn:E1. apply subb_spec in E1; [|apply Hx|apply Hy|rewrite (proj2 Hx), (proj2 Hy); reflexivity|lia].
  destruct E1 as (E1 & Wz & Lz & Hb). rewrite (proj2 Hx) in E1, Lz.
  pose proof (condadd (fPx2 F) z b (val x) (val y) (conj Wz Lz) (conj W2 L2) Hb) as H.
  destruct (addc z (masked (fPx2 F) b) 0) as [r c'] eqn:E2. cbn [fst] in H. apply H. lia.
Qed.
Lemma modP_any x : isW n x -> isW n (modP F x) /\ val (modP F x) = cond (Rof P) (val x) (val (fP F)) (val (fP F)).
Proof.
  intros Hx. unfold modP. destruct (fo_P _ _ (okOf P)) as (W2 & L2 & _).
  destruct (subb x (fP F) 0) as [z b] eqn:E1. apply subb_spec in E1; [|apply Hx|exact W2|rewrite (proj2 Hx), L2; reflexivity|lia].
  destruct E1 as (E1 & Wz & Lz & Hb). rewrite (proj2 Hx) in E1, Lz.
  apply (condadd (fP F) z b (val x) (val (fP F)) (conj Wz Lz) (conj W2 L2) Hb). lia.
Qed.
Lemma adlP_any k x y : isW k x -> isW k y -> isW k (adlP x y) /\ val (adlP x y) = (val x + val y) mod B ^ Z.of_nat k.
Proof.
  intros Hx Hy. unfold adlP. destruct (addc x y 0) as [z c] eqn:E0.
  apply addc_spec in E0; [|apply Hx|apply Hy|rewrite (proj2 Hx), (proj2 Hy); reflexivity|lia].
  destruct E0 as (E0 & Wz & Lz & Hc). rewrite (proj2 Hx) in E0, Lz. cbn [fst]. split; [split; assumption|].
  apply Z.mod_unique with (q := c); [left; apply val_isW; split; assumption|]. lia.
Qed.
Lemma R2 : B ^ Z.of_nat (2 * n) = Rof P * Rof P.
Proof. rewrite <- Z.pow_add_r by lia. f_equal. lia. Qed.
Lemma sulP_any x y : isW (2 * n) x -> isW (2 * n) y -> isW (2 * n) (sulP F x y) /\
  val (sulP F x y) = cond (B ^ Z.of_nat (2 * n)) (val x) (val y) (val (fP F) * Rof P).
Proof.
  intros Hx Hy. unfold sulP. fold n. destruct (fo_P _ _ (okOf P)) as (W2 & L2 & V2). fold n in L2.
  destruct (subb x y 0) as [z b] eqn:E1. apply subb_spec in E1; [|apply Hx|apply Hy|rewrite (proj2 Hx), (proj2 Hy); reflexivity|lia].
  destruct E1 as (E1 & Wz & Lz & Hb). rewrite (proj2 Hx) in E1, Lz.
  assert (Llo : length (firstn n z) = n) by (rewrite firstn_length; lia).
  assert (Lhi : length (skipn n z) = n) by (rewrite skipn_length; lia).
  assert (Wlo : words (firstn n z)) by (apply Forall_firstn; assumption).
  assert (Whi : words (skipn n z)) by (apply Forall_skipn; assumption).
  assert (VZ : val z = val (firstn n z) + Rof P * val (skipn n z)) by (rewrite <- (firstn_skipn n z) at 1; rewrite val_app, Llo; reflexivity).
  destruct (masked_spec (fP F) b W2 Hb) as (Wm & Lm & Vm).
  destruct (addc (skipn n z) (masked (fP F) b) 0) as [h c] eqn:E2. apply addc_spec in E2; [|exact Whi|exact Wm|rewrite Lm, Lhi, L2; reflexivity|lia].
  destruct E2 as (E2 & Wh & Lh & Hc). cbn [fst]. rewrite Lhi in E2, Lh. rewrite Vm in E2.
  assert (Hr : isW (2 * n) (firstn n z ++ h)) by (split; [apply words_app; assumption|rewrite app_length; lia]). split; [exact Hr|].
  pose proof (val_isW _ _ Hr) as Br. pose proof (val_isW (2 * n) z (conj Wz Lz)) as Bz. pose proof (val_isW n h (conj Wh Lh)) as Bh.
  pose proof (val_isW n (skipn n z) (conj Whi Lhi)) as Bhi.
  rewrite val_app, Llo in Br |- *. rewrite R2 in *. apply (condmod _ _ _ b _ (val z) _ c); auto; [lia| |lia|].
  - rewrite VZ. set (RR := Rof P) in *. clearbody RR. nia.
  - intros ->. apply (nocarry (Rof P) (val h) (val (skipn n z))); lia.
Qed.
End Portable.

(* ---------- add, sub, adl, sul, mod ---------- *)
Lemma alias_lt a b c m : In (a, b, c, m) aliasings -> (a < m /\ b < m /\ c < m)%nat.
Proof. unfold aliasings. cbn [In]. intro Hin. repeat (destruct Hin as [Hin|Hin]; [inversion Hin; subst; lia|]). destruct Hin. Qed.
Lemma blocks_lens k blocks : Forall (isW k) blocks -> map (@length Z) blocks = repeat k (length blocks) /\ Forall words blocks.
Proof. induction 1 as [|x l [W L] _ [IH1 IH2]]; cbn [map length repeat]; [split; [reflexivity|constructor]|]. rewrite L, IH1. split; [reflexivity|constructor; assumption]. Qed.
Lemma nth_isW k blocks j : Forall (isW k) blocks -> (j < length blocks)%nat -> isW k (nth j blocks []).
Proof. intros H Hj. rewrite Forall_forall in H. apply H, nth_In, Hj. Qed.
Lemma noG_add P : forallb noGi (addAsm P) = true. Proof. destruct P; reflexivity. Qed.
Lemma noG_sub P : forallb noGi (subAsm P) = true. Proof. destruct P; reflexivity. Qed.
Lemma noG_adl P : forallb noGi (adlAsm P) = true. Proof. destruct P; reflexivity. Qed.
Lemma noG_sul P : forallb noGi (sulAsm P) = true. Proof. destruct P; reflexivity. Qed.
Lemma noG_mod P : forallb noGi (modAsm P) = true. Proof. destruct P; reflexivity. Qed.
Lemma noG_cswap P : forallb noGi (cswapAsm P) = true. Proof. destruct P; reflexivity. Qed.
Section Kernels.
Variables (P : pkg) (f g : bool) (bp : Z).
Hypothesis Hbp : is_w64 bp.
Notation F := (fieldOf P).
Notation n := (nOf P).
Lemma spec3 a b c : specOk 0 [AP a; AP b; AP c]. Proof. repeat constructor. Qed.

Theorem add_asm a b c m blocks : In (a, b, c, m) aliasings -> length blocks = m -> Forall (isW n) blocks ->
  ptrCall addAsm P f g [a; b; c] blocks bp = Some (setl blocks a (addP F (nth b blocks []) (nth c blocks [])), bp).
Proof.
  intros Hin Hm Hb. destruct (alias_lt _ _ _ _ Hin) as (La & Lb & Lc). destruct (blocks_lens _ _ Hb) as [El Hw]. rewrite Hm in El. rewrite <- Hm in La, Lb, Lc.
  destruct (add_run (sidhGlob P false false) (glob_words _ _ _) blocks _ bp Hw El Hbp _ _ _ _ _ _ _ _ (add_check P a b c m Hin) (spec3 _ _ _) Lb Lc) as (r & E & W & L & V).
  destruct (addP_any P _ _ (nth_isW _ _ _ Hb Lb) (nth_isW _ _ _ Hb Lc)) as [Hp Vp].
  rewrite (same _ _ _ W L Hp) in E by (rewrite Vp; exact V).
  unfold ptrCall. rewrite (call_glob _ _ _ _ _ (sidhGlob P false false) _ (noG_add P)). exact E.
Qed.
Theorem sub_asm a b c m blocks : In (a, b, c, m) aliasings -> length blocks = m -> Forall (isW n) blocks ->
  ptrCall subAsm P f g [a; b; c] blocks bp = Some (setl blocks a (subP F (nth b blocks []) (nth c blocks [])), bp).
Proof.
  intros Hin Hm Hb. destruct (alias_lt _ _ _ _ Hin) as (La & Lb & Lc). destruct (blocks_lens _ _ Hb) as [El Hw]. rewrite Hm in El. rewrite <- Hm in La, Lb, Lc.
  destruct (sub_run (sidhGlob P false false) (glob_words _ _ _) blocks _ bp Hw El Hbp _ _ _ _ _ _ _ (sub_check P a b c m Hin) (spec3 _ _ _) Lb Lc) as (r & E & W & L & V).
  destruct (subP_any P _ _ (nth_isW _ _ _ Hb Lb) (nth_isW _ _ _ Hb Lc)) as [Hp Vp].
  rewrite (same _ _ _ W L Hp) in E by (rewrite Vp; exact V).
  unfold ptrCall. rewrite (call_glob _ _ _ _ _ (sidhGlob P false false) _ (noG_sub P)). exact E.
Qed.
Theorem sul_asm a b c m blocks : In (a, b, c, m) aliasings -> length blocks = m -> Forall (isW (2 * n)) blocks ->
  ptrCall sulAsm P f g [a; b; c] blocks bp = Some (setl blocks a (sulP F (nth b blocks []) (nth c blocks [])), bp).
Proof.
  intros Hin Hm Hb. destruct (alias_lt _ _ _ _ Hin) as (La & Lb & Lc). destruct (blocks_lens _ _ Hb) as [El Hw]. rewrite Hm in El. rewrite <- Hm in La, Lb, Lc.
  destruct (sub_run (sidhGlob P false false) (glob_words _ _ _) blocks _ bp Hw El Hbp _ _ _ _ _ _ _ (sul_check P a b c m Hin) (spec3 _ _ _) Lb Lc) as (r & E & W & L & V).
  destruct (sulP_any P _ _ (nth_isW _ _ _ Hb Lb) (nth_isW _ _ _ Hb Lc)) as [Hp Vp].
  rewrite (same _ _ _ W L Hp) in E by (rewrite Vp; exact V).
  unfold ptrCall. rewrite (call_glob _ _ _ _ _ (sidhGlob P false false) _ (noG_sul P)). exact E.
Qed.
Theorem adl_asm a b c m blocks : In (a, b, c, m) aliasings -> length blocks = m -> Forall (isW (2 * n)) blocks ->
  ptrCall adlAsm P f g [a; b; c] blocks bp = Some (setl blocks a (adlP (nth b blocks []) (nth c blocks [])), bp).
Proof.
  intros Hin Hm Hb. destruct (alias_lt _ _ _ _ Hin) as (La & Lb & Lc). destruct (blocks_lens _ _ Hb) as [El Hw]. rewrite Hm in El. rewrite <- Hm in La, Lb, Lc.
  destruct (sum_run (sidhGlob P false false) (glob_words _ _ _) blocks _ bp Hw El Hbp _ _ _ _ _ _ (adl_check P a b c m Hin) (spec3 _ _ _) Lb Lc) as (r & E & W & L & V).
  destruct (adlP_any _ _ _ (nth_isW _ _ _ Hb Lb) (nth_isW _ _ _ Hb Lc)) as [Hp Vp].
  rewrite (same _ _ _ W L Hp) in E by (rewrite Vp; exact V).
  unfold ptrCall. rewrite (call_glob _ _ _ _ _ (sidhGlob P false false) _ (noG_adl P)). exact E.
Qed.
Theorem mod_asm x : isW n x -> ptrCall modAsm P f g [0%nat] [x] bp = Some ([modP F x], bp).
Proof.
  intros Hx. assert (Hb : Forall (isW n) [x]) by (constructor; [exact Hx|constructor]). destruct (blocks_lens _ _ Hb) as [El Hw].
  destruct (subc_run (sidhGlob P false false) (glob_words _ _ _) [x] _ bp Hw El Hbp _ _ _ _ _ _ _ (mod_check P) ltac:(repeat constructor) ltac:(cbn; lia)) as (r & E & W & L & V).
  destruct (modP_any P _ Hx) as [Hp Vp]. cbn [nth] in V.
  rewrite (same _ _ _ W L Hp) in E by (rewrite Vp; exact V).
  unfold ptrCall. rewrite (call_glob _ _ _ _ _ (sidhGlob P false false) _ (noG_mod P)). exact E.
Qed.

(* ---------- rdc ---------- *)
Lemma under_full k x : isW k x -> Forall2 (fun u x => 0 <= x <= u /\ u < B) (full k) x.
Proof.
  intros [W L]. subst k. unfold full. induction W as [|z l Hz _ IH]; cbn [length repeat]; constructor; [unfold is_w64 in Hz; lia|exact IH].
Qed.
Theorem rdc_asm z x : isW n z -> isW (2 * n) x -> val x < primeOf P * Rof P ->
  exists x' bp', rdcCall P f g 0 1 [z; x] bp = Some ([rdcP F z x; x'], bp') /\ isW (2 * n) x' /\ is_w64 bp' /\ (rdcKeeps P f = true -> bp' = bp).
Proof.
  intros Hz Hx Vx.
  destruct (rdc_run (sidhGlob P f g) (glob_words _ _ _) _ _ n _ _ _ z x bp (rdc_check P f g) Hbp) as (r & x' & bp' & q & E & Hb' & Hk & Wr & Lr & Wx' & Lx' & Hq & Hd).
  { constructor; [apply under_full, Hz|constructor; [apply under_full, Hx|constructor]]. } { apply Hz. } { apply Hx. }
  exists x', bp'. split; [|split; [split; assumption|split; [exact Hb'|exact Hk]]].
  destruct (rdcP_spec F (primeOf P) (okOf P) z x (proj1 Hz) (proj2 Hz) (proj1 Hx) (proj2 Hx) Vx) as (Wp & Lp & Bp & q' & Hq' & Ep).
  unfold rdcCall. rewrite E. replace r with (rdcP F z x); [reflexivity|]. symmetry. apply (same n); [exact Wr|exact Lr|split; [exact Wp|exact Lp]|].
  destruct (fo_Pp1 _ _ (okOf P)) as (_ & _ & V1). rewrite V1, R2 in Hd. 
  pose proof (fo_R _ _ (okOf P)) as HR. fold n in HR, Hq', Ep. pose proof (p_pos _ _ (okOf P)) as Hp. pose proof (R_coprime _ _ (okOf P)) as Hc. fold n in Hc.
  pose proof (val_isW _ _ Hx) as Bx. pose proof (val_isW n r (conj Wr Lr)) as Br.
  set (R := Rof P) in *. set (p := primeOf P) in *. set (X := val x) in *. set (o := val r) in *. set (o' := val (rdcP F z x)) in *. clearbody R p X o o'.
  assert (Eo : R * o = X + q * p).
  { apply (cong_eq (R * R)); [nia|nia|]. replace (R * o - (X + q * p)) with (R * o + q - (X + q * (p + 1))) by ring. exact Hd. }
  assert (G : q = q').
  { assert (DV : (R | q' - q)). { apply Gauss with p; [|exact Hc]. exists (o' - o). lia. }
    destruct DV as [d Hd']. assert (d = 0) by nia. subst d. lia. }
  subst q'. nia.
Qed.

(* ---------- mul ---------- *)
(* the domain on which the assembly multiplies correctly; below 2p is enough *)
Definition mulOk (x : list Z) : Prop := isW n x /\ match P with P434 => True | P503 => val x < 2 ^ 511 | P751 => val x < 2 ^ 752 end.
Lemma top_word x (k : Z) : isW n x -> val x <= k * B ^ Z.of_nat (n - 1) + (B ^ Z.of_nat (n - 1) - 1) -> Forall2 (fun u x => 0 <= x <= u /\ u < B) (full (n - 1) ++ [k]) x \/ k >= B \/ k < 0.
Proof.
  intros Hx Hv. destruct (Z_lt_ge_dec k B) as [Hk|Hk]; [|auto]. destruct (Z_lt_ge_dec k 0) as [Hk0|Hk0]; [auto|]. left.
  assert (N1 : (1 <= n)%nat) by apply (fo_n1 _ _ (okOf P)).
  pose proof (firstn_skipn (n - 1) x) as S. assert (L1 : length (firstn (n - 1) x) = (n - 1)%nat) by (rewrite firstn_length, (proj2 Hx); lia).
  assert (W1 : words (firstn (n - 1) x)) by (apply Forall_firstn, Hx).
  assert (L2 : length (skipn (n - 1) x) = 1%nat) by (rewrite skipn_length, (proj2 Hx); lia).
  assert (W2 : words (skipn (n - 1) x)) by (apply Forall_skipn, Hx).
  destruct (skipn (n - 1) x) as [|t [|]]; try discriminate. rewrite <- S. apply Forall2_app; [apply under_full; split; assumption|].
  constructor; [|constructor]. inversion W2 as [|? ? Ht _]; subst. unfold is_w64 in Ht. split; [|exact Hk]. split; [lia|].
  rewrite <- S, val_app, L1 in Hv. cbn [val] in Hv. pose proof (val_bound _ W1) as V1. rewrite L1 in V1.
  set (N := B ^ Z.of_nat (n - 1)) in *. clearbody N. nia.
Qed.
Lemma mulOk_in x : mulOk x -> Forall2 (fun u x => 0 <= x <= u /\ u < B) (mulIn P) x.
Proof.
  intros [Hx Hd]. pose proof (val_isW _ _ Hx) as Bx. unfold mulIn.
  destruct (top_word x (mulTop P) Hx) as [H|[H|H]]; [|exact H|destruct P; vm_compute in H; contradiction H; reflexivity|destruct P; vm_compute in H; discriminate].
  destruct P; cbn [mulTop] in *.
  - change (nOf P434) with 7%nat in *. cbn [Nat.sub]. lia.
  - change (nOf P503) with 8%nat in *. cbn [Nat.sub]. lia.
  - change (nOf P751) with 12%nat in *. cbn [Nat.sub]. change (Z.of_nat 11) with 11. lia.
Qed.
Lemma mulOk_mid x y : mulOk x -> mulOk y ->
  val (firstn (mulLow P) x) * val (skipn (mulLow P) y) + val (skipn (mulLow P) x) * val (firstn (mulLow P) y) < B ^ Z.of_nat (2 * mulLow P).
Proof.
  assert (Hpart : forall z, mulOk z -> 0 <= val (firstn (mulLow P) z) < B ^ Z.of_nat (mulLow P) /\
    0 <= val (skipn (mulLow P) z) /\ 2 * val (skipn (mulLow P) z) <= B ^ Z.of_nat (mulLow P)).
  { intros z [Hz Hd]. pose proof (val_isW _ _ Hz) as Bz.
    assert (Ll : length (firstn (mulLow P) z) = mulLow P) by (rewrite firstn_length, (proj2 Hz); destruct P; reflexivity).
    pose proof (val_bound _ (Forall_firstn _ _ (mulLow P) z (proj1 Hz))) as V1. rewrite Ll in V1. split; [exact V1|].
    pose proof (val_bound _ (Forall_skipn _ _ (mulLow P) z (proj1 Hz))) as V2. rewrite skipn_length, (proj2 Hz) in V2. split; [lia|].
    rewrite <- (firstn_skipn (mulLow P) z), val_app, Ll in Bz, Hd.
    set (a := val (firstn (mulLow P) z)) in *. set (b := val (skipn (mulLow P) z)) in *. clearbody a b.
    destruct P; cbn [mulLow] in *.
    - change (nOf P434) with 7%nat in *. cbn [Nat.sub] in V2. change (Z.of_nat 3) with 3 in V2. change (Z.of_nat 4) with 4. lia.
    - change (Z.of_nat 4) with 4 in *. lia.
    - change (Z.of_nat 6) with 6 in *. lia. }
  intros Hx Hy. destruct (Hpart x Hx) as (X1 & X2 & X3). destruct (Hpart y Hy) as (Y1 & Y2 & Y3).
  replace (Z.of_nat (2 * mulLow P)) with (Z.of_nat (mulLow P) + Z.of_nat (mulLow P)) by lia. rewrite Z.pow_add_r by lia.
  set (N := B ^ Z.of_nat (mulLow P)) in *. set (xl := val (firstn (mulLow P) x)) in *. set (xh := val (skipn (mulLow P) x)) in *.
  set (yl := val (firstn (mulLow P) y)) in *. set (yh := val (skipn (mulLow P) y)) in *. clearbody N xl xh yl yh. clear Hpart Hx Hy Hbp.
  assert (2 * (xl * yh) <= (N - 1) * N) by nia. assert (2 * (xh * yl) <= N * (N - 1)) by nia. nia.
Qed.
Lemma mul_glob N args blocks : call N (mulAsm P) args blocks (sidhGlob P f g) bp = call N (mulAsm P) args blocks (sidhGlob P (mulF P f) g) bp.
Proof. destruct P; [reflexivity|reflexivity|]. apply call_glob. reflexivity. Qed.
(* which BP the caller gets back *)
Definition bpAfterMul (fp : Z) : Z := match P, f && g with P434, true => fp | _, _ => bp end.
Lemma mulBP_eval e fp blocks : env_ok e bp [fp] blocks -> peval e (mulBP P f g) = bpAfterMul fp.
Proof.
  intros [_ He]. unfold mulBP, bpAfterMul. pose proof (peval_bp e bp [fp] blocks He) as E0. pose proof (peval_arg e bp [fp] blocks He 0 ltac:(cbn; lia)) as E1.
  destruct P, (f && g); assumption.
Qed.
Theorem mul_asm fp z x y : is_w64 fp -> isW (2 * n) z -> mulOk x -> mulOk y ->
  mulCall P f g 0 1 2 fp [z; x; y] bp = Some ([mulPx F x y; x; y], bpAfterMul fp) /\
  mulCall P f g 0 1 1 fp [z; x] bp = Some ([mulPx F x x; x], bpAfterMul fp).
Proof.
  intros Hfp Hz Hx Hy. unfold mulCall. rewrite !mul_glob.
  assert (Hh : (mulLow P <= n)%nat) by (destruct P; vm_compute; lia).
  destruct (mulPx_spec F x y) as (Wp & Lp & Vp); try apply Hx; try apply Hy; try apply (okOf P).
  destruct (mulPx_spec F x x) as (Wq & Lq & Vq); try apply Hx; try apply (okOf P).
  assert (Sp : forall c, specOk 1 [AP 1; AP 2; AP c; AW 0]) by (intro; repeat constructor).
  assert (U3 : under [full (2 * n); mulIn P; mulIn P] [z; x; y]).
  { constructor; [apply under_full, Hz|]. constructor; [apply mulOk_in, Hx|]. constructor; [apply mulOk_in, Hy|constructor]. }
  assert (U2 : under [full (2 * n); mulIn P] [z; x]).
  { constructor; [apply under_full, Hz|]. constructor; [apply mulOk_in, Hx|constructor]. }
  assert (E3 : map (@length Z) [z; x; y] = [2 * n; n; n]%nat) by (cbn [map]; rewrite (proj2 Hz), (proj2 (proj1 Hx)), (proj2 (proj1 Hy)); reflexivity).
  assert (E2 : map (@length Z) [z; x] = [2 * n; n]%nat) by (cbn [map]; rewrite (proj2 Hz), (proj2 (proj1 Hx)); reflexivity).
  split.
  - destruct (mul_run (sidhGlob P (mulF P f) g) (glob_words _ _ _) _ _ _ 1 2 n _ _ _ _ _ [z; x; y] bp fp (mul_check P f g) (Sp 3%nat) Hbp Hfp U3 E3
      ltac:(cbn; lia) ltac:(cbn; lia) (proj2 (proj1 Hx)) (proj2 (proj1 Hy)) Hh (mulOk_mid x y Hx Hy)) as (r & e & E & He & W & L & V).
    cbn [map zarg nth] in E. rewrite E, (mulBP_eval e fp _ He). cbn [nth] in V.
    rewrite (same _ _ (mulPx F x y) W L) by (try split; try assumption; congruence). reflexivity.
  - destruct (mul_run (sidhGlob P (mulF P f) g) (glob_words _ _ _) _ _ _ 1 1 n _ _ _ _ _ [z; x] bp fp (sqr_check P f g) (Sp 2%nat) Hbp Hfp U2 E2
      ltac:(cbn; lia) ltac:(cbn; lia) (proj2 (proj1 Hx)) (proj2 (proj1 Hx)) Hh (mulOk_mid x x Hx Hx)) as (r & e & E & He & W & L & V).
    cbn [map zarg nth] in E. rewrite E, (mulBP_eval e fp _ He). cbn [nth] in V.
    rewrite (same _ _ (mulPx F x x) W L) by (try split; try assumption; congruence). reflexivity.
Qed.
Lemma fpok_mulOk x : fpok F (primeOf P) x -> mulOk x.
Proof.
  intros (W & L & V). split; [split; assumption|]. destruct P; [exact I| |]; cbn [fieldOf primeOf] in V.
  - assert (2 * p503 < 2 ^ 511) by (vm_compute; reflexivity). lia.
  - assert (2 * p751 < 2 ^ 752) by (vm_compute; reflexivity). lia.
Qed.
End Kernels.

(* ---------- cswap: any choice byte; the argument slot holds the word w, of which the low byte counts ---------- *)
Lemma run_step D k i p s s' : (match i with JFLAG _ _ => False | _ => True end) -> step D i s = Some s' -> run D (S k) (i :: p) s = run D k p s'.
Proof. intros H E. destruct i; try contradiction; cbn [run]; rewrite E; reflexivity. Qed.
Lemma swap_lo m x y : Z.lxor x (Z.land (Z.lxor y x) m) = Z.lxor (Z.land m (Z.lxor x y)) x.
Proof. rewrite (Z.lxor_comm x (Z.land _ _)), (Z.land_comm _ m), (Z.lxor_comm y x). reflexivity. Qed.
Lemma swap_hi m x y : Z.lxor y (Z.land (Z.lxor y x) m) = Z.lxor (Z.land m (Z.lxor x y)) y.
Proof. rewrite (Z.lxor_comm y (Z.land _ _)), (Z.land_comm _ m), (Z.lxor_comm y x). reflexivity. Qed.
Lemma neg_byte w : fst (Sub64 0 (w mod 256) 0) = sub64w 0 (w mod 256).
Proof. unfold Sub64, sub64w. cbn [fst]. f_equal. ring. Qed.
Definition afterMask (s : st zdom) (b c : nat) (m : Z) (fl : option Z) : st zdom :=
  setfl zdom (setreg zdom (setreg zdom (setreg zdom s DI (Pt b 0)) SI (Pt c 0)) AX (@Wd zdom m)) fl None.
Definition cswapCall (P : pkg) (f g : bool) (b c : nat) (w : Z) (blocks : list (list Z)) (bp : Z) : option (list (list Z) * Z) :=
  call 0 (cswapAsm P) [Pt (S b) 0; Pt (S c) 0; @Wd zdom w] blocks (sidhGlob P f g) bp.
Lemma cswap_start P b c w blocks gl bp :
  exists fl, run zdom maxSteps (cswapAsm P) (start zdom Datatypes.tt bp 0 [Pt b 0; Pt c 0; @Wd zdom w] blocks gl) =
  run zdom 1996 (skipn 4 (cswapAsm P)) (afterMask (start zdom Datatypes.tt bp 0 [Pt b 0; Pt c 0; @Wd zdom w] blocks gl) b c (sub64w 0 (w mod 256)) fl).
Proof.
  exists (Some (snd (Sub64 0 (w mod 256) 0))). set (s0 := start zdom _ bp 0 _ _ gl). set (s2 := setreg zdom (setreg zdom s0 DI (Pt b 0)) SI (Pt c 0)).
  unfold maxSteps.
  transitivity (run zdom 1999 (skipn 1 (cswapAsm P)) (setreg zdom s0 DI (Pt b 0))); [destruct P; (apply run_step; [exact Logic.I|reflexivity])|].
  transitivity (run zdom 1998 (skipn 2 (cswapAsm P)) s2); [destruct P; (apply run_step; [exact Logic.I|reflexivity])|].
  transitivity (run zdom 1997 (skipn 3 (cswapAsm P)) (setreg zdom s2 AX (@Wd zdom (w mod 256)))); [destruct P; (apply run_step; [exact Logic.I|reflexivity])|].
  rewrite <- neg_byte. destruct P; (apply run_step; [exact Logic.I|reflexivity]).
Qed.
Ltac open7 x := do 7 (destruct x as [|? x]; [discriminate|]); destruct x as [|? x]; [|discriminate].
Ltac open8 x := do 8 (destruct x as [|? x]; [discriminate|]); destruct x as [|? x]; [|discriminate].
Ltac open12 x := do 12 (destruct x as [|? x]; [discriminate|]); destruct x as [|? x]; [|discriminate].
Theorem cswap_asm P f g x y w bp : length x = nOf P -> length y = nOf P ->
  cswapCall P f g 0 1 w [x; y] bp = Some ([fst (cswapP x y (w mod 256)); snd (cswapP x y (w mod 256))], bp) /\
  cswapCall P f g 0 0 w [x] bp = Some ([x], bp).
Proof.
  intros Lx Ly. unfold cswapCall, cswapP, call. split.
  - destruct (cswap_start P 1 2 w [x; y] (sidhGlob P f g) bp) as [fl E]. rewrite E. clear E. set (m := sub64w 0 (w mod 256)). clearbody m.
    destruct P; [open7 x; open7 y|open8 x; open8 y|open12 x; open12 y]; lazy -[Z.land Z.lxor]; rewrite !swap_lo, !swap_hi; reflexivity.
  - destruct (cswap_start P 1 1 w [x] (sidhGlob P f g) bp) as [fl E]. rewrite E. clear E. set (m := sub64w 0 (w mod 256)). clearbody m.
    destruct P; [open7 x|open8 x|open12 x]; lazy -[Z.land Z.lxor]; rewrite !Z.lxor_nilpotent, !Z.land_0_l, !Z.lxor_0_r; reflexivity.
Qed.
