(* fp2.go over the amd64 and the arm64 kernels computes what it computes over the portable ones, whatever variables coincide. *)
From Coq Require Import ZArith List Lia Bool.
From Verif Require Import Lib MP SIDH_Consts SIDH_Field SIDH_FieldProofs SIDH_Fp2Proofs SIDH_Inst X86 X86_Call SIDH_AsmModel SIDH_AsmRuns SIDH_AsmProofs SIDH_ArmModel SIDH_ArmRuns SIDH_ArmProofs SIDH_AsmFp2.
From Verif Require P_SIDH_Field.
Import ListNotations.
Open Scope Z_scope.

Lemma eqW_refl x : eqW x x = true. Proof. unfold eqW. destruct (list_eq_dec Z.eq_dec x x); [reflexivity|contradiction]. Qed.
Lemma setl_len {X} (l : list X) i x : (i < length l)%nat -> length (setl l i x) = length l.
Proof. intros H. unfold setl. rewrite app_length, firstn_length. cbn [length]. rewrite skipn_length. lia. Qed.
Lemma rd_same m i x : (i < length m)%nat -> rd (setl m i x) i = x.
Proof. intros H. unfold rd, setl. rewrite app_nth2 by (rewrite firstn_length; lia). rewrite firstn_length, Nat.min_l, Nat.sub_diag by lia. reflexivity. Qed.
Lemma rd_other m i j x : (i < length m)%nat -> i <> j -> rd (setl m i x) j = rd m j.
Proof.
  intros H N. unfold rd, setl. destruct (Nat.lt_ge_cases j i) as [L|L].
  - rewrite app_nth1 by (rewrite firstn_length; lia). rewrite <- (firstn_skipn i m) at 2. rewrite app_nth1 by (rewrite firstn_length; lia). reflexivity.
  - rewrite app_nth2 by (rewrite firstn_length; lia). rewrite firstn_length, Nat.min_l by lia.
    destruct (j - i)%nat as [|k] eqn:E; [lia|]. cbn [nth]. rewrite <- (firstn_skipn (S i) m) at 2. rewrite app_nth2 by (rewrite firstn_length; lia).
    rewrite firstn_length, Nat.min_l by lia. f_equal. lia.
Qed.
Lemma setl_setl {X} (l : list X) i x y : (i < length l)%nat -> setl (setl l i x) i y = setl l i y.
Proof.
  intros H. unfold setl. rewrite firstn_app, firstn_firstn, Nat.min_id, firstn_length, Nat.min_l, Nat.sub_diag by lia. cbn [firstn]. rewrite app_nil_r. f_equal. f_equal.
  rewrite skipn_app, skipn_all2 by (rewrite firstn_length; lia). rewrite firstn_length, Nat.min_l by lia.
  replace (S i - i)%nat with 1%nat by lia. reflexivity.
Qed.
Lemma setl_rd m i : (i < length m)%nat -> setl m i (rd m i) = m.
Proof.
  revert i. unfold rd. induction m as [|a m IH]; intros i H; [cbn in H; lia|]. destruct i as [|i]; [reflexivity|]. cbn [length] in H.
  unfold setl. cbn [firstn skipn nth app]. f_equal. apply (IH i). lia.
Qed.

Lemma setl_swap (m : fpmem) i j x y : (i < length m)%nat -> (j < length m)%nat -> i <> j -> setl (setl m j y) i x = setl (setl m i x) j y.
Proof.
  intros Li Lj N. apply nth_ext with (d := ([], [])) (d' := ([], [])); [rewrite !setl_len; rewrite ?setl_len; auto|].
  intros k _. change (rd (setl (setl m j y) i x) k = rd (setl (setl m i x) j y) k).
  destruct (Nat.eq_dec i k) as [<-|Ni].
  - rewrite rd_same by (rewrite setl_len; assumption). rewrite rd_other, rd_same by (rewrite ?setl_len; auto). reflexivity.
  - rewrite (rd_other _ i k) by (rewrite ?setl_len; auto). destruct (Nat.eq_dec j k) as [<-|Nj].
    + rewrite !rd_same by (rewrite ?setl_len; auto). reflexivity.
    + rewrite !rd_other by (rewrite ?setl_len; auto). reflexivity.
Qed.
Lemma Forall_setl {X} (Q : X -> Prop) (l : list X) i x : Forall Q l -> Q x -> Forall Q (setl l i x).
Proof. intros H Hx. unfold setl. apply Forall_app. split; [apply Forall_firstn; exact H|constructor; [exact Hx|apply Forall_skipn; exact H]]. Qed.

(* where the kernels are right: everywhere but for p503 on arm64 *)
Definition usable (P : pkg) (K : arch) : Prop := match K with Amd64 _ _ fp => is_w64 fp | Arm64 => P <> P503 end.
Definition swapByte (K : arch) (w : Z) : Prop := match K with Amd64 _ _ _ => True | Arm64 => w mod 256 = 0 \/ w mod 256 = 1 end.
Section Calls.
Variables (P : pkg) (K : arch).
Hypothesis HK : usable P K.
Notation F := (fieldOf P).
Notation n := (nOf P).
Notation p := (primeOf P).
Notation ok := (fpok F p).
Notation dok := (dblok F).
Let OK := okOf P.

Lemma ok_isW x : ok x -> isW n x. Proof. intros (W & L & _). split; assumption. Qed.
Lemma zero1_ok : ok (zero1 P). Proof. exact (fpok_zero F p OK). Qed.
Lemma zero2_W : isW (2 * n) (zero2 P). Proof. split; [apply words_repeat_0|apply repeat_length]. Qed.

Lemma add_K bp : is_w64 bp -> forall a b c m blocks, In (a, b, c, m) aliasings -> length blocks = m -> Forall (isW n) blocks ->
  opCall P K KAdd [a; b; c] blocks bp = Some (setl blocks a (addP F (nth b blocks []) (nth c blocks [])), bp).
Proof.
  clear HK. intros Hb a b c m blocks Hin Hm Hw. unfold opCall. destruct K as [f g fp|]; [exact (add_asm P f g bp Hb a b c m blocks Hin Hm Hw)|].
  destruct P; [reflexivity|cbn [armPkg armOf]; rewrite (add_arm Q503 a b c m blocks Hin Hm Hw)|cbn [armPkg armOf]; rewrite (add_arm Q751 a b c m blocks Hin Hm Hw)]; reflexivity.
Qed.
Lemma sub_K bp : is_w64 bp -> forall a b c m blocks, In (a, b, c, m) aliasings -> length blocks = m -> Forall (isW n) blocks ->
  opCall P K KSub [a; b; c] blocks bp = Some (setl blocks a (subP F (nth b blocks []) (nth c blocks [])), bp).
Proof.
  clear HK. intros Hb a b c m blocks Hin Hm Hw. unfold opCall. destruct K as [f g fp|]; [exact (sub_asm P f g bp Hb a b c m blocks Hin Hm Hw)|].
  destruct P; [reflexivity|cbn [armPkg armOf]; rewrite (sub_arm Q503 a b c m blocks Hin Hm Hw)|cbn [armPkg armOf]; rewrite (sub_arm Q751 a b c m blocks Hin Hm Hw)]; reflexivity.
Qed.
Lemma adl_K bp : is_w64 bp -> forall a b c m blocks, In (a, b, c, m) aliasings -> length blocks = m -> Forall (isW (2 * n)) blocks ->
  opCall P K KAdl [a; b; c] blocks bp = Some (setl blocks a (adlP (nth b blocks []) (nth c blocks [])), bp).
Proof.
  clear HK. intros Hb a b c m blocks Hin Hm Hw. unfold opCall. destruct K as [f g fp|]; [exact (adl_asm P f g bp Hb a b c m blocks Hin Hm Hw)|].
  destruct P; [reflexivity|cbn [armPkg armOf]; rewrite (adl_arm Q503 a b c m blocks Hin Hm Hw)|cbn [armPkg armOf]; rewrite (adl_arm Q751 a b c m blocks Hin Hm Hw)]; reflexivity.
Qed.
Lemma sul_K bp : is_w64 bp -> forall a b c m blocks, In (a, b, c, m) aliasings -> length blocks = m -> Forall (isW (2 * n)) blocks ->
  opCall P K KSul [a; b; c] blocks bp = Some (setl blocks a (sulP F (nth b blocks []) (nth c blocks [])), bp).
Proof.
  clear HK. intros Hb a b c m blocks Hin Hm Hw. unfold opCall. destruct K as [f g fp|]; [exact (sul_asm P f g bp Hb a b c m blocks Hin Hm Hw)|].
  destruct P; [reflexivity|cbn [armPkg armOf]; rewrite (sul_arm Q503 a b c m blocks Hin Hm Hw)|cbn [armPkg armOf]; rewrite (sul_arm Q751 a b c m blocks Hin Hm Hw)]; reflexivity.
Qed.
Lemma mod_K bp x : is_w64 bp -> isW n x -> opCall P K KMod [0%nat] [x] bp = Some ([modP F x], bp).
Proof.
  clear HK. intros Hb Hx. unfold opCall. destruct K as [f g fp|]; [exact (mod_asm P f g bp Hb x Hx)|].
  destruct P; [reflexivity|cbn [armPkg armOf]; rewrite (mod_arm Q503 x Hx)|cbn [armPkg armOf]; rewrite (mod_arm Q751 x Hx)]; reflexivity.
Qed.
Lemma cswap_K x y w bp : swapByte K w -> isW n x -> isW n y ->
  cswapK P K 1 w [x; y] bp = Some ([fst (cswapP x y (w mod 256)); snd (cswapP x y (w mod 256))], bp) /\ cswapK P K 0 w [x] bp = Some ([x], bp).
Proof.
  clear HK. intros Hw [Wx Lx] [Wy Ly]. unfold cswapK. destruct K as [f g fp|]; [exact (cswap_asm P f g x y w bp Lx Ly)|]. cbn [swapByte] in Hw.
  destruct (P_SIDH_Field.C39_cswap x y Wx Wy ltac:(congruence)) as [E0 E1]. destruct (P_SIDH_Field.C39_cswap x x Wx Wx eq_refl) as [S0 S1].
  assert (T : forall Q, pk Q = P -> armCswap Q 0 1 w [x; y] = Some [fst (cswapP x y (w mod 256)); snd (cswapP x y (w mod 256))] /\ armCswap Q 0 0 w [x] = Some [x]).
  { intros Q EQ. rewrite <- EQ in Lx, Ly. destruct (cswap_arm Q x y w Lx Ly) as [C1 C2]. split; [|exact C2]. rewrite C1.
    destruct Hw as [-> | ->]; rewrite ?E0, ?E1; reflexivity. }
  destruct P; cbn [armPkg].
  - cbn [nth Nat.eqb]. split; [reflexivity|]. destruct Hw as [-> | ->]; rewrite ?S0, ?S1; reflexivity.
  - destruct (T Q503 eq_refl) as [-> ->]. split; reflexivity.
  - destruct (T Q751 eq_refl) as [-> ->]. split; reflexivity.
Qed.
Definition twoEq (dx dy xy : bool) : bool := match dx, dy, xy with true, true, false | true, false, true | false, true, true => false | _, _, _ => true end.
Lemma kBin_ok o (h : list Z -> list Z -> list Z) k bp dx dy xy z x y :
  (forall a b c m blocks, In (a, b, c, m) aliasings -> length blocks = m -> Forall (isW k) blocks ->
    opCall P K o [a; b; c] blocks bp = Some (setl blocks a (h (nth b blocks []) (nth c blocks [])), bp)) ->
  isW k z -> isW k x -> isW k y -> (dx = true -> z = x) -> (dy = true -> z = y) -> (xy = true -> x = y) -> twoEq dx dy xy = true ->
  kBin P K o bp dx dy xy z x y = Some (h x y, bp).
Proof.
  intros H Hz Hx Hy Ex Ey Exy Ht. unfold kBin. destruct dx, dy, xy; try discriminate Ht.
  - rewrite (H 0 0 0 1)%nat; [|cbn; tauto|reflexivity|repeat (constructor; [assumption|]); constructor]. cbn. rewrite (Exy eq_refl). reflexivity.
  - rewrite (H 0 0 1 2)%nat; [|cbn; tauto|reflexivity|repeat (constructor; [assumption|]); constructor]. cbn. rewrite eqW_refl. reflexivity.
  - rewrite (H 0 1 0 2)%nat; [|cbn; tauto|reflexivity|repeat (constructor; [assumption|]); constructor]. cbn. rewrite eqW_refl. reflexivity.
  - rewrite (H 0 1 1 2)%nat; [|cbn; tauto|reflexivity|repeat (constructor; [assumption|]); constructor]. cbn. rewrite eqW_refl, (Exy eq_refl). reflexivity.
  - rewrite (H 0 1 2 3)%nat; [|cbn; tauto|reflexivity|repeat (constructor; [assumption|]); constructor]. cbn. rewrite !eqW_refl. reflexivity.
Qed.
Definition safe (x y : list Z) : Prop := match K with Amd64 _ _ fp => is_w64 fp | Arm64 => P = P503 -> wrong503 (val x) (val y) = false end.
Lemma kMul_gen bp xy z x y : safe x y -> is_w64 bp -> isW (2 * n) z -> mulOk P x -> mulOk P y -> (xy = true -> x = y) ->
  exists bp', kMul P K bp xy z x y = Some (mulPx F x y, bp') /\ is_w64 bp'.
Proof.
  clear HK. unfold safe. intros HS Hb Hz Hx Hy E. destruct K as [u v fp|] eqn:EK.
  - exists (bpAfterMul P u v bp fp). split; [|unfold bpAfterMul; destruct P, (u && v); assumption].
    destruct (mul_asm P u v bp Hb fp z x y HS Hz Hx Hy) as [E1 E2]. unfold kMul, mulK. destruct xy.
    + rewrite E2, eqW_refl, (E eq_refl). reflexivity.
    + rewrite E1, !eqW_refl. reflexivity.
  - exists bp. split; [|exact Hb]. destruct Hx as [Hx _], Hy as [Hy _]. unfold kMul, mulK. destruct P; cbn [armPkg].
    + destruct xy; cbn [setl firstn skipn app nth]; rewrite ?eqW_refl; [rewrite (E eq_refl)|]; reflexivity.
    + specialize (HS eq_refl). destruct xy.
      * rewrite <- (E eq_refl) in HS. rewrite (sqr503_right z x Hz Hx HS). cbn [withBP]. rewrite ?eqW_refl, (E eq_refl). reflexivity.
      * rewrite (mul503_right z x y Hz Hx Hy HS). cbn [withBP]. rewrite ?eqW_refl. reflexivity.
    + destruct (mul751_arm z x y Hz Hx Hy) as [E1 E2]. destruct xy; rewrite ?E1, ?E2; cbn [withBP]; rewrite ?eqW_refl; [rewrite (E eq_refl)|]; reflexivity.
Qed.
Lemma kMul_ok bp xy z x y : is_w64 bp -> isW (2 * n) z -> mulOk P x -> mulOk P y -> (xy = true -> x = y) ->
  exists bp', kMul P K bp xy z x y = Some (mulPx F x y, bp') /\ is_w64 bp'.
Proof.
  apply kMul_gen. unfold safe, usable in *. destruct K; [exact HK|intro E; contradiction].
Qed.
Lemma kRdc_ok bp z x : is_w64 bp -> isW n z -> isW (2 * n) x -> val x < p * Rof P ->
  exists x' bp', kRdc P K bp z x = Some (rdc F x, x', bp') /\ isW (2 * n) x' /\ is_w64 bp'.
Proof.
  clear HK. intros Hb Hz Hx V.
  assert (D : rdcP F z x = rdc F x) by (apply (rdcP_dead F p OK); try apply Hz; try apply Hx; exact V).
  unfold kRdc, rdcK. destruct K as [u v fp|].
  - destruct (rdc_asm P u v bp Hb z x Hz Hx V) as (x' & bp' & E & H1 & H2 & _). exists x', bp'. rewrite E, D. split; [reflexivity|split; assumption].
  - exists x, bp. split; [|split; assumption]. rewrite <- D.
    assert (T : forall Q, pk Q = P -> armCall rdcArm Q [0; 1]%nat [z; x] = Some [rdcP F z x; x]) by (intros Q <-; exact (rdc_arm Q z x Hz Hx V)).
    destruct P; cbn [armPkg]; [reflexivity|rewrite (T Q503 eq_refl)|rewrite (T Q751 eq_refl)]; reflexivity.
Qed.
Lemma p16 : 16 * p * p <= p * Rof P.
Proof. pose proof (fo_R _ _ OK). pose proof (p_pos F p OK). fold n in H. nia. Qed.
Lemma pR2 : p * Rof P < Rof P * Rof P.
Proof. pose proof (fo_R _ _ OK). pose proof (p_pos F p OK). fold n in H. nia. Qed.
Lemma pp0 : 0 < p * p.
Proof. pose proof (p_pos F p OK). nia. Qed.
Lemma prod_ok x y : ok x -> ok y -> isW (2 * n) (mulPx F x y) /\ 0 <= val (mulPx F x y) < 4 * p * p.
Proof.
  intros Hx Hy. destruct (mulPx_ok F p OK x y Hx Hy) as [O V]. split; [exact O|]. rewrite V.
  pose proof (fpok_nonneg F p x Hx). pose proof (fpok_nonneg F p y Hy). nia.
Qed.
Lemma mulP_fpok x y : ok x -> ok y -> ok (mulP F x y).
Proof. intros Hx Hy. destruct (prod_ok x y Hx Hy) as [O V]. pose proof p16. apply (rdc_ok F p OK); [exact O|fold (nOf P); lia]. Qed.
Lemma amulP_ok bp xy z x y : is_w64 bp -> isW n z -> ok x -> ok y -> (xy = true -> x = y) ->
  exists bp', amulP P K bp xy z x y = Some (mulP F x y, bp') /\ is_w64 bp'.
Proof.
  intros Hb Hz Hx Hy E. unfold amulP. destruct (kMul_ok bp xy (zero2 P) x y Hb zero2_W (fpok_mulOk P _ Hx) (fpok_mulOk P _ Hy) E) as (bp1 & E1 & Hb1). rewrite E1.
  destruct (prod_ok x y Hx Hy) as [O V]. pose proof p16. destruct (kRdc_ok bp1 z _ Hb1 Hz O ltac:(lia)) as (x' & bp2 & E2 & _ & Hb2). rewrite E2.
  exists bp2. split; [reflexivity|exact Hb2].
Qed.
Lemma asqrs_ok k : forall bp d, is_w64 bp -> ok d -> exists bp', asqrs P K k bp d = Some (sqrs F k d, bp') /\ is_w64 bp' /\ ok (sqrs F k d).
Proof.
  induction k as [|k IH]; intros bp d Hb Hd; cbn [asqrs sqrs]; [exists bp; auto|].
  destruct (amulP_ok bp true d d d Hb (ok_isW d Hd) Hd Hd (fun _ => eq_refl)) as (bp1 & E1 & Hb1). rewrite E1. apply IH; [exact Hb1|apply mulP_fpok; assumption].
Qed.
Lemma alookup_ok xx : ok xx -> forall k bp t, is_w64 bp -> t <> [] -> Forall ok t ->
  exists bp', alookup P K k bp xx t = Some (fold_left (fun t _ => t ++ [mulP F (last t []) xx]) (seq 1 k) t, bp') /\ is_w64 bp' /\
  Forall ok (fold_left (fun t (_ : nat) => t ++ [mulP F (last t []) xx]) (seq 1 k) t) /\ (length (fold_left (fun t (_ : nat) => t ++ [mulP F (last t []) xx]) (seq 1 k) t) = length t + k)%nat.
Proof.
  intros Hxx k. generalize 1%nat. induction k as [|k IH]; intros s bp t Hb Ht Hok; cbn [alookup seq fold_left]; [exists bp; split; [reflexivity|]; split; [exact Hb|]; split; [exact Hok|lia]|].
  assert (Hl : ok (last t [])).
  { rewrite Forall_forall in Hok. apply Hok. destruct (exists_last Ht) as (t' & a & ->). rewrite last_last. apply in_or_app. right. left. reflexivity. }
  destruct (amulP_ok bp false (zero1 P) (last t []) xx Hb (ok_isW _ zero1_ok) Hl Hxx ltac:(discriminate)) as (bp1 & E1 & Hb1). rewrite E1.
  destruct (IH (S s) bp1 (t ++ [mulP F (last t []) xx]) Hb1) as (bp' & E2 & Hb2 & H2 & L2).
  { destruct t; discriminate. } { apply Forall_app. split; [exact Hok|constructor; [apply mulP_fpok; assumption|constructor]]. }
  exists bp'. split; [exact E2|]. split; [exact Hb2|]. split; [exact H2|]. rewrite L2, app_length. cbn [length]. lia.
Qed.
Lemma awindows_ok t : (forall i, (i < 16)%nat -> ok (nth i t [])) -> forall l, (forall pm, In pm l -> 0 <= snd pm < 16) -> forall bp d, is_w64 bp -> ok d ->
  exists bp', awindows P K l t bp d = Some (fold_left (p34_step F t) l d, bp') /\ is_w64 bp' /\ ok (fold_left (p34_step F t) l d).
Proof.
  intros Ht. induction l as [|[pw ml] l IH]; intros Hl bp d Hb Hd; cbn [awindows fold_left]; [exists bp; auto|].
  destruct (amulP_ok bp true d d d Hb (ok_isW d Hd) Hd Hd (fun _ => eq_refl)) as (bp1 & E1 & Hb1). rewrite E1.
  destruct (asqrs_ok (Z.to_nat (pw - 1)) bp1 _ Hb1 (mulP_fpok _ _ Hd Hd)) as (bp2 & E2 & Hb2 & O2). rewrite E2.
  pose proof (Hl (pw, ml) (or_introl eq_refl)) as Hm. cbn [snd] in Hm. assert (Hm' : ok (nth (Z.to_nat ml) t [])) by (apply Ht; lia).
  destruct (amulP_ok bp2 false _ _ _ Hb2 (ok_isW _ O2) O2 Hm' ltac:(discriminate)) as (bp3 & E3 & Hb3). rewrite E3.
  change (p34_step F t d (pw, ml)) with (mulP F (sqrs F (Z.to_nat (pw - 1)) (mulP F d d)) (nth (Z.to_nat ml) t [])).
  apply IH; [intros pm Hin; apply Hl; right; exact Hin|exact Hb3|apply mulP_fpok; assumption].
Qed.
Lemma ap34_ok bp x : is_w64 bp -> ok x -> exists bp', ap34 P K bp x = Some (p34 F x, bp') /\ is_w64 bp' /\ ok (p34 F x).
Proof.
  intros Hb Hx. unfold ap34, p34.
  destruct (amulP_ok bp true (zero1 P) x x Hb (ok_isW _ zero1_ok) Hx Hx (fun _ => eq_refl)) as (bp1 & E1 & Hb1). rewrite E1.
  destruct (alookup_ok (mulP F x x) (mulP_fpok _ _ Hx Hx) 15 bp1 [x] Hb1 ltac:(discriminate) ltac:(constructor; [exact Hx|constructor])) as (bp2 & E2 & Hb2 & O2 & L2).
  rewrite E2. fold (lookup34 F x) in *. cbn [length Nat.add] in L2.
  destruct (sidh_field_s34 F p (sidhField P)) as (I & M & _).
  assert (T : forall i, (i < 16)%nat -> ok (nth i (lookup34 F x) [])).
  { intros i Hi. rewrite Forall_forall in O2. apply O2, nth_In. rewrite L2. exact Hi. }
  apply awindows_ok; [exact T| |exact Hb2|apply T, I].
  intros [pw ml] Hin. apply M. assert (G : In (pw, ml) (combine (powStrategy F) (mulStrategy F))).
  { rewrite <- (firstn_skipn (length (powStrategy F) mod 256)). apply in_or_app. left. exact Hin. }
  apply in_combine_r in G. exact G.
Qed.

(* ---------- memory ---------- *)
Definition ok2 (x : fp2) : Prop := ok (fst x) /\ ok (snd x).
Definition isW2 (x : fp2) : Prop := isW n (fst x) /\ isW n (snd x).
Lemma ok2_W x : ok2 x -> isW2 x. Proof. intros [H1 H2]. split; apply ok_isW; assumption. Qed.
Lemma rd_in (Q : fp2 -> Prop) m i : Forall Q m -> (i < length m)%nat -> Q (rd m i).
Proof. intros H L. rewrite Forall_forall in H. apply H, nth_In, L. Qed.
Lemma twoEq_idx d l r : twoEq (d =? l)%nat (d =? r)%nat (l =? r)%nat = true.
Proof. destruct (Nat.eqb_spec d l), (Nat.eqb_spec d r), (Nat.eqb_spec l r); try reflexivity; exfalso; lia. Qed.
Lemma setAB m d a b : (d < length m)%nat -> setB (setA m d a) d b = setl m d (a, b).
Proof. intros L. unfold setB, setA. rewrite rd_same, setl_setl by assumption. reflexivity. Qed.
Lemma setBA m d a b : (d < length m)%nat -> setA (setB m d b) d a = setl m d (a, b).
Proof. intros L. unfold setB, setA. rewrite rd_same, setl_setl by assumption. reflexivity. Qed.
Lemma snd_setA m d a i : (d < length m)%nat -> snd (rd (setA m d a) i) = snd (rd m i).
Proof. intros L. unfold setA. destruct (Nat.eq_dec d i) as [->|N]; [rewrite rd_same by assumption; reflexivity|rewrite rd_other by assumption; reflexivity]. Qed.
Lemma fst_setB m d a i : (d < length m)%nat -> fst (rd (setB m d a) i) = fst (rd m i).
Proof. intros L. unfold setB. destruct (Nat.eq_dec d i) as [->|N]; [rewrite rd_same by assumption; reflexivity|rewrite rd_other by assumption; reflexivity]. Qed.

Section Mem.
Variables (m : fpmem) (bp : Z).
Hypothesis Hb : is_w64 bp.

Lemma abin_ok o h : (forall a b c k blocks, In (a, b, c, k) aliasings -> length blocks = k -> Forall (isW n) blocks ->
    opCall P K o [a; b; c] blocks bp = Some (setl blocks a (h (nth b blocks []) (nth c blocks [])), bp)) -> Forall isW2 m ->
  forall d l r, (d < length m)%nat -> (l < length m)%nat -> (r < length m)%nat ->
  abin P K o d l r m bp = Some (setl m d (h (fst (rd m l)) (fst (rd m r)), h (snd (rd m l)) (snd (rd m r))), bp).
Proof.
  intros H Hm d l r Ld Ll Lr. pose proof (rd_in _ m d Hm Ld) as [D1 D2]. pose proof (rd_in _ m l Hm Ll) as [A1 A2]. pose proof (rd_in _ m r Hm Lr) as [B1 B2].
  unfold abin.
  rewrite (kBin_ok o h n bp); try assumption; [|intro E; apply Nat.eqb_eq in E; subst; reflexivity..|apply twoEq_idx].
  rewrite !snd_setA by assumption.
  rewrite (kBin_ok o h n bp); try assumption; [|intro E; apply Nat.eqb_eq in E; subst; reflexivity..|apply twoEq_idx].
  rewrite setAB by assumption. reflexivity.
Qed.
Theorem aadd_ok d l r : Forall isW2 m -> (d < length m)%nat -> (l < length m)%nat -> (r < length m)%nat ->
  aadd P K d l r m bp = Some (setl m d (fp2add F (rd m l) (rd m r)), bp).
Proof. intros Hm. apply (abin_ok KAdd (addP F)); [apply add_K; exact Hb|exact Hm]. Qed.
Theorem asub_ok d l r : Forall isW2 m -> (d < length m)%nat -> (l < length m)%nat -> (r < length m)%nat ->
  asub P K d l r m bp = Some (setl m d (fp2sub F (rd m l) (rd m r)), bp).
Proof. intros Hm. apply (abin_ok KSub (subP F)); [apply sub_K; exact Hb|exact Hm]. Qed.

Ltac kb o h k := rewrite (kBin_ok o h k) by (first [assumption|apply (ok_isW _ zero1_ok)|apply zero2_W|apply ok_isW; assumption|intro; discriminate|intro; reflexivity|reflexivity|
  apply sub_K; assumption|apply add_K; assumption|apply adl_K; assumption|apply sul_K; assumption]).
Theorem amul_ok d l r : Forall ok2 m -> (d < length m)%nat -> (l < length m)%nat -> (r < length m)%nat ->
  exists bp', amul P K d l r m bp = Some (setl m d (fp2mul F (rd m l) (rd m r)), bp') /\ is_w64 bp'.
Proof.
  intros Hm Ld Ll Lr. pose proof (rd_in _ m d Hm Ld) as [D1 D2]. pose proof (rd_in _ m l Hm Ll) as [A1 A2]. pose proof (rd_in _ m r Hm Lr) as [B1 B2].
  unfold amul. set (x := rd m l) in *. set (y := rd m r) in *.
  assert (Exy : (l =? r)%nat = true -> x = y) by (intro E; apply Nat.eqb_eq in E; unfold x, y; subst; reflexivity).
  destruct (kMul_ok bp (l =? r)%nat (zero2 P) (fst x) (fst y) Hb zero2_W (fpok_mulOk P _ A1) (fpok_mulOk P _ B1)) as (bp1 & E1 & Hb1); [intro E; rewrite (Exy E); reflexivity|]. rewrite E1. clear E1.
  destruct (kMul_ok bp1 (l =? r)%nat (zero2 P) (snd x) (snd y) Hb1 zero2_W (fpok_mulOk P _ A2) (fpok_mulOk P _ B2)) as (bp2 & E2 & Hb2); [intro E; rewrite (Exy E); reflexivity|]. rewrite E2. clear E2.
  destruct (prod_ok _ _ A1 B1) as [OAC VAC]. destruct (prod_ok _ _ A2 B2) as [OBD VBD].
  kb KSub (subP F) (nOf P). kb KSub (subP F) (nOf P).
  pose proof (proj1 (subP_spec F p OK _ _ A2 A1)) as BA. pose proof (proj1 (subP_spec F p OK _ _ B1 B2)) as CD.
  destruct (kMul_ok bp2 false (zero2 P) _ _ Hb2 zero2_W (fpok_mulOk P _ BA) (fpok_mulOk P _ CD) ltac:(discriminate)) as (bp3 & E3 & Hb3). rewrite E3. clear E3.
  destruct (prod_ok _ _ BA CD) as [OM VM]. pose proof p16 as P16. pose proof pR2 as PR. pose proof pp0 as PP.
  set (M := mulPx F (subP F (snd x) (fst x)) (subP F (fst y) (snd y))) in *. set (ac := mulPx F (fst x) (fst y)) in *. set (bd := mulPx F (snd x) (snd y)) in *.
  kb KAdl adlP (2 * n)%nat.
  destruct (adlP_spec F M ac OM OAC ltac:(fold (nOf P); lia)) as [OA1 VA1].
  kb KAdl adlP (2 * n)%nat.
  destruct (adlP_spec F (adlP M ac) bd OA1 OBD ltac:(fold (nOf P); lia)) as [OA2 VA2].
  destruct (kRdc_ok bp3 (snd (rd m d)) (adlP (adlP M ac) bd) Hb3 (ok_isW _ D2) OA2 ltac:(lia)) as (q1 & bp4 & E4 & _ & Hb4). rewrite E4. clear E4.
  kb KSul (sulP F) (2 * n)%nat. rewrite fst_setB by assumption.
  destruct (sulP_spec F p OK ac bd OAC OBD ltac:(fold (nOf P); lia)) as [OS VS].
  destruct (kRdc_ok bp4 (fst (rd m d)) (sulP F ac bd) Hb4 (ok_isW _ D1) OS) as (q2 & bp5 & E5 & _ & Hb5).
  { rewrite VS. fold (nOf P). destruct (_ <? _) eqn:?; lia. }
  rewrite E5. clear E5. rewrite setBA by assumption. exists bp5. split; [reflexivity|exact Hb5].
Qed.
Theorem asqr_ok d k : Forall ok2 m -> (d < length m)%nat -> (k < length m)%nat ->
  exists bp', asqr P K d k m bp = Some (setl m d (fp2sqr F (rd m k)), bp') /\ is_w64 bp'.
Proof.
  intros Hm Ld Ll. pose proof (rd_in _ m d Hm Ld) as [D1 D2]. pose proof (rd_in _ m k Hm Ll) as [A1 A2].
  unfold asqr. set (x := rd m k) in *. 
  kb KAdd (addP F) (nOf P). kb KAdd (addP F) (nOf P). kb KSub (subP F) (nOf P).
  pose proof (proj1 (addP_spec F p OK _ _ A1 A1)) as AA. pose proof (proj1 (addP_spec F p OK _ _ A1 A2)) as AB. pose proof (proj1 (subP_spec F p OK _ _ A1 A2)) as AM.
  destruct (kMul_ok bp false (zero2 P) _ _ Hb zero2_W (fpok_mulOk P _ AB) (fpok_mulOk P _ AM) ltac:(discriminate)) as (bp1 & E1 & Hb1). rewrite E1. clear E1.
  destruct (kMul_ok bp1 false (zero2 P) _ _ Hb1 zero2_W (fpok_mulOk P _ AA) (fpok_mulOk P _ A2) ltac:(discriminate)) as (bp2 & E2 & Hb2). rewrite E2. clear E2.
  destruct (prod_ok _ _ AB AM) as [O1 V1]. destruct (prod_ok _ _ AA A2) as [O2 V2]. pose proof p16 as P16. pose proof pp0 as PP.
  destruct (kRdc_ok bp2 (fst (rd m d)) _ Hb2 (ok_isW _ D1) O1 ltac:(lia)) as (q1 & bp4 & E4 & _ & Hb4). rewrite E4. clear E4.
  rewrite snd_setA by assumption.
  destruct (kRdc_ok bp4 (snd (rd m d)) _ Hb4 (ok_isW _ D2) O2 ltac:(lia)) as (q2 & bp5 & E5 & _ & Hb5). rewrite E5. clear E5.
  rewrite setAB by assumption. exists bp5. split; [reflexivity|exact Hb5].
Qed.
Theorem ainv_ok d k : Forall ok2 m -> (d < length m)%nat -> (k < length m)%nat ->
  exists bp', ainv P K d k m bp = Some (setl m d (fp2inv F (rd m k)), bp') /\ is_w64 bp'.
Proof.
  intros Hm Ld Ll. pose proof (rd_in _ m d Hm Ld) as [D1 D2]. pose proof (rd_in _ m k Hm Ll) as [A1 A2].
  unfold ainv, fp2inv. 
  destruct (kMul_ok bp true (zero2 P) _ _ Hb zero2_W (fpok_mulOk P _ A1) (fpok_mulOk P _ A1) (fun _ => eq_refl)) as (bp1 & E1 & Hb1). rewrite E1. clear E1.
  destruct (kMul_ok bp1 true (zero2 P) _ _ Hb1 zero2_W (fpok_mulOk P _ A2) (fpok_mulOk P _ A2) (fun _ => eq_refl)) as (bp2 & E2 & Hb2). rewrite E2. clear E2.
  destruct (prod_ok _ _ A1 A1) as [O1 V1]. destruct (prod_ok _ _ A2 A2) as [O2 V2]. pose proof p16 as P16. pose proof pR2 as PR. pose proof pp0 as PP.
  kb KAdl adlP (2 * n)%nat.
  destruct (adlP_spec F _ _ O1 O2 ltac:(fold (nOf P); lia)) as [OA VA]. set (e1 := adlP _ _) in *.
  destruct (kRdc_ok bp2 (zero1 P) e1 Hb2 (ok_isW _ zero1_ok) OA ltac:(lia)) as (q1 & bp3 & E3 & W3 & Hb3). rewrite E3. clear E3.
  assert (F1 : ok (rdc F e1)) by (apply (rdc_ok F p OK); [exact OA|fold (nOf P); lia]). set (f1 := rdc F e1) in *.
  destruct (amulP_ok bp3 true (zero1 P) f1 f1 Hb3 (ok_isW _ zero1_ok) F1 F1 (fun _ => eq_refl)) as (bp4 & E4 & Hb4). rewrite E4. clear E4.
  destruct (ap34_ok bp4 _ Hb4 (mulP_fpok _ _ F1 F1)) as (bp5 & E5 & Hb5 & O5). rewrite E5. clear E5. set (u := p34 F _) in *.
  destruct (amulP_ok bp5 true u u u Hb5 (ok_isW _ O5) O5 O5 (fun _ => eq_refl)) as (bp6 & E6 & Hb6). rewrite E6. clear E6.
  pose proof (mulP_fpok _ _ O5 O5) as O6.
  destruct (amulP_ok bp6 false _ _ f1 Hb6 (ok_isW _ O6) O6 F1 ltac:(discriminate)) as (bp7 & E7 & Hb7). rewrite E7. clear E7.
  pose proof (mulP_fpok _ _ O6 F1) as O7. set (f2 := mulP F (mulP F u u) f1) in *.
  destruct (kMul_ok bp7 false q1 (fst (rd m k)) f2 Hb7 W3 (fpok_mulOk P _ A1) (fpok_mulOk P _ O7) ltac:(discriminate)) as (bp8 & E8 & Hb8). rewrite E8. clear E8.
  destruct (prod_ok _ _ A1 O7) as [O8 V8].
  destruct (kRdc_ok bp8 (fst (rd m d)) _ Hb8 (ok_isW _ D1) O8 ltac:(lia)) as (q2 & bp9 & E9 & W9 & Hb9). rewrite E9. clear E9.
  rewrite !snd_setA by assumption.
  kb KSub (subP F) (nOf P). pose proof (proj1 (subP_spec F p OK _ _ zero1_ok A2)) as OB. change (zero1 P) with (zeroFp F) in *.
  destruct (kMul_ok bp9 false q2 _ f2 Hb9 W9 (fpok_mulOk P _ OB) (fpok_mulOk P _ O7) ltac:(discriminate)) as (bp10 & E10 & Hb10). rewrite E10. clear E10.
  destruct (prod_ok _ _ OB O7) as [O10 V10].
  destruct (kRdc_ok bp10 (snd (rd m d)) _ Hb10 (ok_isW _ D2) O10 ltac:(lia)) as (q3 & bp11 & E11 & _ & Hb11). rewrite E11. clear E11.
  rewrite setAB by assumption. exists bp11. split; [reflexivity|exact Hb11].
Qed.

Definition mulOk2 (x : fp2) : Prop := mulOk P (fst x) /\ mulOk P (snd x).
Lemma R2_ok : ok (fR2 F) /\ val (fR2 F) < p.
Proof. destruct (fo_R2 _ _ OK) as (W & L & V). pose proof (p_pos F p OK). pose proof (Z.mod_pos_bound (B ^ Z.of_nat (FpWords F) * B ^ Z.of_nat (FpWords F)) p ltac:(lia)). split; [split; [exact W|split; [exact L|lia]]|lia]. Qed.
Lemma below_pR a b R : 0 <= a < R -> 0 <= b < p -> a * b < p * R.
Proof. intros. pose proof (p_pos F p OK). nia. Qed.
Lemma prodR2 x : mulOk P x -> isW (2 * n) (mulPx F x (fR2 F)) /\ val (mulPx F x (fR2 F)) < p * Rof P.
Proof.
  intros [Hx _]. destruct R2_ok as [(W2 & L2 & _) V2].
  destruct (mulPx_spec F x (fR2 F) (proj1 Hx) W2 (proj2 Hx) L2 (fo_n1 _ _ OK) (fo_n2 _ _ OK)) as (A & C & D).
  split; [split; assumption|]. rewrite D. apply below_pR; [apply val_isW; exact Hx|]. pose proof (val_bound _ W2). lia.
Qed.
Theorem aToMont_ok d k : match K with Amd64 _ _ fp => is_w64 fp | Arm64 => True end ->
  Forall isW2 m -> (d < length m)%nat -> (k < length m)%nat -> mulOk2 (rd m k) ->
  exists bp', aToMont P K d k m bp = Some (setl m d (ToMontgomery F (rd m k)), bp') /\ is_w64 bp'.
Proof.
  clear HK. intros HA Hm Ld Ll [A1 A2]. pose proof (rd_in _ m d Hm Ld) as [D1 D2]. pose proof (fpok_mulOk P _ (proj1 R2_ok)) as R2.
  assert (S : forall x, isW n x -> safe x (fR2 F)).
  { intros x Hx. unfold safe. destruct K; [exact HA|]. intro E. pose proof (proj1 (val_isW _ _ Hx)) as V. unfold F. rewrite E. exact (R2_right (val x) V). }
  unfold aToMont, ToMontgomery.
  destruct (kMul_gen bp false (zero2 P) _ _ (S _ (proj1 A1)) Hb zero2_W A1 R2 ltac:(discriminate)) as (bp1 & E1 & Hb1). rewrite E1. clear E1.
  destruct (prodR2 _ A1) as [O1 V1]. destruct (prodR2 _ A2) as [O2 V2].
  destruct (kRdc_ok bp1 (fst (rd m d)) _ Hb1 D1 O1 V1) as (q & bp2 & E2 & W2 & Hb2). rewrite E2. clear E2. rewrite !snd_setA by assumption.
  destruct (kMul_gen bp2 false q _ _ (S _ (proj1 A2)) Hb2 W2 A2 R2 ltac:(discriminate)) as (bp3 & E3 & Hb3). rewrite E3. clear E3.
  destruct (kRdc_ok bp3 (snd (rd m d)) _ Hb3 D2 O2 V2) as (q' & bp4 & E4 & _ & Hb4). rewrite E4. clear E4.
  rewrite setAB by assumption. exists bp4. split; [reflexivity|exact Hb4].
Qed.
Lemma pad_ok x : isW n x -> isW (2 * n) (x ++ repeat 0 n) /\ val (x ++ repeat 0 n) < p * Rof P.
Proof.
  intros Hx. pose proof (val_isW _ _ Hx). pose proof (p_pos F p OK). split; [split; [apply words_app; [apply Hx|apply words_repeat_0]|rewrite app_length, repeat_length, (proj2 Hx); lia]|].
  rewrite val_pad. nia.
Qed.
Lemma cleared x : isW (2 * n) x -> skipn n (map (fun _ => 0) x) = repeat 0 n.
Proof.
  intros [_ L]. rewrite <- (firstn_skipn n x), map_app, skipn_app, skipn_all2 by (rewrite map_length, firstn_length; lia).
  rewrite map_length, firstn_length, Nat.min_l, Nat.sub_diag by lia. cbn [skipn app].
  assert (Lr : length (skipn n x) = n) by (rewrite skipn_length; lia). rewrite <- Lr at 2. generalize (skipn n x). clear. induction l as [|a l IH]; cbn; [reflexivity|f_equal; exact IH].
Qed.
Theorem aFromMont_ok d k : Forall isW2 m -> (d < length m)%nat -> (k < length m)%nat ->
  exists bp', aFromMont P K d k m bp = Some (setl m d (FromMontgomery F (rd m k)), bp') /\ is_w64 bp'.
Proof.
  intros Hm Ld Ll. pose proof (rd_in _ m d Hm Ld) as [D1 D2]. pose proof (rd_in _ m k Hm Ll) as [A1 A2].
  unfold aFromMont, FromMontgomery, kMod. fold (nOf P).
  destruct (pad_ok _ A1) as [O1 V1]. destruct (pad_ok _ A2) as [O2 V2].
  destruct (kRdc_ok bp (fst (rd m d)) _ Hb D1 O1 V1) as (q & bp1 & E1 & W1 & Hb1). rewrite E1. clear E1.
  rewrite mod_K by first [exact Hb1|apply ok_isW, (rdc_ok F p OK); [exact O1|exact V1]].
  rewrite !snd_setA, (cleared q W1) by assumption.
  destruct (kRdc_ok bp1 (snd (rd m d)) _ Hb1 D2 O2 V2) as (q' & bp2 & E2 & _ & Hb2). rewrite E2. clear E2.
  rewrite mod_K by first [exact Hb2|apply ok_isW, (rdc_ok F p OK); [exact O2|exact V2]].
  rewrite setAB by assumption. exists bp2. split; [reflexivity|exact Hb2].
Qed.
End Mem.
Lemma w64_xor a b : is_w64 a -> is_w64 b -> is_w64 (Z.lxor a b).
Proof.
  unfold is_w64. intros Ha Hb. split; [apply Z.lxor_nonneg; lia|].
  destruct (Z.eq_dec (Z.lxor a b) 0) as [->|N]; [lia|]. apply Z.log2_lt_pow2; [assert (0 <= Z.lxor a b) by (apply Z.lxor_nonneg; lia); lia|].
  eapply Z.le_lt_trans; [apply Z.log2_lxor; lia|]. apply Z.max_lub_lt.
  - destruct (Z.eq_dec a 0) as [->|]; [cbn; lia|apply Z.log2_lt_pow2; lia].
  - destruct (Z.eq_dec b 0) as [->|]; [cbn; lia|apply Z.log2_lt_pow2; lia].
Qed.
Lemma w64_and a b : 0 <= a -> is_w64 b -> is_w64 (Z.land a b).
Proof.
  unfold is_w64. intros Ha Hb. split; [apply Z.land_nonneg; lia|].
  destruct (Z.eq_dec (Z.land a b) 0) as [->|N]; [lia|]. apply Z.log2_lt_pow2; [assert (0 <= Z.land a b) by (apply Z.land_nonneg; lia); lia|].
  eapply Z.le_lt_trans; [apply Z.log2_land; lia|]. eapply Z.le_lt_trans; [apply Z.le_min_r|].
  destruct (Z.eq_dec b 0) as [->|]; [cbn; lia|apply Z.log2_lt_pow2; lia].
Qed.
Lemma swap_W x y w : isW n x -> isW n y -> isW n (fst (cswapP x y w)) /\ isW n (snd (cswapP x y w)).
Proof.
  intros [Wx Lx] [Wy Ly]. unfold cswapP. assert (Hm : 0 <= sub64w 0 w) by (unfold sub64w; apply Z.mod_pos_bound; lia).
  revert Hm. generalize (sub64w 0 w). intros v Hv. revert y Wy Ly. revert x Wx Lx. generalize n.
  intros k x Wx. revert k. induction Wx as [|a x Ha Wx IH]; intros k Lx y Wy Ly; destruct Wy as [|b y Hb Wy]; cbn [length] in *; try lia.
  - cbn. repeat split; try constructor; assumption.
  - destruct k as [|k]; [lia|]. specialize (IH k ltac:(lia) y Wy ltac:(lia)). cbn [cswap_words]. destruct (cswap_words v x y) as [r s]. cbn [fst snd] in *.
    destruct IH as [[I1 I2] [I3 I4]].
    assert (Ht : is_w64 (Z.land v (Z.lxor a b))) by (apply w64_and; [exact Hv|apply w64_xor; assumption]).
    repeat split; cbn [length]; try lia; constructor; try assumption; apply w64_xor; assumption.
Qed.
Definition swapped (x y : nat) (w : Z) (m : fpmem) : fpmem :=
  if (x =? y)%nat then m else setl (setl m x (fst (fp2cswap (rd m x) (rd m y) w))) y (snd (fp2cswap (rd m x) (rd m y) w)).
Lemma acswap1_ok m bp x y w : swapByte K w -> Forall isW2 m -> (x < length m)%nat -> (y < length m)%nat -> acswap1 P K x y w m bp = Some (swapped x y (w mod 256) m, bp).
Proof.
  intros Hw Hm Lx Ly. pose proof (rd_in _ m x Hm Lx) as [X1 X2]. pose proof (rd_in _ m y Hm Ly) as [Y1 Y2].
  unfold acswap1, swapped, kSwap. destruct (Nat.eqb_spec x y) as [<-|N].
  - rewrite (proj2 (cswap_K _ _ w bp Hw X1 X1)). 
    assert (E : setA (setA m x (fst (rd m x))) x (fst (rd m x)) = m).
    { unfold setA. rewrite rd_same, setl_setl by assumption. cbn [snd]. rewrite <- surjective_pairing. apply setl_rd, Lx. }
    rewrite E, (proj2 (cswap_K _ _ w bp Hw X2 X2)). unfold setB. rewrite rd_same, setl_setl by assumption. cbn [fst]. rewrite <- surjective_pairing, setl_rd by assumption. reflexivity.
  - rewrite (proj1 (cswap_K _ _ w bp Hw X1 Y1)). set (a := fst (cswapP (fst (rd m x)) _ _)). set (b := snd (cswapP (fst (rd m x)) _ _)).
    assert (Lx' : (x < length (setA m x a))%nat) by (unfold setA; rewrite setl_len; assumption).
    assert (Ly' : (y < length (setA m x a))%nat) by (unfold setA; rewrite setl_len; assumption).
    rewrite !snd_setA by assumption. rewrite (proj1 (cswap_K _ _ w bp Hw X2 Y2)). set (c := fst (cswapP (snd (rd m x)) _ _)). set (e := snd (cswapP (snd (rd m x)) _ _)).
    do 2 f_equal. unfold fp2cswap.
    assert (E1 : cswapP (fst (rd m x)) (fst (rd m y)) (w mod 256) = (a, b)) by (unfold a, b; apply surjective_pairing).
    assert (E2 : cswapP (snd (rd m x)) (snd (rd m y)) (w mod 256) = (c, e)) by (unfold c, e; apply surjective_pairing).
    rewrite E1, E2. clearbody a b c e. cbn [fst snd]. unfold setA, setB.
    rewrite (rd_other m x y) by assumption.
    rewrite (rd_other (setl m x _) y x), (rd_same m x) by (rewrite ?setl_len; auto). cbn [fst].
    rewrite (rd_other _ x y) by (rewrite ?setl_len; rewrite ?setl_len; auto). rewrite rd_same by (rewrite setl_len; assumption). cbn [fst].
    rewrite (setl_swap (setl m x _) x y), !setl_setl by (rewrite ?setl_len; rewrite ?setl_len; auto). reflexivity.
Qed.
Theorem acswap_ok m bp xPx xPz xQx xQz w : swapByte K w -> Forall isW2 m -> (xPx < length m)%nat -> (xPz < length m)%nat -> (xQx < length m)%nat -> (xQz < length m)%nat ->
  acswap P K xPx xPz xQx xQz w m bp = Some (swapped xPz xQz (w mod 256) (swapped xPx xQx (w mod 256) m), bp).
Proof.
  intros Hw Hm L1 L2 L3 L4. unfold acswap. rewrite acswap1_ok by assumption.
  assert (G : Forall isW2 (swapped xPx xQx (w mod 256) m) /\ length (swapped xPx xQx (w mod 256) m) = length m).
  { unfold swapped. destruct (Nat.eqb_spec xPx xQx) as [|N]; [split; [exact Hm|reflexivity]|].
    pose proof (rd_in _ m xPx Hm L1) as [X1 X2]. pose proof (rd_in _ m xQx Hm L3) as [Y1 Y2].
    pose proof (swap_W _ _ (w mod 256) X1 Y1) as [A1 A2]. pose proof (swap_W _ _ (w mod 256) X2 Y2) as [A3 A4].
    unfold fp2cswap. destruct (cswapP (fst (rd m xPx)) _ _), (cswapP (snd (rd m xPx)) _ _). cbn [fst snd] in *.
    split; [|rewrite !setl_len; rewrite ?setl_len; auto].
    apply Forall_setl; [apply Forall_setl; [exact Hm|split; assumption]|split; assumption]. }
  destruct G as [G1 G2]. rewrite acswap1_ok by (rewrite ?G2; assumption). reflexivity.
Qed.
End Calls.
