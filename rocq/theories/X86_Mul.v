(* Symbolic calls whose input words have known upper bounds, and the checks used for the multiplication and reduction
   kernels of dh/sidh: congruences modulo powers of 2^64, and carries that are lost because they are always 0. *)
From Coq Require Import ZArith List Lia Bool.
From Verif Require Import Lib MP X86 X86_Sym X86_Call X86_Lin.
Import ListNotations.
Open Scope Z_scope.

(* ---------- input words with bounds ---------- *)
Fixpoint sblockB (off : nat) (us : list Z) : list sw :=
  match us with [] => [] | u :: us' => mkSw (wordA (tn off)) u :: sblockB (S off) us' end.
Fixpoint sblocksB (off : nat) (us : list (list Z)) : list (list sw) :=
  match us with [] => [] | b :: l => sblockB off b :: sblocksB (off + length b) l end.
Definition sstartB (n : nat) (spec : list argS) (naw : nat) (us globs : list (list Z)) : st sdom :=
  start sdom (tn (S naw + fold_right Nat.add 0%nat (map (@length Z) us)), []) (sword 0) n (map sarg spec) (sblocksB (S naw) us) (map (map scst) globs).
Definition under (us : list (list Z)) (blocks : list (list Z)) : Prop := Forall2 (Forall2 (fun u x => 0 <= x <= u /\ u < B)) us blocks.
Lemma F2_length {X Y} (P : X -> Y -> Prop) l m : Forall2 P l m -> length l = length m.
Proof. induction 1; cbn [length]; congruence. Qed.
Lemma under_len us blocks : under us blocks -> map (@length Z) us = map (@length Z) blocks.
Proof. induction 1 as [|u b us bs H _ IH]; [reflexivity|]. cbn [map]. rewrite (F2_length _ _ _ H), IH. reflexivity. Qed.
Lemma under_words us blocks : under us blocks -> Forall words blocks.
Proof.
  induction 1 as [|u b us bs H _ IH]; constructor; [|exact IH]. induction H as [|x y l m H' _ IH']; constructor; [unfold is_w64; lia|exact IH'].
Qed.
Lemma RW_inB xs k u : (k < length xs)%nat -> 0 <= nth k xs 0 <= u -> u < B -> RW (inTrace xs) (nth k xs 0) (mkSw (wordA (tn k)) u).
Proof.
  intros Hk Hu Hb e [_ He]. unfold relW. cbn [pl ub]. rewrite peval_word.
  assert (En : nth_error (inTrace xs) k = Some (false, nth k xs 0)).
  { unfold inTrace. rewrite nth_error_map. rewrite (nth_error_nth' xs 0 Hk). reflexivity. }
  specialize (He _ _ _ En). cbn [atom] in He. rewrite He. lia.
Qed.
Lemma RW_blockB xs us l : Forall2 (fun u x => 0 <= x <= u /\ u < B) us l -> forall off,
  (forall i, (i < length l)%nat -> (off + i < length xs)%nat /\ nth (off + i) xs 0 = nth i l 0) -> Forall2 (RW (inTrace xs)) l (sblockB off us).
Proof.
  induction 1 as [|u x us l Hu _ IH]; intros off Hl; cbn [sblockB]; [constructor|]. constructor.
  - destruct (Hl 0%nat ltac:(cbn; lia)) as [H1 H2]. cbn [nth] in H2. rewrite Nat.add_0_r in *. rewrite <- H2. apply RW_inB; [exact H1|rewrite H2; lia|lia].
  - apply IH. intros i Hi. destruct (Hl (S i) ltac:(cbn; lia)) as [H1 H2]. cbn [nth] in H2.
    replace (S off + i)%nat with (off + S i)%nat by lia. auto.
Qed.
Lemma RW_blocksB xs us blocks : under us blocks -> forall off,
  (forall i, (i < length (concat blocks))%nat -> (off + i < length xs)%nat /\ nth (off + i) xs 0 = nth i (concat blocks) 0) ->
  Forall2 (Forall2 (RW (inTrace xs))) blocks (sblocksB off us).
Proof.
  induction 1 as [|u b us bs Hu _ IH]; intros off Hc; cbn [sblocksB]; [constructor|].
  cbn [concat] in Hc. constructor.
  - apply RW_blockB; [exact Hu|]. intros i Hi. destruct (Hc i) as [H1 H2]; [rewrite app_length; lia|].
    split; [exact H1|]. rewrite H2. apply app_nth1, Hi.
  - rewrite (F2_length _ _ _ Hu). apply IH. intros i Hi. destruct (Hc (length b + i)%nat) as [H1 H2]; [rewrite app_length; lia|].
    rewrite Nat.add_assoc in *. split; [exact H1|]. rewrite H2, app_nth2 by lia. f_equal. lia.
Qed.
Lemma start_okB n spec aw us blocks globs bp :
  words (inputs bp aw blocks) -> under us blocks -> Forall words globs -> specOk (length aw) spec ->
  Rst (inTrace (inputs bp aw blocks)) (start zdom Datatypes.tt bp n (map (zarg aw) spec) blocks globs)
      (sstartB n spec (length aw) us globs).
Proof.
  intros Hw Hu Hg Hs. pose proof (start_ok n spec aw blocks globs bp Hw Hg Hs) as [A1 A2 A3 A4 A5 A6 A7].
  constructor; [exact A1|exact A2| |exact A4|exact A5|exact A6|].
  - cbn [start sstartB mem]. constructor.
    + clear. induction n; cbn [repeat]; constructor; auto. exact Logic.I.
    + set (xs := inputs bp aw blocks) in *.
      apply (F2_map (Forall2 (RW (inTrace xs)))); [intros x y; apply (F2_map (RW (inTrace xs))); intros; assumption|].
      apply RW_blocksB; [exact Hu|]. intros i Hi. unfold xs, inputs. split.
      * cbn [length]. rewrite app_length. lia.
      * replace (S (length aw) + i)%nat with (S (length aw + i)) by lia. cbn [nth]. rewrite app_nth2 by lia. f_equal. lia.
  - cbn [start sstartB sstart tt] in A7 |- *. rewrite (under_len _ _ Hu). exact A7.
Qed.
Definition symCallB (n : nat) (code : list instr) (spec : list argS) (naw : nat) (us globs : list (list Z)) : option (list (list poly) * poly * list poly) :=
  match run sdom maxSteps code (sstartB n spec naw us globs) with
  | Some t =>
    match polyBlocks (tl (mem t)), rreg sdom t BP with
    | Some bl, Some (Wd v) => Some (bl, pl v, snd (tt t))
    | _, _ => None
    end
  | None => None
  end.
Definition env_ok (e : positive -> Z) (bp : Z) (aw : list Z) (blocks : list (list Z)) : Prop :=
  bits e /\ forall i, (i < length (inputs bp aw blocks))%nat -> e (xI (tn i)) = nth i (inputs bp aw blocks) 0.
(* a check of the arrays and BP afterwards and of the words on the way *)
Definition symOkB (n : nat) (code : list instr) (spec : list argS) (naw : nat) (us globs : list (list Z))
    (chk : list (list poly) -> poly -> list poly -> bool) : bool :=
  match symCallB n code spec naw us globs with Some (outs, bpp, facts) => chk outs bpp facts | None => false end.
Theorem sym_outB n code spec naw us globs chk : symOkB n code spec naw us globs chk = true ->
  forall bp aw blocks, is_w64 bp -> words aw -> under us blocks -> Forall words globs -> length aw = naw -> specOk naw spec ->
  exists e outs bpp facts, env_ok e bp aw blocks /\
    call n code (map (zarg aw) spec) blocks globs bp = Some (map (map (peval e)) outs, peval e bpp) /\
    Forall words (map (map (peval e)) outs) /\ 0 <= peval e bpp < B /\ (forall p, In p facts -> 0 <= peval e p < B) /\ chk outs bpp facts = true.
Proof.
  unfold symOkB, symCallB. intros H bp aw blocks Hbp Haw Hu Hg El Hs. subst naw.
  pose proof (under_words _ _ Hu) as Hb.
  assert (Hw : words (inputs bp aw blocks)).
  { unfold inputs. constructor; [exact Hbp|]. apply Forall_app. split; [exact Haw|]. clear - Hb. induction Hb; cbn [concat]; [constructor|]. apply Forall_app. auto. }
  set (xs := inputs bp aw blocks) in *.
  destruct (run sdom maxSteps code _) as [t|] eqn:Er; [|discriminate].
  destruct (sym_run _ _ _ _ _ _ (inTrace_ok xs) (start_okB n spec aw us blocks globs bp Hw Hu Hg Hs) Er) as (s & Es & x & Hx & Rs).
  destruct (polyBlocks (tl (mem t))) as [bl|] eqn:Eb; [|discriminate].
  destruct (rreg sdom t BP) as [[v| | |]|] eqn:Ev; try discriminate.
  pose proof (envOf_agrees _ Hx) as He. set (e := envOf (inTrace xs ++ x)) in *. exists e, bl, (pl v), (snd (tt t)).
  split; [split; [exact (proj1 He)|]|].
  { intros i Hi. apply (proj2 (agrees_app _ _ _ He) i false). unfold inTrace. rewrite nth_error_map, (nth_error_nth' xs 0 Hi). reflexivity. }
  unfold call. rewrite Es.
  assert (Hm : Forall2 (Forall2 (RC (inTrace xs ++ x))) (tl (mem s)) (tl (mem t))) by (destruct (R_mem _ _ _ Rs); [constructor|assumption]).
  destruct (out_blocks _ e _ _ _ He Hm Eb) as [-> Ho].
  destruct (rreg_ok _ _ _ _ _ Rs Ev) as (c & -> & Hc). destruct c as [z| | |]; try (destruct Hc; fail).
  destruct (Hc e He) as (Zb & Zu & Ez). rewrite Ez. split; [reflexivity|]. split; [exact Ho|]. split; [lia|]. split; [|exact H].
  intros p Hp. exact (proj2 (R_tt _ _ _ Rs) p Hp e He).
Qed.

(* ---------- congruences modulo 2^(64m) ---------- *)
Fixpoint tz (k : nat) (p : positive) : bool := match k with O => true | S k' => match p with xO p' => tz k' p' | _ => false end end.
Lemma tz_ok k : forall p, tz k p = true -> (2 ^ Z.of_nat k | Zpos p).
Proof.
  induction k as [|k IH]; intros p H; [exists (Zpos p); change (2 ^ Z.of_nat 0) with 1; lia|].
  destruct p as [p|p|]; cbn [tz] in H; try discriminate. destruct (IH p H) as [q Hq]. exists q.
  rewrite Nat2Z.inj_succ, Z.pow_succ_r by lia. rewrite Pos2Z.inj_xO, Hq. ring.
Qed.
Definition tzZ (k : nat) (z : Z) : bool := match z with Z0 => true | Zpos p | Zneg p => tz k p end.
Lemma tzZ_ok k z : tzZ k z = true -> (2 ^ Z.of_nat k | z).
Proof.
  destruct z as [|p|p]; cbn [tzZ]; intro H; [apply Z.divide_0_r|apply tz_ok, H|].
  apply tz_ok in H. apply Z.divide_opp_r. exact H.
Qed.
Definition pz (m : nat) (p : poly) : bool := let k := (64 * m)%nat in forallb (fun t => tzZ k (snd t)) p.
Lemma B_pow m : B ^ Z.of_nat m = 2 ^ Z.of_nat (64 * m).
Proof. rewrite <- Z.pow_mul_r by lia. f_equal. lia. Qed.
Lemma pz_ok m p e : pz m p = true -> (B ^ Z.of_nat m | peval e p).
Proof.
  rewrite B_pow. unfold pz. set (k := (64 * m)%nat). induction p as [|[mn c] p IH]; cbn [forallb snd peval]; intro H; [apply Z.divide_0_r|].
  apply andb_prop in H as [H1 H2]. apply Z.divide_add_r; [|apply IH, H2]. apply Z.divide_mul_l, tzZ_ok, H1.
Qed.
Lemma cong_eq N a b : 0 <= a < N -> 0 <= b < N -> (N | a - b) -> a = b.
Proof. intros Ha Hb [q Hq]. assert (q = 0) by nia. subst q. lia. Qed.

(* ---------- atoms known to be 0 ---------- *)
Definition drop (zs : list positive) (p : poly) : poly := filter (fun t => negb (existsb (fun a => existsb (Pos.eqb a) zs) (fst t))) p.
Definition zero (e : positive -> Z) (zs : list positive) : Prop := forall a, In a zs -> e a = 0.
Lemma meval_zero e zs m : zero e zs -> existsb (fun a => existsb (Pos.eqb a) zs) m = true -> meval e m = 0.
Proof.
  intro Hz. induction m as [|a m IH]; cbn [existsb meval]; [discriminate|]. intro H. apply orb_prop in H as [H|H].
  - apply existsb_exists in H as (b & Hb & E). apply Pos.eqb_eq in E. subst b. rewrite (Hz a Hb). ring.
  - rewrite (IH H). ring.
Qed.
Lemma peval_drop e zs p : zero e zs -> peval e (drop zs p) = peval e p.
Proof.
  intro Hz. induction p as [|[m c] p IH]; [reflexivity|]. cbn [drop filter fst]. fold (drop zs p).
  destruct (existsb _ m) eqn:E; cbn [negb peval]; rewrite IH; [rewrite (meval_zero e zs m Hz E); ring|reflexivity].
Qed.
(* a combination of bits with negative multiples of 2^k as coefficients *)
Fixpoint negBits (k : nat) (p : poly) : option (list positive) :=
  match p with
  | [] => Some []
  | (m, c) :: p' => match m, c, negBits k p' with [xO a], Zneg q, Some l => if tz k q then Some (xO a :: l) else None | _, _, _ => None end
  end.
Lemma negBits_ok k e : forall p l, bits e -> negBits k p = Some l ->
  exists s, 0 <= s /\ peval e p = - (2 ^ Z.of_nat k * s) /\ (s = 0 -> zero e l).
Proof.
  induction p as [|[m c] p IH]; intros l He H; cbn [negBits] in H.
  - injection H as <-. exists 0. split; [lia|]. split; [cbn [peval]; lia|]. intros _ a [].
  - destruct m as [|[a|a|] [|]]; try discriminate. destruct c as [|q|q]; try discriminate. destruct (negBits k p) as [l'|] eqn:E; [|discriminate].
    destruct (tz k q) eqn:Et; [|discriminate]. injection H as <-. destruct (IH l' He eq_refl) as (s & Hs & Es & Zs).
    destruct (tz_ok k q Et) as [c Hc]. assert (Hp : 0 < 2 ^ Z.of_nat k) by (apply Z.pow_pos_nonneg; lia). assert (Hc0 : 0 < c) by nia.
    pose proof (He a) as Ha. exists (c * e (xO a) + s). split; [nia|]. split.
    + cbn [peval meval]. rewrite Es. change (Zneg q) with (- Zpos q). rewrite Hc. ring.
    + intros Hz b [<-|Hb]; [nia|]. apply Zs; [nia|exact Hb].
Qed.

(* ---------- products of words met on the way ---------- *)
Definition sel (fs : list poly) (l : list nat) : list poly := map (fun i => nth i fs []) l.
Definition below (n : nat) (l : list nat) : bool := forallb (fun i => i <? n)%nat l.
Section Words.
Variables (e : positive -> Z) (fs : list poly).
Hypothesis He : bits e.
Hypothesis Hfs : forall p, In p fs -> 0 <= peval e p < B.
Lemma sel_words l : below (length fs) l = true -> words (map (peval e) (sel fs l)).
Proof.
  induction l as [|i l IH]; cbn [below forallb sel map]; intro H; [constructor|]. apply andb_prop in H as [H1 H2]. apply Nat.ltb_lt in H1.
  constructor; [apply Hfs, nth_In, H1|apply IH, H2].
Qed.
Lemma sel_bound l : below (length fs) l = true -> 0 <= peval e (pvalue (sel fs l)) < B ^ Z.of_nat (length l).
Proof.
  intro H. rewrite peval_value. pose proof (val_bound _ (sel_words l H)) as V. unfold sel in *. rewrite !map_length in V. exact V.
Qed.
(* the words w are the product of the words a and b *)
Definition prodStep (zs : list positive) (c : list nat * list nat * list nat) : option (list positive) :=
  let '(w, a, b) := c in
  let n := length fs in
  if (length w =? length a + length b)%nat && below n w && below n a && below n b
  then match negBits (64 * length w) (drop zs (psub (pvalue (sel fs w)) (pmul (pvalue (sel fs a)) (pvalue (sel fs b))))) with
       | Some ks => Some (ks ++ zs) | None => None end
  else None.
Lemma prodStep_ok zs w a b zs' : zero e zs -> prodStep zs (w, a, b) = Some zs' ->
  zero e zs' /\ peval e (pvalue (sel fs w)) = peval e (pvalue (sel fs a)) * peval e (pvalue (sel fs b)).
Proof.
  intros Hz. unfold prodStep. destruct (_ && _ && _ && _) eqn:E; [|discriminate].
  apply andb_prop in E as [E E4]. apply andb_prop in E as [E E3]. apply andb_prop in E as [E1 E2]. apply Nat.eqb_eq in E1.
  destruct (negBits _ _) as [ks|] eqn:En; [|discriminate]. intro H. apply Some_inj in H. subst zs'.
  destruct (negBits_ok _ e _ _ He En) as (s & Hs & Es & Zs). rewrite <- B_pow in Es.
  rewrite peval_drop, peval_sub, peval_mul in Es by exact Hz.
  pose proof (sel_bound w E2) as Bw. pose proof (sel_bound a E3) as Ba. pose proof (sel_bound b E4) as Bb. rewrite E1 in Bw, Es.
  rewrite Nat2Z.inj_add, Z.pow_add_r in Bw, Es by lia. set (NA := B ^ Z.of_nat (length a)) in *. set (NB := B ^ Z.of_nat (length b)) in *.
  set (W := peval e (pvalue (sel fs w))) in *. set (P := peval e (pvalue (sel fs a))) in *. set (Q := peval e (pvalue (sel fs b))) in *. clearbody NA NB W P Q.
  assert (P * Q < NA * NB) by nia. assert (0 <= P * Q) by nia. assert (s = 0) by nia. subst s. split; [|lia].
  intros x Hx. apply in_app_or in Hx as [Hx|Hx]; [apply Zs; [reflexivity|exact Hx]|apply Hz, Hx].
Qed.
Fixpoint prodSteps (zs : list positive) (l : list (list nat * list nat * list nat)) : option (list positive) :=
  match l with [] => Some zs | c :: l' => match prodStep zs c with Some zs' => prodSteps zs' l' | None => None end end.
Lemma prodSteps_ok l : forall zs zs', zero e zs -> prodSteps zs l = Some zs' ->
  zero e zs' /\ forall w a b, In (w, a, b) l -> peval e (pvalue (sel fs w)) = peval e (pvalue (sel fs a)) * peval e (pvalue (sel fs b)).
Proof.
  induction l as [|[[w a] b] l IH]; intros zs zs' Hz H; cbn [prodSteps] in H.
  - apply Some_inj in H. subst zs'. split; [exact Hz|intros w a b []].
  - destruct (prodStep zs (w, a, b)) as [z1|] eqn:E; [|discriminate]. destruct (prodStep_ok _ _ _ _ _ Hz E) as [H1 E1].
    destruct (IH _ _ H1 H) as [H2 E2]. split; [exact H2|]. intros w' a' b' [Ei|Hi]; [injection Ei as <- <- <-; exact E1|apply E2, Hi].
Qed.
End Words.

(* the words of the arrays followed by the words met on the way, in order *)
Definition seen (naw : nat) (lens : list nat) (facts : list poly) : list poly := concat (map (pblock naw lens) (seq 0 (length lens))) ++ rev facts.
Lemma seen_words e bp aw blocks facts : env_ok e bp aw blocks -> Forall words blocks -> (forall p, In p facts -> 0 <= peval e p < B) ->
  forall p, In p (seen (length aw) (map (@length Z) blocks) facts) -> 0 <= peval e p < B.
Proof.
  intros [_ He] Hb Hf p Hp. apply in_app_or in Hp as [Hp|Hp]; [|apply Hf, in_rev, Hp].
  apply in_concat in Hp as (l & Hl & Hp). apply in_map_iff in Hl as (j & <- & Hj). apply in_seq in Hj. rewrite map_length in Hj.
  pose proof (peval_block e bp aw blocks He _ j eq_refl ltac:(lia)) as E.
  assert (Hi : In (peval e p) (nth j blocks [])) by (rewrite <- E; apply in_map, Hp).
  assert (Hw : words (nth j blocks [])) by (rewrite Forall_forall in Hb; apply Hb, nth_In; lia).
  unfold words in Hw. rewrite Forall_forall in Hw. apply Hw, Hi.
Qed.
