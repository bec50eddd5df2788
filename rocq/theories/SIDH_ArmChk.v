(* What is checked of a symbolic run of the arm64 multiplications, and what the check means for all inputs. *)
From Coq Require Import ZArith List Lia Bool.
From Verif Require Import Lib MP X86 X86_Sym X86_Call X86_Lin X86_Mul SIDH_AsmChk.
Import ListNotations.
Open Scope Z_scope.

(* a combination of bits with positive multiples of 2^k as coefficients *)
Fixpoint posBits (k : nat) (p : poly) : option (list positive) :=
  match p with
  | [] => Some []
  | (m, c) :: p' => match m, c, posBits k p' with [xO a], Zpos q, Some l => if tz k q then Some (xO a :: l) else None | _, _, _ => None end
  end.
Lemma posBits_ok k e : forall p l, bits e -> posBits k p = Some l ->
  exists s, 0 <= s /\ peval e p = 2 ^ Z.of_nat k * s /\ (s = 0 -> zero e l).
Proof.
  induction p as [|[m c] p IH]; intros l He H; cbn [posBits] in H.
  - injection H as <-. exists 0. split; [lia|]. split; [cbn [peval]; lia|]. intros _ a [].
  - destruct m as [|[a|a|] [|]]; try discriminate. destruct c as [|q|q]; try discriminate. destruct (posBits k p) as [l'|] eqn:E; [|discriminate].
    destruct (tz k q) eqn:Et; [|discriminate]. injection H as <-. destruct (IH l' He eq_refl) as (s & Hs & Es & Zs).
    destruct (tz_ok k q Et) as [c Hc]. assert (Hp : 0 < 2 ^ Z.of_nat k) by (apply Z.pow_pos_nonneg; lia). assert (Hc0 : 0 < c) by nia.
    pose proof (He a) as Ha. exists (c * e (xO a) + s). split; [nia|]. split.
    + cbn [peval meval]. rewrite Es, Hc. ring.
    + intros Hz b [<-|Hb]; [nia|]. apply Zs; [nia|exact Hb].
Qed.

(* ---------- the words w hold a sum of products of words and of words ---------- *)
Definition item : Type := (list nat * list (list nat * list nat) * list (list nat))%type.
Section Steps.
Variables (e : positive -> Z) (fs : list poly).
Hypothesis He : bits e.
Hypothesis Hfs : forall p, In p fs -> 0 <= peval e p < B.
Definition sumL (ls : list (list nat)) : poly := fold_right (fun l acc => padd (pvalue (sel fs l)) acc) [] ls.
Definition sumP (ps : list (list nat * list nat)) : poly := fold_right (fun t acc => padd (pmul (pvalue (sel fs (fst t))) (pvalue (sel fs (snd t)))) acc) [] ps.
Definition mx (l : list nat) : Z := B ^ Z.of_nat (length l) - 1.
Definition maxL (ls : list (list nat)) : Z := fold_right (fun l acc => mx l + acc) 0 ls.
Definition maxP (ps : list (list nat * list nat)) : Z := fold_right (fun t acc => mx (fst t) * mx (snd t) + acc) 0 ps.
Definition inside (l : list nat) : bool := below (length fs) l.
Definition sumStep (zs : list positive) (c : item) : option (list positive) :=
  let '(w, ps, ls) := c in
  if inside w && forallb (fun t => inside (fst t) && inside (snd t)) ps && forallb inside ls && (maxP ps + maxL ls <=? mx w)
  then let d := drop zs (psub (pvalue (sel fs w)) (padd (sumP ps) (sumL ls))) in
       match negBits (64 * length w) d, posBits (64 * length w) d with
       | Some ks, _ => Some (ks ++ zs) | _, Some ks => Some (ks ++ zs) | _, _ => None end
  else None.
Lemma sumL_bound ls : forallb inside ls = true -> 0 <= peval e (sumL ls) <= maxL ls.
Proof.
  induction ls as [|l ls IH]; cbn [forallb sumL maxL fold_right]; intro H; [cbn [peval]; lia|]. apply andb_prop in H as [H1 H2].
  specialize (IH H2). fold (sumL ls) (maxL ls) in *. rewrite peval_add. pose proof (sel_bound e fs Hfs l H1). unfold mx. lia.
Qed.
Lemma sumP_bound ps : forallb (fun t => inside (fst t) && inside (snd t)) ps = true -> 0 <= peval e (sumP ps) <= maxP ps.
Proof.
  induction ps as [|[a b] ps IH]; cbn [forallb sumP maxP fold_right fst snd]; intro H; [cbn [peval]; lia|].
  apply andb_prop in H as [H1 H2]. apply andb_prop in H1 as [H0 H1].
  specialize (IH H2). fold (sumP ps) (maxP ps) in *. rewrite peval_add, peval_mul.
  pose proof (sel_bound e fs Hfs a H0) as Ba. pose proof (sel_bound e fs Hfs b H1) as Bb. unfold mx.
  set (x := peval e (pvalue (sel fs a))) in *. set (y := peval e (pvalue (sel fs b))) in *.
  set (M := B ^ Z.of_nat (length a)) in *. set (N := B ^ Z.of_nat (length b)) in *. clearbody x y M N. nia.
Qed.
Lemma sumStep_ok zs c zs' : zero e zs -> sumStep zs c = Some zs' -> zero e zs'.
Proof.
  destruct c as [[w ps] ls]. intros Hz. unfold sumStep. destruct (_ && _ && _ && _) eqn:E; [|discriminate].
  apply andb_prop in E as [E E4]. apply andb_prop in E as [E E3]. apply andb_prop in E as [E1 E2]. apply Z.leb_le in E4.
  pose proof (sumP_bound ps E2) as BP. pose proof (sumL_bound ls E3) as BL. pose proof (sel_bound e fs Hfs w E1) as Bw.
  set (d := drop zs _). assert (Ed : peval e d = peval e (pvalue (sel fs w)) - (peval e (sumP ps) + peval e (sumL ls)))
    by (unfold d; rewrite peval_drop by exact Hz; rewrite peval_sub, peval_add; reflexivity).
  unfold mx in E4. set (N := B ^ Z.of_nat (length w)) in *.
  assert (HN : 2 ^ Z.of_nat (64 * length w) = N) by (symmetry; apply B_pow). clearbody N.
  destruct (negBits (64 * length w) d) as [ks|] eqn:En; [|destruct (posBits (64 * length w) d) as [ks|] eqn:Ep; [|discriminate]].
  - intro H. apply Some_inj in H. subst zs'. destruct (negBits_ok _ e _ _ He En) as (s & Hs & Es & Zs). rewrite HN in Es.
    assert (s = 0) by nia. intros x Hx. apply in_app_or in Hx as [Hx|Hx]; [apply Zs; assumption|apply Hz, Hx].
  - intro H. apply Some_inj in H. subst zs'. destruct (posBits_ok _ e _ _ He Ep) as (s & Hs & Es & Zs). rewrite HN in Es.
    assert (s = 0) by nia. intros x Hx. apply in_app_or in Hx as [Hx|Hx]; [apply Zs; assumption|apply Hz, Hx].
Qed.
Fixpoint sumSteps (zs : list positive) (l : list item) : option (list positive) :=
  match l with [] => Some zs | c :: l' => match sumStep zs c with Some zs' => sumSteps zs' l' | None => None end end.
Lemma sumSteps_ok l : forall zs zs', zero e zs -> sumSteps zs l = Some zs' -> zero e zs'.
Proof.
  induction l as [|c l IH]; intros zs zs' Hz H; cbn [sumSteps] in H; [apply Some_inj in H; subst zs'; exact Hz|].
  destruct (sumStep zs c) as [z1|] eqn:E; [|discriminate]. apply (IH z1); [|exact H]. exact (sumStep_ok _ _ _ Hz E).
Qed.
End Steps.

Lemma D2 m : B ^ Z.of_nat (2 * m) = B ^ Z.of_nat m * B ^ Z.of_nat m.
Proof. rewrite <- Z.pow_add_r by lia. f_equal. lia. Qed.

Lemma low_part N X Y h : 0 < N -> X + N * Y = h -> 0 <= X < N -> h mod N = X.
Proof. intros HN E HX. symmetry. apply Z.mod_unique with (q := Y); [left; lia|lia]. Qed.
Lemma high_part N X Y h : 0 < N -> X + N * Y = h -> 0 <= X < N -> h / N = Y.
Proof. intros HN E HX. symmetry. apply Z.div_unique with (r := X); [left; lia|lia]. Qed.

Section Muls.
Variable gl : list (list Z).
Hypothesis Hg : Forall words gl.

(* ---------- a multiplication that is right on all words: x and y are arrays b and c, of n words ---------- *)
Definition prodChk (lens : list nat) (b c n : nat) (steps : list item) (outs : list (list poly)) (bpp : poly) (facts : list poly) : bool :=
  let fs := seen 0 lens facts in
  outAt 0 lens 0 outs && (length (nth 0 outs []) =? 2 * n)%nat &&
  match sumSteps fs [] steps with
  | None => false
  | Some zs => pz (2 * n) (drop zs (psub (pvalue (nth 0 outs [])) (pmul (pvOf 0 lens b) (pvOf 0 lens c))))
  end.
(* ---------- mulP503: h words are the low half; il, im, ia and iv select the words of xl*yl, of xl*yh + xh*yl + xh*yh, of the low half
   of that plus the high half of xl*yl, and of the middle term in the end ---------- *)
Definition lossChk (lens : list nat) (b c h : nat) (steps : list item) (il im ia iv : list nat) (outs : list (list poly)) (bpp : poly) (facts : list poly) : bool :=
  let fs := seen 0 lens facts in
  let xl := pvalue (firstn h (pblock 0 lens b)) in let xh := pvalue (skipn h (pblock 0 lens b)) in
  let yl := pvalue (firstn h (pblock 0 lens c)) in let yh := pvalue (skipn h (pblock 0 lens c)) in
  let T := padd (pmul xl yh) (pmul xh yl) in
  let H := pvalue (sel fs (skipn h il)) in
  outAt 0 lens 0 outs && (length (nth 0 outs []) =? 4 * h)%nat &&
  (length il =? 2 * h)%nat && (length im =? 2 * h + 1)%nat && (length ia =? h)%nat && (length iv =? 2 * h + 1)%nat &&
  below (length fs) il && below (length fs) im && below (length fs) ia && below (length fs) iv &&
  match sumSteps fs [] steps with
  | None => false
  | Some zs =>
    pz (2 * h) (drop zs (psub (pvalue (sel fs il)) (pmul xl yl))) &&
    pz (2 * h + 1) (drop zs (psub (pvalue (sel fs im)) (padd T (pmul xh yh)))) &&
    match drop zs (psub (pvalue (sel fs ia)) (padd (pvalue (sel fs (firstn h im))) H)) with
    | [([xO k], v)] =>
      (v =? - B ^ Z.of_nat h) &&
      match drop zs (psub (pvalue (sel fs iv)) (padd (padd T H) [([xO k], v)])) with
      | [([xO m], u)] => (u =? B ^ Z.of_nat (2 * h + 1)) &&
          pz (4 * h) (drop zs (psub (pvalue (nth 0 outs [])) (padd (pmul (pvOf 0 lens b) (pvOf 0 lens c)) [([xO m], B ^ Z.of_nat (3 * h + 1))])))
      | _ => false
      end
    | _ => false
    end
  end.
(* the case in which a carry is lost *)
Definition loses (N xl xh yl yh : Z) : bool :=
  let T := xl * yh + xh * yl in let H := xl * yl / N in (T + H <? N) && (N <=? (T + xh * yh) mod N + H).

Section Blocks.
Variables (code : list instr) (spec : list argS) (b c n : nat) (us : list (list Z)) (lens : list nat) (blocks : list (list Z)) (bp : Z).
Hypothesis Hs : specOk 0 spec.
Hypothesis Hbp : is_w64 bp.
Hypothesis Hu : under us blocks.
Hypothesis El : map (@length Z) blocks = lens.
Hypothesis Lb : (b < length blocks)%nat.
Hypothesis Lc : (c < length blocks)%nat.
Hypothesis Lx : length (nth b blocks []) = n.
Hypothesis Ly : length (nth c blocks []) = n.
Notation x := (nth b blocks []).
Notation y := (nth c blocks []).
Lemma wx : words x. Proof. pose proof (under_words _ _ Hu) as Hw. rewrite Forall_forall in Hw. apply Hw, nth_In, Lb. Qed.
Lemma wy : words y. Proof. pose proof (under_words _ _ Hu) as Hw. rewrite Forall_forall in Hw. apply Hw, nth_In, Lc. Qed.
Lemma prod_run steps : symOkB 0 code spec 0 us gl (prodChk lens b c n steps) = true ->
  exists r bp', call 0 code (map (zarg []) spec) blocks gl bp = Some (setl blocks 0 r, bp') /\
    words r /\ length r = (2 * n)%nat /\ val r = val x * val y.
Proof.
  intro H. destruct (sym_outB _ _ _ _ _ _ _ H bp [] blocks Hbp (Forall_nil _) Hu Hg eq_refl Hs) as (e & outs & bpp & facts & E1 & E2 & E3 & Eb & E4 & E5).
  unfold prodChk in E5. apply andb_prop in E5 as [E5 E6]. apply andb_prop in E5 as [E5 E7]. apply Nat.eqb_eq in E7.
  rewrite (outAt_ok e bp [] blocks lens 0 outs (proj2 E1) El E5) in E2.
  exists (map (peval e) (nth 0 outs [])), (peval e bpp). split; [exact E2|].
  pose proof (outAt_words e outs 0 E3) as Wo. split; [exact Wo|].
  assert (Lo : length (map (peval e) (nth 0 outs [])) = (2 * n)%nat) by (rewrite map_length; assumption). split; [exact Lo|].
  assert (Hfs : forall p, In p (seen 0 lens facts) -> 0 <= peval e p < B).
  { rewrite <- El. apply (seen_words e bp [] blocks facts E1 (under_words _ _ Hu) E4). }
  destruct (sumSteps _ [] steps) as [zs|] eqn:Ep; [|discriminate].
  pose proof (sumSteps_ok e _ (proj1 E1) Hfs steps [] zs ltac:(intros a []) Ep) as Hz.
  apply (pz_ok _ _ e) in E6. rewrite (peval_drop e zs _ Hz), peval_sub, peval_mul in E6. unfold pvOf in E6.
  pose proof (fun j => peval_block e bp [] blocks (proj2 E1) lens j (eq_sym El)) as Ebl. cbn [length] in Ebl.
  rewrite !peval_value, !Ebl in E6 by assumption.
  pose proof (val_bound _ Wo) as Bo. rewrite Lo in Bo. pose proof (val_bound _ wx) as Bx. pose proof (val_bound _ wy) as By. rewrite Lx in Bx. rewrite Ly in By.
  apply (cong_eq (B ^ Z.of_nat (2 * n))); [exact Bo| |exact E6]. rewrite D2. apply prod_bound; assumption.
Qed.

Lemma loss_run h steps il im ia iv : n = (2 * h)%nat -> (1 <= h)%nat -> symOkB 0 code spec 0 us gl (lossChk lens b c h steps il im ia iv) = true ->
  exists r bp', call 0 code (map (zarg []) spec) blocks gl bp = Some (setl blocks 0 r, bp') /\ words r /\ length r = (4 * h)%nat /\
    val r = (val x * val y + (if loses (B ^ Z.of_nat h) (val (firstn h x)) (val (skipn h x)) (val (firstn h y)) (val (skipn h y))
                              then B ^ Z.of_nat (3 * h + 1) else 0)) mod B ^ Z.of_nat (4 * h).
Proof.
  intros En Hh H. destruct (sym_outB _ _ _ _ _ _ _ H bp [] blocks Hbp (Forall_nil _) Hu Hg eq_refl Hs) as (e & outs & bpp & facts & E1 & E2 & E3 & Eb & E4 & E5).
  clear Eb H. unfold lossChk in E5. apply andb_prop in E5 as [E5 E6]. do 9 (apply andb_prop in E5 as [E5 ?]).
  repeat match goal with h : (_ =? _)%nat = true |- _ => apply Nat.eqb_eq in h end.
  rewrite (outAt_ok e bp [] blocks lens 0 outs (proj2 E1) El E5) in E2.
  exists (map (peval e) (nth 0 outs [])), (peval e bpp). split; [exact E2|].
  pose proof (outAt_words e outs 0 E3) as Wo. split; [exact Wo|].
  assert (Lo : length (map (peval e) (nth 0 outs [])) = (4 * h)%nat) by (rewrite map_length; assumption). split; [exact Lo|].
  assert (Hfs : forall p, In p (seen 0 lens facts) -> 0 <= peval e p < B).
  { rewrite <- El. apply (seen_words e bp [] blocks facts E1 (under_words _ _ Hu) E4). }
  destruct (sumSteps _ [] steps) as [zs|] eqn:Ep; [|discriminate].
  pose proof (sumSteps_ok e _ (proj1 E1) Hfs steps [] zs ltac:(intros a []) Ep) as Hz. set (fs := seen 0 lens facts) in *.
  apply andb_prop in E6 as [E6 E7]. apply andb_prop in E6 as [E6 E8].
  destruct (drop zs (psub (pvalue (sel fs ia)) _)) as [|[[|[k|k|] [|]] v] [|]] eqn:Da; try discriminate.
  apply andb_prop in E7 as [E7 E9]. apply Z.eqb_eq in E7. subst v.
  destruct (drop zs (psub (pvalue (sel fs iv)) _)) as [|[[|[m|m|] [|]] u] [|]] eqn:Dv; try discriminate.
  apply andb_prop in E9 as [E9 E10]. apply Z.eqb_eq in E9. subst u.
  apply (f_equal (peval e)) in Da, Dv.
  apply (pz_ok _ _ e) in E6, E8, E10. rewrite (peval_drop e zs _ Hz) in E6. rewrite (peval_drop e zs _ Hz) in E8. rewrite (peval_drop e zs _ Hz) in E10.
  rewrite (peval_drop e zs _ Hz) in Da. rewrite (peval_drop e zs _ Hz) in Dv.
  assert (Hpart : forall l j, (j <= length l)%nat -> below (length fs) l = true ->
    peval e (pvalue (sel fs l)) = peval e (pvalue (sel fs (firstn j l))) + B ^ Z.of_nat j * peval e (pvalue (sel fs (skipn j l))) /\
    0 <= peval e (pvalue (sel fs (firstn j l))) < B ^ Z.of_nat j /\ 0 <= peval e (pvalue (sel fs (skipn j l))) < B ^ Z.of_nat (length l - j)).
  { intros l j Hj Hl.
    assert (Hl' : below (length fs) (firstn j l ++ skipn j l) = true) by (rewrite firstn_skipn; exact Hl). unfold below in Hl'. rewrite forallb_app in Hl'.
    apply andb_prop in Hl' as [L1 L2]. pose proof (sel_bound e fs Hfs _ L1) as B1. pose proof (sel_bound e fs Hfs _ L2) as B2.
    rewrite firstn_length, Nat.min_l in B1 by exact Hj. rewrite skipn_length in B2. split; [|split; [exact B1|exact B2]].
    rewrite !peval_value. rewrite <- (firstn_skipn j l) at 1. unfold sel. rewrite !map_app, val_app, !map_length, firstn_length, Nat.min_l by exact Hj. reflexivity. }
  destruct (Hpart il h ltac:(lia) ltac:(assumption)) as (P1 & P2 & P3). destruct (Hpart im h ltac:(lia) ltac:(assumption)) as (Q1 & Q2 & Q3). clear Hpart.
  pose proof (sel_bound e fs Hfs il ltac:(assumption)) as Bl. pose proof (sel_bound e fs Hfs im ltac:(assumption)) as Bm.
  pose proof (sel_bound e fs Hfs ia ltac:(assumption)) as Ba. pose proof (sel_bound e fs Hfs iv ltac:(assumption)) as Bv.
  replace (length il) with (2 * h)%nat in * by congruence. replace (length im) with (2 * h + 1)%nat in * by congruence.
  replace (length ia) with h in Ba by congruence. replace (length iv) with (2 * h + 1)%nat in Bv by congruence.
  rewrite peval_sub, peval_mul in E6. rewrite peval_sub, !peval_add, !peval_mul in E8. rewrite peval_sub, peval_add, peval_mul in E10.
  rewrite peval_sub, peval_add in Da. rewrite peval_sub, !peval_add, !peval_mul in Dv. cbn [peval meval] in Da, Dv, E10.
  pose proof (fun j => peval_block e bp [] blocks (proj2 E1) lens j (eq_sym El)) as Ebl. cbn [length] in Ebl.
  assert (Fx : forall j, (j < length blocks)%nat -> peval e (pvalue (firstn h (pblock 0 lens j))) = val (firstn h (nth j blocks []))).
  { intros j Hj. rewrite peval_value, <- (Ebl j Hj), firstn_map. reflexivity. }
  assert (Sx : forall j, (j < length blocks)%nat -> peval e (pvalue (skipn h (pblock 0 lens j))) = val (skipn h (nth j blocks []))).
  { intros j Hj. rewrite peval_value, <- (Ebl j Hj), skipn_map. reflexivity. }
  unfold pvOf in E10. rewrite (peval_value e (pblock 0 lens b)), (peval_value e (pblock 0 lens c)), !Ebl in E10 by assumption.
  rewrite (peval_value e (nth 0 outs [])) in E10. rewrite !Fx, !Sx in * by assumption. clear Fx Sx Ebl.
  pose proof (val_bound _ Wo) as Bo. rewrite Lo in Bo. set (o := val (map (peval e) (nth 0 outs []))) in *.
  pose proof wx as Wx. pose proof wy as Wy.
  assert (Bxl : 0 <= val (firstn h x) < B ^ Z.of_nat h).
  { pose proof (val_bound _ (Forall_firstn _ _ h _ Wx)) as V. rewrite firstn_length, Nat.min_l in V by lia. exact V. }
  assert (Byl : 0 <= val (firstn h y) < B ^ Z.of_nat h).
  { pose proof (val_bound _ (Forall_firstn _ _ h _ Wy)) as V. rewrite firstn_length, Nat.min_l in V by lia. exact V. }
  assert (Bxh : 0 <= val (skipn h x) < B ^ Z.of_nat h).
  { pose proof (val_bound _ (Forall_skipn _ _ h _ Wx)) as V. rewrite skipn_length, Lx, En in V. replace (2 * h - h)%nat with h in V by lia. exact V. }
  assert (Byh : 0 <= val (skipn h y) < B ^ Z.of_nat h).
  { pose proof (val_bound _ (Forall_skipn _ _ h _ Wy)) as V. rewrite skipn_length, Ly, En in V. replace (2 * h - h)%nat with h in V by lia. exact V. }
  replace (2 * h - h)%nat with h in P3 by lia.
  set (X := val x) in *. set (Y := val y) in *. set (xl := val (firstn h x)) in *. set (yl := val (firstn h y)) in *.
  set (xh := val (skipn h x)) in *. set (yh := val (skipn h y)) in *.
  set (cl := peval e (pvalue (sel fs il))) in *. set (cm := peval e (pvalue (sel fs im))) in *. set (ca := peval e (pvalue (sel fs ia))) in *.
  set (cv := peval e (pvalue (sel fs iv))) in *. set (cH := peval e (pvalue (sel fs (skipn h il)))) in *. set (cL := peval e (pvalue (sel fs (firstn h il)))) in *.
  set (mL := peval e (pvalue (sel fs (firstn h im)))) in *. set (mH := peval e (pvalue (sel fs (skipn h im)))) in *.
  pose proof (proj1 E1 k) as Hk. pose proof (proj1 E1 m) as Hm. set (ck := e (xO k)) in *. set (cb := e (xO m)) in *.
  clearbody cl cm ca cv cH cL mL mH ck cb xl xh yl yh X Y o. clear - P1 P2 P3 Q1 Q2 Bl Bm Ba Bv Bo Bxl Bxh Byl Byh Hk Hm E6 E8 E10 Da Dv Hh.
  assert (D3 : B ^ Z.of_nat (2 * h + 1) = B * (B ^ Z.of_nat h * B ^ Z.of_nat h)) by (rewrite Nat2Z.inj_add, Z.pow_add_r, D2 by lia; change (B ^ Z.of_nat 1) with B; ring).
  rewrite D2 in *. rewrite D3 in *. set (N4 := B ^ Z.of_nat (4 * h)) in *. set (N3 := B ^ Z.of_nat (3 * h + 1)) in *.
  assert (HN : B <= B ^ Z.of_nat h). { replace B with (B ^ 1) at 1 by ring. apply Z.pow_le_mono_r; lia. }
  set (N := B ^ Z.of_nat h) in *. assert (HB : B = 2 ^ 64) by reflexivity. assert (HB3 : 3 < B) by lia. clear HB. set (BB := B) in *. clearbody N N4 N3 BB.
  assert (Ecl : cl = xl * yl) by (apply (cong_eq (N * N)); [exact Bl|apply prod_bound; assumption|exact E6]).
  pose proof (prod_bound N _ _ Bxl Byh). pose proof (prod_bound N _ _ Bxh Byl). pose proof (prod_bound N _ _ Bxh Byh).
  assert (Ecm : cm = xl * yh + xh * yl + xh * yh) by (apply (cong_eq (BB * (N * N))); [exact Bm|nia|exact E8]).
  unfold loses. rewrite (high_part N cL cH (xl * yl)) by lia. rewrite (low_part N mL mH (xl * yh + xh * yl + xh * yh)) by lia.
  assert (Hb : cb = if (xl * yh + xh * yl + cH <? N) && (N <=? mL + cH) then 1 else 0).
  { set (T := xl * yh + xh * yl) in *. assert (HT : 0 <= T < 2 * (N * N)) by lia. clearbody T.
    assert (Hk1 : ck = 0 \/ ck = 1) by lia. assert (Hb1 : cb = 0 \/ cb = 1) by lia.
    assert (NN : BB * N <= N * N) by nia.
    destruct (Z.ltb_spec (T + cH) N), (Z.leb_spec N (mL + cH)); cbn [andb]; destruct Hk1 as [-> | ->], Hb1 as [-> | ->]; try lia; nia. }
  assert (Eo : (N4 | o - (X * Y + (if (xl * yh + xh * yl + cH <? N) && (N <=? mL + cH) then N3 else 0)))).
  { replace (if (xl * yh + xh * yl + cH <? N) && (N <=? mL + cH) then N3 else 0) with (N3 * cb); [|rewrite Hb; destruct (_ && _); ring].
    replace (o - (X * Y + N3 * cb)) with (o - (X * Y + (N3 * (cb * 1) + 0))) by ring. exact E10. }
  destruct Eo as [q Hq]. apply Z.mod_unique with (q := - q); [left; lia|]. lia.
Qed.
End Blocks.
End Muls.
