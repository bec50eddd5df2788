(* Symbolic runs in stages: after k instructions every word of the state is replaced by a fresh atom, so that the
   polynomials stay small.  [stage_ok] describes the concrete states before and after a stage. *)
From Coq Require Import ZArith List Lia Bool.
From Verif Require Import Lib MP X86 X86_Sym X86_Call X86_Lin.
Import ListNotations.
Open Scope Z_scope.

(* k instructions, or fewer if the program ends: the rest of the program and the state *)
Fixpoint runK (D : dom) (k : nat) (p : list instr) (s : st D) {struct k} : option (list instr * st D) :=
  match k with
  | O => Some (p, s)
  | S k' =>
    match p with
    | [] => Some ([], s)
    | JFLAG g target :: p' =>
      match flagSet D s g with
      | Some true => runK D k' target (setfl D s None None)
      | Some false => runK D k' p' (setfl D s None None)
      | None => None
      end
    | i :: p' => match step D i s with Some s' => runK D k' p' s' | None => None end
    end
  end.
Lemma run_runK D f : forall k p s p' s', runK D k p s = Some (p', s') -> run D (k + S f) p s = run D (S f) p' s'.
Proof.
  induction k as [|k IH]; intros p s p' s'; cbn [runK Nat.add]; [intro H; apply Some_inj in H; injection H as <- <-; reflexivity|].
  destruct p as [|i p].
  - intro H; apply Some_inj in H; injection H as <- <-. reflexivity.
  - assert (Step : forall j, match step D j s with Some s'' => runK D k p s'' | None => None end = Some (p', s') ->
      match step D j s with Some s'' => run D (k + S f) p s'' | None => None end = run D (S f) p' s').
    { intro j. destruct (step D j s) as [s''|]; [apply IH|discriminate]. }
    destruct i; try exact (Step _). cbn [run]. destruct (flagSet D s g) as [[]|]; try discriminate; apply IH.
Qed.
Theorem sym_runK : forall k p tr s t p' t',
  trOk tr -> Rst tr s t -> runK sdom k p t = Some (p', t') -> exists s', runK zdom k p s = Some (p', s') /\ ext tr (fun tr' => Rst tr' s' t').
Proof.
  induction k as [|k IH]; intros p tr s t p' t' Ht Hs; cbn [runK].
  { intro H; apply Some_inj in H; injection H as <- <-. eexists; split; [reflexivity|]. apply ext_nil; assumption. }
  destruct p as [|i p]; [intro H; apply Some_inj in H; injection H as <- <-; eexists; split; [reflexivity|]; apply ext_nil; assumption|].
  assert (Step : forall i, (match step sdom i t with Some s' => runK sdom k p s' | None => None end = Some (p', t')) ->
    exists s', (match step zdom i s with Some s' => runK zdom k p s' | None => None end) = Some (p', s') /\ ext tr (fun tr' => Rst tr' s' t')).
  { intro j. destruct (step sdom j t) as [t1|] eqn:E; [|discriminate]. intro Hr.
    destruct (step_ok _ _ _ _ _ Ht Hs E) as (s1 & -> & x & Hx & Hs1).
    destruct (IH _ _ _ _ _ _ Hx Hs1 Hr) as (s' & E' & y & Hy & Hs'). exists s'. split; [exact E'|].
    exists (x ++ y). rewrite app_assoc. auto. }
  destruct i; try apply Step.
  unfold flagSet. destruct (rdw sdom t (G g 0)) as [w|] eqn:E; [|discriminate]. destruct (rdw_ok _ _ _ _ _ Hs E) as (a & -> & Ha).
  cbn [isone sdom zdom]. destruct (sisone w) as [b|] eqn:Eb; [|discriminate]. rewrite (sisone_ok _ _ _ _ Ht Ha Eb).
  assert (Hs2 : Rst tr (setfl zdom s None None) (setfl sdom t None None)) by (apply setfl_ok; [exact Hs|exact Logic.I|exact Logic.I]).
  destruct b; apply IH; assumption.
Qed.

(* the package variables never change *)
Section Glob.
Variable D : dom.
Lemma store_glob s r d v s' : store D s r d v = Some s' -> glob s' = glob s.
Proof.
  unfold store. destruct (rreg D s r) as [[]|]; try discriminate. destruct (nth_error _ _); try discriminate. destruct (widx _); try discriminate.
  destruct (_ <? _)%nat; try discriminate. intro H; apply Some_inj in H; subst. reflexivity.
Qed.
Lemma wr_glob s o v s' : wr D s o v = Some s' -> glob s' = glob s.
Proof. destruct o; cbn [wr]; try discriminate; [intro H; apply Some_inj in H; subst; reflexivity|apply store_glob]. Qed.
Lemma arith_glob op s a b c fl s' : arith D op s a b c fl = Some s' -> glob s' = glob s.
Proof.
  unfold arith. destruct (rdw D s a); try discriminate. destruct (rdw D s b); try discriminate. destruct c; try discriminate.
  destruct (op _ _ _ _) as [[t v] c']. intro H. apply wr_glob in H. exact H.
Qed.
Lemma logic_glob op s a b s' : logic D op s a b = Some s' -> glob s' = glob s.
Proof.
  unfold logic. destruct (rdw D s a); try discriminate. destruct (rdw D s b); try discriminate. destruct (op _ _); try discriminate.
  intro H. apply wr_glob in H. exact H.
Qed.
Lemma xlogic_glob op s a b s' : xlogic D op s a b = Some s' -> glob s' = glob s.
Proof.
  unfold xlogic. destruct (rreg D s a) as [[]|]; try discriminate. destruct (rreg D s b) as [[]|]; try discriminate.
  destruct (op _ _); try discriminate. destruct (op _ _); try discriminate. intro H; apply Some_inj in H; subst. reflexivity.
Qed.
Lemma astep_glob i s s' : astep D i s = Some s' -> glob s' = glob s.
Proof.
  destruct i; cbn [astep];
    repeat match goal with
    | |- match ?x with Some _ => _ | None => None end = Some _ -> _ => destruct x; try discriminate
    | |- match ?x with Some _ => match _ with _ => _ end | None => None end = Some _ -> _ => destruct x; try discriminate
    | |- (let '(_, _) := ?x in _) = Some _ -> _ => destruct x
    | |- context [let '(_, _) := ?x in _] => destruct x
    | |- (if ?b then _ else None) = Some _ -> _ => destruct b; try discriminate
    end; intro H; apply Some_inj in H; subst; reflexivity.
Qed.
Lemma step_glob i s s' : step D i s = Some s' -> glob s' = glob s.
Proof.
  destruct i; cbn [step]; try apply arith_glob; try apply logic_glob; try apply xlogic_glob; try apply astep_glob; try discriminate.
  - destruct (rd D s src); try discriminate. apply wr_glob.
  - destruct src, dst; try apply logic_glob. destruct (_ =? _)%nat; [|apply logic_glob]. intro H. apply wr_glob in H. exact H.
  - destruct (rdw D s src); try discriminate. destruct (rdw D s (R AX)); try discriminate. destruct (mulw _ _ _ _) as [[t h] l].
    intro H; apply Some_inj in H; subst. reflexivity.
  - destruct (rdw D s src); try discriminate. destruct (rdw D s (R DX)); try discriminate. destruct (mulw _ _ _ _) as [[t h] l].
    intro H; apply Some_inj in H; subst. reflexivity.
  - destruct (rdw D s dst); try discriminate. destruct (sbb _ _ _ _ _) as [[t v] c]. intro H. apply wr_glob in H. exact H.
  - destruct (rdw D s src); try discriminate. destruct (bt0 _ _); try discriminate. intro H; apply Some_inj in H; subst. reflexivity.
  - destruct (rdw D s src); try discriminate. destruct (zxb _ _); try discriminate. intro H; apply Some_inj in H; subst. reflexivity.
  - destruct (rdw D s _); try discriminate. intro H; apply Some_inj in H; subst. reflexivity.
  - destruct (rreg D s src) as [[]|]; try discriminate. destruct (dup32 _ _); try discriminate. intro H; apply Some_inj in H; subst. reflexivity.
  - destruct src, dst; try discriminate.
    + destruct (rreg D s r) as [[]|]; try discriminate. intro H; apply Some_inj in H; subst. reflexivity.
    + destruct (rreg D s r) as [[]|]; try discriminate. destruct (store D s r0 d (Wd lo)) as [s1|] eqn:E; try discriminate.
      intro H. apply store_glob in H. apply store_glob in E. congruence.
    + destruct (load D s r d) as [[]|]; try discriminate. destruct (load D s r (d + 8)) as [[]|]; try discriminate.
      intro H; apply Some_inj in H; subst. reflexivity.
Qed.
Lemma runK_glob : forall k p s p' s', runK D k p s = Some (p', s') -> glob s' = glob s.
Proof.
  induction k as [|k IH]; intros p s p' s'; cbn [runK]; [intro H; apply Some_inj in H; injection H as <- <-; reflexivity|].
  destruct p as [|i p]; [intro H; apply Some_inj in H; injection H as <- <-; reflexivity|].
  assert (Step : forall j, match step D j s with Some s'' => runK D k p s'' | None => None end = Some (p', s') -> glob s' = glob s).
  { intro j. destruct (step D j s) as [s''|] eqn:E; [|discriminate]. intro H. rewrite (IH _ _ _ _ H). apply (step_glob _ _ _ E). }
  destruct i; try exact (Step _). destruct (flagSet D s g) as [[]|]; try discriminate; intro H; rewrite (IH _ _ _ _ H); reflexivity.
Qed.
End Glob.

(* ---------- fresh atoms ---------- *)
(* the polynomials that the atoms n, n+1, ... now stand for, and the new cells; constants are kept *)
Definition absCell (n : nat) (c : cell sdom) : list poly * cell sdom :=
  match c with
  | Wd w => match isCst (pl w) with Some z => ([], @Wd sdom (scst z)) | None => ([pl w], @Wd sdom (mkSw (wordA (tn n)) (ub w))) end
  | Pt b o => ([], Pt b o)
  | _ => ([], Un)
  end.
Fixpoint absCells (n : nat) (l : list (cell sdom)) : list poly * list (cell sdom) :=
  match l with
  | [] => ([], [])
  | c :: l' => let '(ws, c') := absCell n c in let '(ws', m) := absCells (n + length ws) l' in (ws ++ ws', c' :: m)
  end.
Fixpoint absMem (n : nat) (l : list (list (cell sdom))) : list poly * list (list (cell sdom)) :=
  match l with
  | [] => ([], [])
  | c :: l' => let '(ws, c') := absCells n c in let '(ws', m) := absMem (n + length ws) l' in (ws ++ ws', c' :: m)
  end.
Definition absState (t : st sdom) : list poly * st sdom :=
  let '(w1, r) := absCells 0 (regs t) in
  let '(w2, a) := absCells (length w1) (args t) in
  let '(w3, m) := absMem (length w1 + length w2) (mem t) in
  (w1 ++ w2 ++ w3, mkSt r a m (glob t) None None (tn (length w1 + length w2 + length w3), [])).

Lemma isCst_eq p c e : isCst p = Some c -> peval e p = c.
Proof. unfold isCst. destruct p as [|[[|] c'] [|]]; try discriminate; intro H; apply Some_inj in H; subst; cbn [peval meval]; lia. Qed.
Section Abs.
Variables (tr : trace) (e : positive -> Z).
Hypothesis He : agrees e tr.
Lemma absCell_ok n c c' ws z pre post : absCell n c = (ws, c') -> RC tr z c -> length pre = n ->
  RC (inTrace (pre ++ map (peval e) ws ++ post)) z c'.
Proof.
  intros H Hz Hn. destruct c as [w|b o|lo hi|]; cbn [absCell] in H.
  - destruct z as [z| | |]; try (destruct Hz; fail). destruct (Hz e He) as (A1 & A2 & A3). destruct (isCst (pl w)) as [c0|] eqn:E.
    + injection H as <- <-. rewrite (isCst_eq _ _ e E) in A3. subst c0. apply RW_cst. lia.
    + injection H as <- <-. intros e' He'. unfold relW. cbn [pl ub]. rewrite peval_word. rewrite A3 at 1 2.
      assert (Hk : e' (xI (tn n)) = peval e (pl w)).
      { apply (proj2 He' n false). unfold inTrace. rewrite nth_error_map. rewrite nth_error_app2 by lia. rewrite Hn, Nat.sub_diag. reflexivity. }
      rewrite Hk, <- A3. auto.
  - injection H as <- <-. destruct z; exact Hz.
  - injection H as <- <-. destruct z; exact Logic.I.
  - injection H as <- <-. destruct z; exact Logic.I.
Qed.
Lemma absCells_ok l : forall n m ws zs pre post, absCells n l = (ws, m) -> Forall2 (RC tr) zs l -> length pre = n ->
  Forall2 (RC (inTrace (pre ++ map (peval e) ws ++ post))) zs m.
Proof.
  induction l as [|c l IH]; intros n m ws zs pre post H Hz Hn; cbn [absCells] in H.
  - injection H as <- <-. inversion Hz; subst. constructor.
  - destruct (absCell n c) as [w1 c'] eqn:E1. destruct (absCells _ l) as [w2 m'] eqn:E2. injection H as <- <-. inversion Hz as [|z0 c0 zs0 l0 H1 H2]; subst.
    rewrite map_app, <- app_assoc. constructor.
    + exact (absCell_ok _ _ _ _ _ pre (map (peval e) w2 ++ post) E1 H1 eq_refl).
    + rewrite app_assoc. apply (IH _ _ _ _ (pre ++ map (peval e) w1) post E2 H2). rewrite app_length, map_length. reflexivity.
Qed.
Lemma absMem_ok l : forall n m ws zs pre post, absMem n l = (ws, m) -> Forall2 (Forall2 (RC tr)) zs l -> length pre = n ->
  Forall2 (Forall2 (RC (inTrace (pre ++ map (peval e) ws ++ post)))) zs m.
Proof.
  induction l as [|c l IH]; intros n m ws zs pre post H Hz Hn; cbn [absMem] in H.
  - injection H as <- <-. inversion Hz; subst. constructor.
  - destruct (absCells n c) as [w1 c'] eqn:E1. destruct (absMem _ l) as [w2 m'] eqn:E2. injection H as <- <-. inversion Hz as [|z0 c0 zs0 l0 H1 H2]; subst.
    rewrite map_app, <- app_assoc. constructor.
    + exact (absCells_ok _ _ _ _ _ pre (map (peval e) w2 ++ post) E1 H1 eq_refl).
    + rewrite app_assoc. apply (IH _ _ _ _ (pre ++ map (peval e) w1) post E2 H2). rewrite app_length, map_length. reflexivity.
Qed.
End Abs.

(* a concrete and a symbolic state, the atoms standing for xs; the package variables are constants *)
Record Inv (globs : list (list Z)) (xs : list Z) (s : st zdom) (t : st sdom) : Prop := mkInv {
  I_st : Rst (inTrace xs) s t; I_gs : glob s = globs; I_gt : glob t = map (map scst) globs; I_g : Forall words globs }.
Lemma Inv_start n spec aw blocks globs bp :
  words (inputs bp aw blocks) -> Forall words globs -> specOk (length aw) spec ->
  Inv globs (inputs bp aw blocks) (start zdom Datatypes.tt bp n (map (zarg aw) spec) blocks globs)
      (sstart n spec (length aw) (map (@length Z) blocks) globs).
Proof. intros. constructor; auto. apply start_ok; assumption. Qed.
Lemma globs_ok tr globs : Forall words globs -> Forall2 (Forall2 (RW tr)) globs (map (map scst) globs).
Proof.
  intro Hg. induction Hg as [|g l Hg _ IH]; cbn [map]; constructor; [|exact IH].
  induction Hg as [|z g Hz _ IHg]; cbn [map]; constructor; [|exact IHg]. apply RW_cst, Hz.
Qed.
Lemma Inv_abs globs xs s t e tr ws t0 : agrees e tr -> Rst tr s t -> glob s = globs -> glob t = map (map scst) globs -> Forall words globs ->
  xs = map (peval e) ws -> absState t = (ws, t0) -> Inv globs xs s t0.
Proof.
  intros He Hs G1 G2 G3 -> Ha. unfold absState in Ha.
  destruct (absCells 0 (regs t)) as [w1 r] eqn:E1. destruct (absCells (length w1) (args t)) as [w2 a] eqn:E2.
  destruct (absMem (length w1 + length w2) (mem t)) as [w3 m] eqn:E3. injection Ha as <- <-.
  rewrite !map_app. constructor; auto. constructor; cbn [regs args mem glob cf ovf tt].
  - exact (absCells_ok tr e He _ _ _ _ _ [] (map (peval e) w2 ++ map (peval e) w3) E1 (R_regs _ _ _ Hs) eq_refl).
  - exact (absCells_ok tr e He _ _ _ _ _ (map (peval e) w1) (map (peval e) w3) E2 (R_args _ _ _ Hs) (map_length _ _)).
  - rewrite app_assoc. replace (map (peval e) w3) with (map (peval e) w3 ++ []) by apply app_nil_r.
    apply (absMem_ok tr e He _ _ _ _ _ (map (peval e) w1 ++ map (peval e) w2) [] E3 (R_mem _ _ _ Hs)).
    rewrite app_length, !map_length. reflexivity.
  - rewrite G1, G2. apply globs_ok, G3.
  - destruct (cf s); exact Logic.I.
  - destruct (ovf s); exact Logic.I.
  - split; [|intros p []]. cbn [fst]. unfold tnext, inTrace. rewrite map_length, !app_length, !map_length. f_equal. lia.
Qed.

(* the value a cell has under e *)
Definition VC (e : positive -> Z) (z : cell zdom) (w : cell sdom) : Prop :=
  match z, w with
  | Wd a, Wd b => 0 <= a < B /\ a = peval e (pl b)
  | Pt b o, Pt b' o' => b = b' /\ o = o'
  | _, Pt _ _ => False
  | _, Wd _ => False
  | _, _ => True
  end.
Record Vst (e : positive -> Z) (s : st zdom) (t : st sdom) : Prop := mkVst {
  V_regs : Forall2 (VC e) (regs s) (regs t); V_mem : Forall2 (Forall2 (VC e)) (mem s) (mem t) }.
Lemma RC_VC tr e z w : agrees e tr -> RC tr z w -> VC e z w.
Proof.
  intros He. destruct z as [z| | |], w as [w| | |]; cbn [RC VC]; auto. intro H. destruct (H e He) as (A1 & A2 & A3). split; [lia|exact A3].
Qed.
Lemma Rst_Vst tr e s t : agrees e tr -> Rst tr s t -> Vst e s t.
Proof.
  intros He Hs. constructor.
  - eapply F2_mono; [|apply (R_regs _ _ _ Hs)]. intros. eapply RC_VC; eassumption.
  - eapply F2_mono; [|apply (R_mem _ _ _ Hs)]. intros x y. apply F2_mono. intros. eapply RC_VC; eassumption.
Qed.
(* a stage: the rest of the program, the state it ends in, and that state on fresh atoms *)
Definition stage (k : nat) (p : list instr) (t : st sdom) : option (list instr * st sdom * st sdom) :=
  match runK sdom k p t with Some (p', t') => Some (p', t', snd (absState t')) | None => None end.
Definition reach (p : list instr) (s : st zdom) (k : nat) (p' : list instr) (s' : st zdom) : Prop :=
  forall f, run zdom (k + S f) p s = run zdom (S f) p' s'.
Theorem stage_ok globs k p t p' t' t0 xs s : stage k p t = Some (p', t', t0) -> Inv globs xs s t ->
  exists s' e xs', reach p s k p' s' /\ bits e /\ (forall i, (i < length xs)%nat -> e (xI (tn i)) = nth i xs 0) /\
    Vst e s t /\ Vst e s' t' /\ (forall q, In q (snd (tt t')) -> 0 <= peval e q < B) /\ Inv globs xs' s' t0.
Proof.
  unfold stage. destruct (runK sdom k p t) as [[p1 t1]|] eqn:E; [|discriminate]. intros H [Hs G1 G2 G3]. apply Some_inj in H. injection H as -> -> <-.
  destruct (sym_runK _ _ _ _ _ _ _ (inTrace_ok xs) Hs E) as (s' & E' & x & Hx & Hs').
  pose proof (envOf_agrees _ Hx) as He. set (e := envOf (inTrace xs ++ x)) in *. destruct (absState t') as [ws t0] eqn:Ea.
  exists s', e, (map (peval e) ws). split; [intro f; apply run_runK, E'|]. split; [exact (proj1 He)|]. split.
  { intros i Hi. apply (proj2 (agrees_app _ _ _ He) i false). unfold inTrace. rewrite nth_error_map, (nth_error_nth' xs 0 Hi). reflexivity. }
  split; [exact (Rst_Vst _ _ _ _ (agrees_app _ _ _ He) Hs)|]. split; [exact (Rst_Vst _ _ _ _ He Hs')|]. split.
  { intros q Hq. exact (proj2 (R_tt _ _ _ Hs') q Hq e He). }
  apply (Inv_abs globs _ s' t' e _ ws t0 He Hs'); auto.
  - rewrite (runK_glob _ _ _ _ _ _ E'). exact G1.
  - rewrite (runK_glob _ _ _ _ _ _ E). exact G2.
Qed.
Lemma reach_trans p s k p' s' k' p'' s'' : reach p s k p' s' -> reach p' s' k' p'' s'' -> reach p s (k + k') p'' s''.
Proof. intros H1 H2 f. replace (k + k' + S f)%nat with (k + S (k' + f))%nat by lia. rewrite H1. replace (S (k' + f)) with (k' + S f)%nat by lia. apply H2. Qed.

(* ---------- reading registers, arrays and the frame ---------- *)
Fixpoint regWords (s : st zdom) (rs : list reg) : option (list Z) :=
  match rs with
  | [] => Some []
  | r :: rs' => match rreg zdom s r, regWords s rs' with Some (Wd z), Some l => Some (z :: l) | _, _ => None end
  end.
Fixpoint regPolys (t : st sdom) (rs : list reg) : option (list poly) :=
  match rs with
  | [] => Some []
  | r :: rs' => match rreg sdom t r, regPolys t rs' with Some (Wd w), Some l => Some (pl w :: l) | _, _ => None end
  end.
Definition arrays (s : st zdom) : option (list (list Z)) := blocksOf (tl (mem s)).
Definition parrays (t : st sdom) : option (list (list poly)) := polyBlocks (tl (mem t)).
(* the words i, ... of the local frame *)
Definition frameWords (s : st zdom) (is : list nat) : option (list Z) :=
  match nth_error (mem s) 0 with Some l => wordsOf (map (fun i => nth i l Un) is) | None => None end.
Definition framePolys (t : st sdom) (is : list nat) : option (list poly) :=
  match nth_error (mem t) 0 with Some l => polysOf (map (fun i => nth i l Un) is) | None => None end.
Lemma V_reg e s t rs ps : Vst e s t -> regPolys t rs = Some ps -> regWords s rs = Some (map (peval e) ps) /\ words (map (peval e) ps).
Proof.
  intros [Hr _]. revert ps. induction rs as [|r rs IH]; intros ps; cbn [regPolys regWords].
  - intro H; apply Some_inj in H; subst. split; [reflexivity|constructor].
  - destruct (rreg sdom t r) as [[w| | |]|] eqn:E; try discriminate. destruct (regPolys t rs) as [l|]; [|discriminate].
    intro H; apply Some_inj in H; subst. destruct (IH _ eq_refl) as [-> Hw]. unfold rreg in E |- *.
    destruct (F2_nth _ _ _ _ _ Hr E) as (v & -> & Hv). destruct v; try (destruct Hv; fail). destruct Hv as [H1 ->]. split; [reflexivity|]. constructor; assumption.
Qed.
Lemma V_words e l m ps : Forall2 (VC e) l m -> polysOf m = Some ps -> wordsOf l = Some (map (peval e) ps) /\ words (map (peval e) ps).
Proof.
  intro H. revert ps. induction H as [|x y l m Hxy _ IH]; intros ps; cbn [polysOf wordsOf].
  - intro H; apply Some_inj in H; subst. split; [reflexivity|constructor].
  - destruct y as [w| | |]; try discriminate. destruct x as [z| | |]; try (destruct Hxy; fail).
    destruct (polysOf m) as [r'|]; [|discriminate]. intro H; apply Some_inj in H; subst. destruct (IH _ eq_refl) as [-> Hw].
    destruct Hxy as [H1 ->]. split; [reflexivity|]. constructor; assumption.
Qed.
Lemma V_arrays e s t bl : Vst e s t -> parrays t = Some bl -> arrays s = Some (map (map (peval e)) bl) /\ Forall words (map (map (peval e)) bl).
Proof.
  intros [_ Hm]. unfold arrays, parrays. assert (H : Forall2 (Forall2 (VC e)) (tl (mem s)) (tl (mem t))) by (destruct Hm; [constructor|assumption]).
  revert bl. induction H as [|x y l m Hxy _ IH]; intros bl; cbn [polyBlocks blocksOf].
  - intro H; apply Some_inj in H; subst. split; [reflexivity|constructor].
  - destruct (polysOf y) as [w|] eqn:E; [|discriminate]. destruct (polyBlocks m) as [r|]; [|discriminate].
    intro H; apply Some_inj in H; subst. destruct (V_words _ _ _ _ Hxy E) as [-> Hw]. destruct (IH _ eq_refl) as [-> Hr]. split; [reflexivity|]. constructor; assumption.
Qed.
Lemma F2_nth_d (e : positive -> Z) l m i : Forall2 (VC e) l m -> VC e (nth i l Un) (nth i m Un).
Proof. intro H. revert i. induction H; intros [|i]; cbn [nth]; auto; exact Logic.I. Qed.
Lemma V_frame e s t is ps : Vst e s t -> framePolys t is = Some ps -> frameWords s is = Some (map (peval e) ps) /\ words (map (peval e) ps).
Proof.
  intros [_ Hm]. unfold frameWords, framePolys. destruct (nth_error (mem t) 0) as [m|] eqn:E; [|discriminate].
  destruct (F2_nth _ _ _ _ _ Hm E) as (l & -> & Hl). apply V_words. induction is as [|i is IH]; cbn [map]; constructor; [|exact IH]. apply F2_nth_d, Hl.
Qed.

(* ---------- a program as a list of checked stages ---------- *)
Fixpoint stagesOk (l : list (nat * (st sdom -> st sdom -> bool))) (p : list instr) (t : st sdom) : bool :=
  match l with
  | [] => match p with [] => true | _ => false end
  | (k, chk) :: l' => match stage k p t with Some (p', t', t0) => chk t t' && stagesOk l' p' t0 | None => false end
  end.
(* what a check of the symbolic states before and after a stage says about the concrete ones *)
Definition sound (chk : st sdom -> st sdom -> bool) (Q : st zdom -> st zdom -> Prop) : Prop :=
  forall e s t s' t', bits e -> Vst e s t -> Vst e s' t' -> (forall q, In q (snd (tt t')) -> 0 <= peval e q < B) -> chk t t' = true -> Q s s'.
Fixpoint chain (Qs : list (st zdom -> st zdom -> Prop)) (s s' : st zdom) : Prop :=
  match Qs with [] => s' = s | Q :: Qs' => exists s1, Q s s1 /\ chain Qs' s1 s' end.
Theorem stages_ok globs : forall l Qs p t xs s, Forall2 (fun kc Q => sound (snd kc) Q) l Qs -> stagesOk l p t = true -> Inv globs xs s t ->
  exists s' k, reach p s k [] s' /\ chain Qs s s' /\ k = fold_right Nat.add 0%nat (map fst l).
Proof.
  induction l as [|[k chk] l IH]; intros Qs p t xs s HQ H HI; inversion HQ as [|a b la lb Ha Hb]; subst; cbn [stagesOk] in H.
  - destruct p; [|discriminate]. exists s, 0%nat. split; [intro f; reflexivity|]. split; reflexivity.
  - destruct (stage k p t) as [[[p' t'] t0]|] eqn:E; [|discriminate]. apply andb_prop in H as [H1 H2].
    destruct (stage_ok globs k p t p' t' t0 xs s E HI) as (s1 & e & xs' & R1 & B1 & _ & V1 & V2 & F1 & I1).
    destruct (IH _ _ _ _ _ Hb H2 I1) as (s' & k' & R2 & C2 & Ek). exists s', (k + k')%nat. split; [eapply reach_trans; eassumption|].
    split; [|cbn [map fst fold_right]; lia]. exists s1. split; [|exact C2]. cbn [snd] in Ha. eapply Ha; eassumption.
Qed.
Definition startZ (n : nat) (spec : list argS) (aw : list Z) (blocks globs : list (list Z)) (bp : Z) : st zdom :=
  start zdom Datatypes.tt bp n (map (zarg aw) spec) blocks globs.
Lemma wordsOf_Wd l : wordsOf (map (@Wd zdom) l) = Some l.
Proof. induction l as [|z l IH]; [reflexivity|]. cbn [map wordsOf]. rewrite IH. reflexivity. Qed.
Lemma start_arrays n spec aw blocks globs bp : arrays (startZ n spec aw blocks globs bp) = Some blocks.
Proof. unfold arrays, startZ, start. cbn [mem tl]. induction blocks as [|b bs IH]; [reflexivity|]. cbn [map blocksOf]. rewrite wordsOf_Wd, IH. reflexivity. Qed.
Lemma start_bp n spec aw blocks globs bp : regWords (startZ n spec aw blocks globs bp) [BP] = Some [bp].
Proof. reflexivity. Qed.
(* the call made of checked stages *)
Theorem call_stages n code spec naw lens globs l Qs :
  Forall2 (fun kc Q => sound (snd kc) Q) l Qs -> stagesOk l code (sstart n spec naw lens globs) = true ->
  (fold_right Nat.add 0%nat (map fst l) < maxSteps)%nat ->
  forall bp aw blocks, is_w64 bp -> words aw -> Forall words blocks -> Forall words globs -> length aw = naw -> specOk naw spec -> map (@length Z) blocks = lens ->
  exists s', chain Qs (startZ n spec aw blocks globs bp) s' /\
    forall bl bp', arrays s' = Some bl -> regWords s' [BP] = Some [bp'] -> call n code (map (zarg aw) spec) blocks globs bp = Some (bl, bp').
Proof.
  intros HQ H Hk bp aw blocks Hbp Haw Hb Hg El Hs Eb. subst naw lens.
  assert (Hw : words (inputs bp aw blocks)).
  { unfold inputs. constructor; [exact Hbp|]. apply Forall_app. split; [exact Haw|]. clear - Hb. induction Hb; cbn [concat]; [constructor|]. apply Forall_app. auto. }
  destruct (stages_ok globs l Qs code _ _ _ HQ H (Inv_start n spec aw blocks globs bp Hw Hg Hs)) as (s' & k & R & C & Ek).
  exists s'. split; [exact C|]. intros bl bp' E1 E2. unfold call. rewrite <- Ek in Hk.
  replace maxSteps with (k + S (maxSteps - S k))%nat by lia. rewrite (R (maxSteps - S k)%nat). cbn [run]. unfold arrays in E1. rewrite E1.
  cbn [regWords] in E2. destruct (rreg zdom s' BP) as [[z| | |]|]; try discriminate. apply Some_inj in E2. injection E2 as ->. reflexivity.
Qed.
