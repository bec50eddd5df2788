(* Calls run symbolically: [call_sym] turns a computed symbolic run into a fact about [call] for all inputs. *)
From Coq Require Import ZArith List Lia Bool.
From Verif Require Import Lib MP X86 X86_Sym.
Import ListNotations.
Open Scope Z_scope.

(* an argument: a pointer to block b, or the word number i of the word arguments *)
Inductive argS : Type := AP (b : nat) | AW (i : nat).
Definition zarg (aw : list Z) (a : argS) : cell zdom := match a with AP b => Pt b 0 | AW i => @Wd zdom (nth i aw 0) end.
Definition sword (k : nat) : sw := mkSw (wordA (tn k)) (B - 1).
Definition sarg (a : argS) : cell sdom := match a with AP b => Pt b 0 | AW i => @Wd sdom (sword (S i)) end.
Fixpoint sblocks (off : nat) (lens : list nat) : list (list sw) :=
  match lens with [] => [] | n :: l => map sword (seq off n) :: sblocks (off + n) l end.
Definition sstart (n : nat) (spec : list argS) (naw : nat) (lens : list nat) (globs : list (list Z)) : st sdom :=
  start sdom (tn (S naw + fold_right Nat.add 0%nat lens), []) (sword 0) n (map sarg spec) (sblocks (S naw) lens) (map (map scst) globs).
Fixpoint polysOf (l : list (cell sdom)) : option (list poly) :=
  match l with
  | [] => Some []
  | Wd w :: l' => match polysOf l' with Some r => Some (pl w :: r) | None => None end
  | _ => None
  end.
Fixpoint polyBlocks (l : list (list (cell sdom))) : option (list (list poly)) :=
  match l with
  | [] => Some []
  | b :: l' => match polysOf b, polyBlocks l' with Some w, Some r => Some (w :: r) | _, _ => None end
  end.
(* the blocks and BP afterwards, and the recorded words, latest first *)
Definition symCall (n : nat) (code : list instr) (spec : list argS) (naw : nat) (lens : list nat) (globs : list (list Z)) : option (list (list poly) * poly * list poly) :=
  match run sdom maxSteps code (sstart n spec naw lens globs) with
  | Some t =>
    match polyBlocks (tl (mem t)), rreg sdom t BP with
    | Some bl, Some (Wd v) => Some (bl, pl v, snd (tt t))
    | _, _ => None
    end
  | None => None
  end.

Definition inputs (bp : Z) (aw : list Z) (blocks : list (list Z)) : list Z := bp :: aw ++ concat blocks.
Definition inTrace (xs : list Z) : trace := map (pair false) xs.
Lemma inTrace_ok xs : trOk (inTrace xs).
Proof. intros v H. apply in_map_iff in H as (x & E & _). discriminate. Qed.
Lemma RW_in xs k : words xs -> (k < length xs)%nat -> RW (inTrace xs) (nth k xs 0) (sword k).
Proof.
  intros H Hk e [_ He]. unfold relW, sword. cbn [pl ub]. rewrite peval_word.
  assert (En : nth_error (inTrace xs) k = Some (false, nth k xs 0)).
  { unfold inTrace. rewrite nth_error_map. rewrite (nth_error_nth' xs 0 Hk). reflexivity. }
  specialize (He _ _ _ En). cbn [atom] in He. rewrite He.
  assert (is_w64 (nth k xs 0)) by (unfold words in H; rewrite Forall_forall in H; apply H, nth_In, Hk). unfold is_w64 in *. lia.
Qed.
Lemma RW_block xs off l : words xs -> (forall i, (i < length l)%nat -> (off + i < length xs)%nat /\ nth (off + i) xs 0 = nth i l 0) ->
  Forall2 (RW (inTrace xs)) l (map sword (seq off (length l))).
Proof.
  intro H. revert off. induction l as [|x l IH]; intros off Hl; cbn [length seq map]; [constructor|].
  constructor.
  - destruct (Hl 0%nat ltac:(cbn; lia)) as [H1 H2]. cbn [nth] in H2. rewrite Nat.add_0_r in *. rewrite <- H2. apply RW_in; assumption.
  - apply IH. intros i Hi. destruct (Hl (S i) ltac:(cbn; lia)) as [H1 H2]. cbn [nth] in H2.
    replace (S off + i)%nat with (off + S i)%nat by lia. auto.
Qed.
Lemma RW_blocks xs blocks : forall off lens, words xs -> map (@length Z) blocks = lens ->
  (forall i, (i < length (concat blocks))%nat -> (off + i < length xs)%nat /\ nth (off + i) xs 0 = nth i (concat blocks) 0) ->
  Forall2 (Forall2 (RW (inTrace xs))) blocks (sblocks off lens).
Proof.
  induction blocks as [|b bs IH]; intros off lens H <- Hc; cbn [map sblocks]; [constructor|].
  cbn [concat] in Hc. constructor.
  - apply RW_block; [exact H|]. intros i Hi. destruct (Hc i) as [H1 H2]; [rewrite app_length; lia|].
    split; [exact H1|]. rewrite H2. apply app_nth1, Hi.
  - apply IH; [exact H|reflexivity|]. intros i Hi. destruct (Hc (length b + i)%nat) as [H1 H2]; [rewrite app_length; lia|].
    rewrite Nat.add_assoc in *. split; [exact H1|]. rewrite H2, app_nth2 by lia. f_equal. lia.
Qed.
Lemma F2_map {X Y X' Y'} (P : X -> Y -> Prop) (Q : X' -> Y' -> Prop) f g l m :
  (forall x y, P x y -> Q (f x) (g y)) -> Forall2 P l m -> Forall2 Q (map f l) (map g m).
Proof. intro H. induction 1; constructor; auto. Qed.
Lemma length_concat_sum (bs : list (list Z)) : length (concat bs) = fold_right Nat.add 0%nat (map (@length Z) bs).
Proof. induction bs as [|b bs IH]; [reflexivity|]. cbn [concat map fold_right]. rewrite app_length, IH. reflexivity. Qed.

Definition specOk (naw : nat) (spec : list argS) : Prop := Forall (fun a => match a with AW i => (i < naw)%nat | _ => True end) spec.
Lemma start_ok n spec aw blocks globs bp :
  words (inputs bp aw blocks) -> Forall words globs -> specOk (length aw) spec ->
  Rst (inTrace (inputs bp aw blocks)) (start zdom Datatypes.tt bp n (map (zarg aw) spec) blocks globs)
      (sstart n spec (length aw) (map (@length Z) blocks) globs).
Proof.
  intros Hw Hg Hs. set (xs := inputs bp aw blocks) in *. constructor; cbn [start sstart regs args mem glob cf ovf tt].
  - cbn [setl repeat firstn skipn app rn]. repeat first [apply Forall2_nil | apply Forall2_cons; [first [exact Logic.I | (split; reflexivity) | apply (RW_in xs 0 Hw); unfold xs, inputs; cbn; lia]|]].
  - unfold specOk in Hs. induction Hs as [|a l Ha _ IH]; cbn [map]; constructor; [|exact IH].
    destruct a as [b|i]; cbn [zarg sarg RC]; [auto|].
    replace (nth i aw 0) with (nth (S i) xs 0) by (unfold xs, inputs; cbn [nth]; apply app_nth1, Ha).
    apply RW_in; [exact Hw|]. unfold xs, inputs. cbn [length]. rewrite app_length. lia.
  - constructor.
    + clear. induction n; cbn [repeat]; constructor; auto. exact Logic.I.
    + apply (F2_map (Forall2 (RW (inTrace xs)))); [intros x y; apply (F2_map (RW (inTrace xs))); intros; assumption|].
      apply RW_blocks; [exact Hw|reflexivity|]. intros i Hi. unfold xs, inputs. split.
      * cbn [length]. rewrite app_length. lia.
      * replace (S (length aw) + i)%nat with (S (length aw + i)) by lia. cbn [nth]. rewrite app_nth2 by lia. f_equal. lia.
  - induction Hg as [|g l Hg _ IH]; cbn [map]; constructor; [|exact IH].
    induction Hg as [|z g Hz _ IHg]; cbn [map]; constructor; [|exact IHg]. apply RW_cst, Hz.
  - exact Logic.I.
  - exact Logic.I.
  - split; [|intros p []]. cbn [fst]. unfold tnext, inTrace. rewrite map_length. f_equal. unfold xs, inputs. cbn [length].
    rewrite app_length, length_concat_sum. lia.
Qed.
Lemma out_words tr e : forall l m r, agrees e tr -> Forall2 (RC tr) l m -> polysOf m = Some r ->
  wordsOf l = Some (map (peval e) r) /\ words (map (peval e) r).
Proof.
  intros l m r He H. revert r. induction H as [|x y l m Hxy _ IH]; intros r; cbn [polysOf wordsOf]; [intros [= <-]; split; [reflexivity|constructor]|].
  destruct y as [w| | |]; try discriminate. destruct x as [z| | |]; try (destruct Hxy; fail).
  destruct (polysOf m) as [r'|]; [|discriminate]. intros [= <-]. destruct (IH _ eq_refl) as [-> Hw]. cbn [map].
  destruct (Hxy e He) as (A1 & A2 & A3). rewrite <- A3. split; [reflexivity|]. constructor; [unfold is_w64; lia|exact Hw].
Qed.
Lemma out_blocks tr e : forall l m r, agrees e tr -> Forall2 (Forall2 (RC tr)) l m -> polyBlocks m = Some r ->
  blocksOf l = Some (map (map (peval e)) r) /\ Forall words (map (map (peval e)) r).
Proof.
  intros l m r He H. revert r. induction H as [|x y l m Hxy _ IH]; intros r; cbn [polyBlocks blocksOf]; [intros [= <-]; split; [reflexivity|constructor]|].
  destruct (polysOf y) as [w|] eqn:E; [|discriminate]. destruct (polyBlocks m) as [r'|]; [|discriminate]. intros [= <-].
  destruct (out_words tr e _ _ _ He Hxy E) as [-> Hw]. destruct (IH _ eq_refl) as [-> Hr]. split; [reflexivity|]. constructor; assumption.
Qed.

(* what a symbolic call says *)
Definition bits (e : positive -> Z) : Prop := forall k, 0 <= e (xO k) <= 1.
Theorem call_sym n code spec aw blocks globs bp outs bpp facts :
  words (inputs bp aw blocks) -> Forall words globs -> specOk (length aw) spec ->
  symCall n code spec (length aw) (map (@length Z) blocks) globs = Some (outs, bpp, facts) ->
  exists e, bits e /\ (forall i, (i < length (inputs bp aw blocks))%nat -> e (xI (tn i)) = nth i (inputs bp aw blocks) 0) /\
    call n code (map (zarg aw) spec) blocks globs bp = Some (map (map (peval e)) outs, peval e bpp) /\
    Forall words (map (map (peval e)) outs) /\ (forall p, In p facts -> 0 <= peval e p < B).
Proof.
  intros Hw Hg Hs. unfold symCall. set (xs := inputs bp aw blocks) in *.
  destruct (run sdom maxSteps code _) as [t|] eqn:Er; [|discriminate].
  destruct (sym_run _ _ _ _ _ _ (inTrace_ok xs) (start_ok n spec aw blocks globs bp Hw Hg Hs) Er) as (s & Es & x & Hx & Rs).
  destruct (polyBlocks (tl (mem t))) as [bl|] eqn:Eb; [|discriminate].
  destruct (rreg sdom t BP) as [[v| | |]|] eqn:Ev; try discriminate. intros [= <- <- <-].
  pose proof (envOf_agrees _ Hx) as He. set (e := envOf (inTrace xs ++ x)) in *. exists e.
  split; [exact (proj1 He)|]. split.
  { intros i Hi. apply (proj2 (agrees_app _ _ _ He) i false). unfold inTrace. rewrite nth_error_map, (nth_error_nth' xs 0 Hi). reflexivity. }
  unfold call. rewrite Es.
  assert (Hm : Forall2 (Forall2 (RC (inTrace xs ++ x))) (tl (mem s)) (tl (mem t))) by (destruct (R_mem _ _ _ Rs); [constructor|assumption]).
  destruct (out_blocks _ e _ _ _ He Hm Eb) as [-> Ho].
  destruct (rreg_ok _ _ _ _ _ Rs Ev) as (c & -> & Hc). destruct c as [z| | |]; try (destruct Hc; fail).
  destruct (Hc e He) as (_ & _ & Ez). rewrite Ez. split; [reflexivity|]. split; [exact Ho|].
  intros p Hp. exact (proj2 (R_tt _ _ _ Rs) p Hp e He).
Qed.

(* ---------- values ---------- *)
Fixpoint pvalue (l : list poly) : poly := match l with [] => [] | p :: l' => padd p (pscale B (pvalue l')) end.
Lemma peval_value e l : peval e (pvalue l) = val (map (peval e) l).
Proof. induction l as [|p l IH]; [reflexivity|]. cbn [pvalue map val]. rewrite peval_add, peval_scale, IH. reflexivity. Qed.
(* the words off, off+1, ... of the inputs *)
Definition pin (off n : nat) : list poly := map (fun k => wordA (tn k)) (seq off n).
Lemma skipn_nth (l : list Z) : forall i, (i < length l)%nat -> skipn i l = nth i l 0 :: skipn (S i) l.
Proof. induction l as [|x l IH]; intros [|i] H; cbn in H; try lia; [reflexivity|]. cbn [nth]. change (skipn (S i) (x :: l)) with (skipn i l). rewrite IH by lia. reflexivity. Qed.
Lemma peval_pin e xs off n : (forall i, (i < length xs)%nat -> e (xI (tn i)) = nth i xs 0) -> (off + n <= length xs)%nat ->
  map (peval e) (pin off n) = firstn n (skipn off xs).
Proof.
  intros H. revert off. induction n as [|n IH]; intros off Hl; [reflexivity|].
  unfold pin in *. cbn [seq map]. rewrite IH by lia. rewrite peval_word, H by lia.
  rewrite (skipn_nth xs off) by lia. reflexivity.
Qed.
