(* Bookkeeping of dh/csidh/csidh.go groupAction and cofactorMul, for any field implementation. *)
From Coq Require Import ZArith List Lia Bool.
From Verif Require Import Lib MP Instr CSIDH_Field CSIDH_FieldProofs CSIDH_FieldProofs2 CSIDH_Curve CSIDH_Model CSIDH_ApiProofs.
Import ListNotations.
Open Scope Z_scope.

Definition lp (i : nat) : Z := nth i primes 0.
(* product of the l_i with f i, over the indices of l *)
Definition psel (f : nat -> bool) (l : list nat) : Z :=
  fold_right (fun i a => if f i then lp i * a else a) 1 l.

Lemma primes_range : forall i, (i < 74)%nat -> 3 <= lp i < 2 ^ 10.
Proof.
  assert (F : forallb (fun l => (3 <=? l) && (l <? 2 ^ 10)) primes = true) by (vm_compute; reflexivity).
  intros i Hi. rewrite forallb_forall in F. specialize (F (lp i)). unfold lp in *.
  assert (In (nth i primes 0) primes) by (apply nth_In; exact Hi). specialize (F H). lia.
Qed.

Lemma lp_w : forall i, is_w64 (lp i).
Proof.
  intros i. unfold is_w64. destruct (Nat.lt_ge_cases i 74) as [h|h].
  - pose proof (primes_range i h). lia.
  - unfold lp. rewrite nth_overflow by exact h. lia.
Qed.

Definition idx (l : list nat) : Prop := Forall (fun i => (i < 74)%nat) l.
Lemma idx_seq : forall a n, (a + n <= 74)%nat -> idx (seq a n).
Proof. intros a n H. apply Forall_forall. intros i Hi. apply in_seq in Hi. lia. Qed.

Lemma psel_pos : forall f l, idx l -> 1 <= psel f l.
Proof.
  intros f l H. induction H; cbn [psel fold_right]; [lia|]. fold (psel f l). pose proof (primes_range x H).
  destruct (f x); lia.
Qed.
Lemma psel_ext : forall f g l, (forall i, In i l -> f i = g i) -> psel f l = psel g l.
Proof.
  intros f g l. induction l as [|x l IH]; intros H; [reflexivity|]. cbn [psel fold_right].
  fold (psel f l) (psel g l). rewrite IH by (intros; apply H; right; assumption).
  rewrite (H x) by (left; reflexivity). reflexivity.
Qed.
Lemma psel_split : forall f l, psel f l * psel (fun i => negb (f i)) l = psel (fun _ => true) l.
Proof.
  intros f l. induction l as [|x l IH]; [reflexivity|]. cbn [psel fold_right].
  fold (psel f l) (psel (fun i => negb (f i)) l) (psel (fun _ => true) l). rewrite <- IH.
  destruct (f x); cbn [negb]; ring.
Qed.
Lemma psel_le : forall f l, idx l -> psel f l <= psel (fun _ => true) l.
Proof.
  intros f l H. rewrite <- (psel_split f l). pose proof (psel_pos f l H). pose proof (psel_pos (fun i => negb (f i)) l H). nia.
Qed.
Lemma psel_app : forall f a b, psel f (a ++ b) = psel f a * psel f b.
Proof.
  intros f a b. induction a as [|x a IH]; cbn [app psel fold_right].
  - fold (psel f b). ring.
  - fold (psel f (a ++ b)) (psel f a). rewrite IH. destruct (f x); ring.
Qed.
(* one more index selected *)
Lemma psel_change : forall f g l i, NoDup l -> In i l -> f i = false -> g i = true ->
  (forall j, j <> i -> g j = f j) -> psel g l = psel f l * lp i.
Proof.
  intros f g l i N. induction N as [|x l Nx N IH]; intros Hin Hf Hg Ho; [destruct Hin|].
  cbn [psel fold_right]. fold (psel f l) (psel g l). destruct Hin as [->|Hin].
  - rewrite Hf, Hg. rewrite (psel_ext g f l); [ring|]. intros j Hj. apply Ho. intros ->. contradiction.
  - rewrite (IH Hin Hf Hg Ho). rewrite (Ho x) by (intros ->; contradiction). destruct (f x); ring.
Qed.

Definition all74 : list nat := seq 0 74.
Lemma psel_all : 4 * psel (fun _ => true) all74 = P + 1.
Proof. vm_compute. reflexivity. Qed.
Lemma psel_all_bound : forall f, 4 * psel f all74 <= P + 1.
Proof. intros f. rewrite <- psel_all. pose proof (psel_le f all74 (idx_seq 0 74 (le_n _))). lia. Qed.
Lemma psel_bound : forall f n, (n <= 74)%nat -> 4 * psel f (seq 0 n) <= P + 1.
Proof.
  intros f n H. rewrite <- psel_all. unfold all74. replace 74%nat with (n + (74 - n))%nat by lia.
  rewrite seq_app, psel_app. cbn [Nat.add].
  pose proof (psel_le f (seq 0 n) (idx_seq 0 n ltac:(lia))).
  pose proof (psel_pos f (seq 0 n) (idx_seq 0 n ltac:(lia))).
  pose proof (psel_pos (fun _ => true) (seq n (74 - n)) (idx_seq n (74 - n) ltac:(lia))). nia.
Qed.
Lemma P1_small : P + 1 < 2 ^ 512. Proof. pose proof P_lt. lia. Qed.
Lemma lp_mul_exact : forall k v i, fp_ok k -> val k = v -> 0 <= v * lp i <= P + 1 ->
  fp_ok (mul512 k (lp i)) /\ val (mul512 k (lp i)) = v * lp i.
Proof.
  intros k v i F V H. destruct (mul512_spec k (lp i) F (lp_w i)) as [F' V']. split; [exact F'|].
  rewrite V', V. apply Z.mod_small. pose proof P1_small. lia.
Qed.

Lemma small_ok : forall x, is_w64 x -> fp_ok (small x) /\ val (small x) = x.
Proof.
  intros x H. split; [split; [|reflexivity]|].
  - unfold small, words. repeat (apply Forall_cons; [first [exact H | unfold is_w64; lia]|]). apply Forall_nil.
  - unfold small. cbn [val]. lia.
Qed.

(* exponent arrays *)
Definition ewf (e : list Z) : Prop := length e = 74%nat /\ bytes e.
Definition isz (e : list Z) (i : nat) : bool := nth i e 0 =? 0.
(* k is 4 times the product of the primes that have no exponent left *)
Definition kinv (e k : list Z) : Prop := fp_ok k /\ val k = 4 * psel (isz e) all74.

Lemma setE_nth : forall e i v j, (i < length e)%nat -> nth j (setE e i v) 0 = if (j =? i)%nat then v else nth j e 0.
Proof.
  intros e i v j H. unfold setE. destruct (Nat.eqb_spec j i) as [->|ne].
  - rewrite app_nth2 by (rewrite firstn_length; lia). rewrite firstn_length, Nat.min_l, Nat.sub_diag by lia. reflexivity.
  - destruct (Nat.lt_ge_cases j i) as [h|h].
    + rewrite app_nth1 by (rewrite firstn_length; lia). apply nth_firstn_lt. exact h.
    + rewrite app_nth2 by (rewrite firstn_length; lia). rewrite firstn_length, Nat.min_l by lia.
      destruct (j - i)%nat as [|d] eqn:D; [lia|]. cbn [app nth]. rewrite nth_skipn'. f_equal. lia.
Qed.
Lemma setE_wf : forall e i v, ewf e -> (i < 74)%nat -> is_byte v -> ewf (setE e i v).
Proof.
  intros e i v [L Hb] Hi Hv. unfold setE. split.
  - rewrite !app_length, firstn_length, skipn_length. cbn [length]. lia.
  - apply bytes_app; [apply Forall_firstn; exact Hb|]. apply bytes_app; [|apply Forall_skipn; exact Hb].
    apply Forall_cons; [exact Hv|apply Forall_nil].
Qed.
Lemma ewf_nth : forall e i, ewf e -> is_byte (nth i e 0).
Proof.
  intros e i [L Hb]. destruct (Nat.lt_ge_cases i (length e)) as [h|h].
  - unfold bytes in Hb. rewrite Forall_forall in Hb. apply Hb, nth_In. exact h.
  - rewrite nth_overflow by exact h. unfold is_byte. lia.
Qed.

Lemma cofactor_ok : forall e i, (i < 74)%nat ->
  fp_ok (cofactor e i) /\ val (cofactor e i) = psel (fun j => negb (isz e j)) (seq (S i) (73 - i)).
Proof.
  intros e i Hi. unfold cofactor. change (primeCount - S i)%nat with (73 - i)%nat.
  assert (G : forall n c w, (S i + n <= 74)%nat -> fp_ok c -> val c = w -> 1 <= w ->
     w * psel (fun j => negb (isz e j)) (seq (S (73 - n)) n) <= P + 1 -> 
     let r := fold_left (fun c j => if negb (nth j e 0 =? 0) then mul512 c (nth j primes 0) else c) (seq (S (73 - n)) n) c in
     fp_ok r /\ val r = w * psel (fun j => negb (isz e j)) (seq (S (73 - n)) n)).
  { induction n; intros c w Hn F V W Hle; cbn zeta.
    - cbn [seq fold_left psel fold_right]. split; [exact F|lia].
    - cbn [seq fold_left psel fold_right] in *. fold (psel (fun j => negb (isz e j)) (seq (S (S (73 - S n))) n)) in *.
      replace (S (S (73 - S n))) with (S (73 - n)) in * by lia.
      set (j := S (73 - S n)) in *. change (nth j primes 0) with (lp j).
      pose proof (primes_range j ltac:(lia)) as R.
      pose proof (psel_pos (fun j => negb (isz e j)) (seq (S (73 - n)) n) ltac:(apply idx_seq; lia)) as Ps.
      unfold isz at 1. unfold isz at 1 in Hle. destruct (nth j e 0 =? 0); cbn [negb] in *.
      + apply (IHn c w); try assumption. lia.
      + destruct (lp_mul_exact c w j F V) as [F' V'].
        { split; [apply Z.mul_nonneg_nonneg; lia|]. apply Z.le_trans with (2 := Hle). apply Z.mul_le_mono_nonneg_l; [lia|].
          rewrite <- (Z.mul_1_r (lp j)) at 1. apply Z.mul_le_mono_nonneg_l; lia. }
        destruct (IHn (mul512 c (lp j)) (w * lp j)) as [A1 A2]; [lia|exact F'|exact V'|nia|rewrite <- Z.mul_assoc; exact Hle|].
        split; [exact A1|]. rewrite A2. ring. }
  destruct (small_ok 1 ltac:(unfold is_w64; lia)) as [F V].
  specialize (G (73 - i)%nat (small 1) 1 ltac:(lia) F V ltac:(lia)). cbn zeta in G.
  replace (S (73 - (73 - i))) with (S i) in G by lia. rewrite !Z.mul_1_l in G. apply G.
  pose proof (psel_bound (fun j => negb (isz e j)) 74 (le_n _)) as Bd.
  replace 74%nat with (S i + (73 - i))%nat in Bd by lia. rewrite seq_app, psel_app in Bd. cbn [Nat.add] in Bd.
  pose proof (psel_pos (fun j => negb (isz e j)) (seq 0 (S i)) ltac:(apply idx_seq; lia)).
  pose proof (psel_pos (fun j => negb (isz e j)) (seq (S i) (73 - i)) ltac:(apply idx_seq; lia)). nia.
Qed.

(* ---------- the initial state ---------- *)
Lemma expOf_range : forall e i, bytes e -> -8 <= expOf e i <= 7.
Proof.
  intros e i He. rewrite expOf_ok by exact He.
  assert (Hx : is_byte (nth (i / 2) e 0)).
  { destruct (Nat.lt_ge_cases (i / 2) (length e)) as [h|h].
    - unfold bytes in He. rewrite Forall_forall in He. apply He. apply nth_In. exact h.
    - rewrite nth_overflow by exact h. unfold is_byte. lia. }
  unfold is_byte in Hx. unfold s4.
  assert (0 <= nth (i / 2) e 0 / 16 < 16) by (split; [apply Z.div_pos; lia | apply Z.div_lt_upper_bound; lia]).
  pose proof (Z.mod_pos_bound (nth (i / 2) e 0) 16 ltac:(lia)).
  destruct (Nat.even i); match goal with |- context [?x <? 8] => destruct (Z.ltb_spec x 8) end; lia.
Qed.

Lemma initE_nth : forall e s i, bytes e -> (i < 74)%nat ->
  nth i (initE e s) 0 = if s then Z.max (- expOf e i) 0 else Z.max (expOf e i) 0.
Proof.
  intros e s i He Hi. unfold initE. change primeCount with 74%nat. rewrite nth_map_seq by exact Hi. cbv zeta.
  pose proof (expOf_range e i He). unfold wrap8.
  destruct (Z.ltb_spec 0 (expOf e i)); destruct s; try destruct (Z.ltb_spec (expOf e i) 0); try rewrite Z.mod_small by lia; lia.
Qed.
Lemma initE_wf : forall e s, bytes e -> ewf (initE e s).
Proof.
  intros e s He. split; [unfold initE; rewrite map_length, seq_length; reflexivity|].
  apply Forall_forall. intros z Hz. apply (In_nth _ _ 0) in Hz. destruct Hz as (j & Hj & <-).
  unfold initE in Hj. rewrite map_length, seq_length in Hj. rewrite initE_nth by assumption.
  pose proof (expOf_range e j He). unfold is_byte. destruct s; lia.
Qed.
Lemma initK_ok : forall e s, bytes e -> kinv (initE e s) (initK e s).
Proof.
  intros e s He. unfold kinv, initK. change primeCount with 74%nat.
  assert (G : forall n, (n <= 74)%nat -> 
     let r := fold_left (fun k i => let t := expOf e i in let v := nth i primes 0 in
                 if 0 <? t then (if s then mul512 k v else k)
                 else if t <? 0 then (if s then k else mul512 k v)
                 else mul512 k v) (seq 0 n) (small 4) in
     fp_ok r /\ val r = 4 * psel (isz (initE e s)) (seq 0 n)).
  { induction n; intros Hn; cbn zeta.
    - cbn [seq fold_left psel fold_right]. apply small_ok. unfold is_w64. lia.
    - rewrite seq_S, fold_left_app, psel_app. cbn [Nat.add fold_left psel fold_right].
      destruct (IHn ltac:(lia)) as [F V]. revert F V. set (k := fold_left _ _ _). clearbody k. intros F V.
      change (nth n primes 0) with (lp n). unfold isz at 2.
      rewrite initE_nth by (assumption || lia).
      pose proof (psel_bound (isz (initE e s)) (S n) Hn) as Bd. rewrite seq_S, psel_app in Bd.
      cbn [Nat.add psel fold_right] in Bd. unfold isz at 2 in Bd.
      rewrite initE_nth in Bd by (assumption || lia).
      pose proof (psel_pos (isz (initE e s)) (seq 0 n) ltac:(apply idx_seq; lia)) as Pp.
      pose proof (primes_range n ltac:(lia)) as R.
      destruct (Z.ltb_spec 0 (expOf e n)) as [a|a]; destruct s; try destruct (Z.ltb_spec (expOf e n) 0) as [b|b];
      match goal with |- context [?x =? 0] => destruct (Z.eqb_spec x 0) as [c|c]; try (exfalso; lia) end; rewrite ?Z.mul_1_r in *;
      first [ split; [exact F | rewrite V; lia]
            | destruct (lp_mul_exact k _ n F V) as [F' V']; [lia | split; [exact F' | rewrite V'; ring]] ]. }
  exact (G 74%nat (le_n _)).
Qed.

Section GA.
  Variable Fo : fops.
  Variables (fzero fone ffour : car Fo).
  Variable fisZero : car Fo -> bool.
  Variable fnonQR : car Fo -> Z.
  Variable inject : list Z -> car Fo.
  Notation step := (passStep Fo fzero fone ffour fisZero).
  Notation round := (gaRound Fo fzero fone ffour fisZero fnonQR).

  (* ---------- one pass ---------- *)
  Definition cnt (j : nat) (l : list nat) : Z := Z.of_nat (count_occ Nat.eq_dec l j).
  Definition pinv (e0 : list Z) (i : nat) (st : pass Fo) : Prop :=
    ewf (pe Fo st) /\ kinv (pe Fo st) (pk Fo st) /\
    (forall j, nth j (pe Fo st) 0 + cnt j (plog Fo st) = nth j e0 0) /\
    pdone Fo st = forallb (isz (pe Fo st)) (seq 0 i).

  Lemma forallb_ext_in' : forall (f g : nat -> bool) l, (forall x, In x l -> f x = g x) -> forallb f l = forallb g l.
  Proof. intros f g l. induction l; intros H; [reflexivity|]. cbn [forallb]. rewrite H by (left; reflexivity). rewrite IHl; [reflexivity|]. intros. apply H. right. assumption. Qed.

  Lemma passStep_ok : forall e0 i st, (i < 74)%nat -> pinv e0 i st -> pinv e0 (S i) (step st i).
  Proof.
    intros e0 i st Hi (W & K & C & D). unfold passStep. cbv zeta. unfold pinv.
    assert (DN : forall e b, b = forallb (isz e) (seq 0 i) ->
                 andb b (nth i e 0 =? 0) = forallb (isz e) (seq 0 (S i))).
    { intros e b ->. rewrite seq_S, forallb_app. cbn [Nat.add forallb]. rewrite andb_true_r. reflexivity. }
    destruct (Z.eqb_spec (nth i (pe Fo st) 0) 0) as [z|z]; cbn [negb].
    { cbn [pe pk pdone plog]. split; [exact W|]. split; [exact K|]. split; [exact C|]. apply DN. exact D. }
    set (Kp := xMul Fo fzero fone ffour _ _ _). clearbody Kp.
    destruct (fisZero (snd Kp)); cbn [negb].
    { cbn [pe pk pdone plog]. split; [exact W|]. split; [exact K|]. split; [exact C|]. apply DN. exact D. }
    destruct (xIso Fo fzero fone ffour (pP Fo st) (pA Fo st) Kp (nth i primes 0)) as [P' A'].
    cbn [pe pk pdone plog].
    pose proof (ewf_nth _ i W) as Bi. unfold is_byte in Bi.
    assert (E : wrap8 (nth i (pe Fo st) 0 - 1) = nth i (pe Fo st) 0 - 1) by (unfold wrap8; apply Z.mod_small; lia).
    rewrite E. set (v := nth i (pe Fo st) 0) in *.
    assert (L : (i < length (pe Fo st))%nat) by (destruct W as [L _]; rewrite L; exact Hi).
    assert (W' : ewf (setE (pe Fo st) i (v - 1))) by (apply setE_wf; [exact W|exact Hi|unfold is_byte; lia]).
    assert (N : forall j, nth j (setE (pe Fo st) i (v - 1)) 0 = if (j =? i)%nat then v - 1 else nth j (pe Fo st) 0)
      by (intros; apply setE_nth; exact L).
    split; [exact W'|]. split; [|split].
    - destruct K as [F V]. destruct (Z.eqb_spec (v - 1) 0) as [y|y].
      + assert (PC : psel (isz (setE (pe Fo st) i (v - 1))) all74 = psel (isz (pe Fo st)) all74 * lp i).
        { apply psel_change.
          - apply seq_NoDup.
          - apply in_seq. lia.
          - unfold isz. fold v. destruct (Z.eqb_spec v 0); [lia|reflexivity].
          - unfold isz. rewrite N, Nat.eqb_refl. apply Z.eqb_eq. exact y.
          - intros j ne. unfold isz. rewrite N. destruct (Nat.eqb_spec j i); [contradiction|reflexivity]. }
        change (nth i primes 0) with (lp i).
        pose proof (psel_all_bound (isz (setE (pe Fo st) i (v - 1)))) as Bd. rewrite PC in Bd.
        pose proof (psel_pos (isz (pe Fo st)) all74 (idx_seq 0 74 (le_n _))). pose proof (primes_range i Hi).
        destruct (lp_mul_exact (pk Fo st) _ i F V) as [F' V']; [lia|].
        split; [exact F'|]. rewrite V', PC. symmetry. apply Z.mul_assoc.
      + split; [exact F|]. rewrite V. f_equal. apply psel_ext. intros j _. unfold isz. rewrite N.
        destruct (Nat.eqb_spec j i) as [->|]; [|reflexivity]. fold v. destruct (Z.eqb_spec v 0), (Z.eqb_spec (v - 1) 0); lia.
    - intros j. rewrite N. unfold cnt. rewrite count_occ_app. cbn [count_occ].
      specialize (C j). unfold cnt in C. destruct (Nat.eq_dec i j) as [->|ne].
      + rewrite Nat.eqb_refl. fold v in C. lia.
      + destruct (Nat.eqb_spec j i); [congruence|]. lia.
    - apply DN. rewrite D. apply forallb_ext_in'. intros j Hj. apply in_seq in Hj. unfold isz. rewrite N.
      destruct (Nat.eqb_spec j i); [lia|reflexivity].
  Qed.

  Lemma pass_ok : forall e0 k0 Pt A, ewf e0 -> kinv e0 k0 -> forall n, (n <= 74)%nat ->
    pinv e0 n (fold_left step (seq 0 n) (mkpass Fo Pt A e0 k0 true [])).
  Proof.
    intros e0 k0 Pt A W K n. induction n; intros Hn.
    - cbn [seq fold_left]. split; [exact W|]. split; [exact K|]. split; [|reflexivity].
      intros j. cbn [pe plog]. unfold cnt. cbn [count_occ]. lia.
    - rewrite seq_S, fold_left_app. cbn [Nat.add fold_left]. apply passStep_ok; [lia|]. apply IHn. lia.
  Qed.

  (* ---------- the whole action ---------- *)
  Definition sn_dec : forall x y : bool * nat, {x = y} + {x <> y}.
  Proof. intros [a b] [c d]. destruct (Bool.bool_dec a c), (Nat.eq_dec b d); [left; congruence|right; congruence|right; congruence|right; congruence]. Defined.
  Definition gcnt (s : bool) (j : nat) (l : list (bool * nat)) : Z := Z.of_nat (count_occ sn_dec l (s, j)).
  Definition ginv (e : list Z) (st : gaState Fo) : Prop :=
    forall s, ewf (gE Fo st s) /\ kinv (gE Fo st s) (gK Fo st s) /\
      (forall j, nth j (gE Fo st s) 0 + gcnt s j (gLog Fo st) = nth j (initE e s) 0) /\
      (gDone Fo st s = true -> forall j, nth j (gE Fo st s) 0 = 0).

  Lemma gcnt_map : forall s s' j l, gcnt s j (map (fun i => (s', i)) l) = if Bool.eqb s s' then cnt j l else 0.
  Proof.
    intros s s' j l. unfold gcnt, cnt. induction l as [|x l IH].
    - destruct (Bool.eqb s s'); reflexivity.
    - cbn [map count_occ]. destruct (sn_dec (s', x) (s, j)) as [h|h].
      + injection h as -> ->. rewrite Bool.eqb_reflx in *. destruct (Nat.eq_dec j j); [|contradiction]. lia.
      + destruct (Bool.eqb s s') eqn:B.
        * apply Bool.eqb_prop in B. subst. destruct (Nat.eq_dec x j); [subst; contradiction|]. exact IH.
        * exact IH.
  Qed.

  Lemma ginit_ok : forall a e, bytes e -> ginv e (gaInit Fo a e).
  Proof.
    intros a e He s. unfold gaInit. cbn [gE gK gDone gLog].
    split; [apply initE_wf; exact He|]. split; [apply initK_ok; exact He|]. split; [|discriminate].
    intros j. unfold gcnt. cbn [count_occ]. lia.
  Qed.

  Lemma ground_ok : forall e st x, ginv e st -> ginv e (round st x).
  Proof.
    intros e st x G. unfold gaRound. cbv zeta.
    destruct (gDone Fo st _) eqn:D; [exact G|].
    set (sg := negb _) in *. clearbody sg.
    destruct (G sg) as (W & K & C & _).
    set (Pt := xMul_ip Fo fzero fone ffour _ _ _). clearbody Pt.
    pose proof (pass_ok (gE Fo st sg) (gK Fo st sg) Pt (gA Fo st, fone) W K 74 (le_n _)) as PI.
    change primeCount with 74%nat. revert PI. generalize (fold_left step (seq 0 74) (mkpass Fo Pt (gA Fo st, fone) (gE Fo st sg) (gK Fo st sg) true [])).
    intros r (W' & K' & C' & D') s. cbn [gE gK gDone gLog]. unfold setB.
    assert (GC : forall j, gcnt s j (gLog Fo st ++ map (fun i => (sg, i)) (plog Fo r)) = gcnt s j (gLog Fo st) + if Bool.eqb s sg then cnt j (plog Fo r) else 0).
    { intros j. rewrite <- gcnt_map. unfold gcnt. rewrite count_occ_app. lia. }
    destruct (Bool.eqb s sg) eqn:B.
    - apply Bool.eqb_prop in B. subst s. split; [exact W'|]. split; [exact K'|]. split.
      + intros j. rewrite GC. specialize (C j). specialize (C' j). lia.
      + intros Dn j. rewrite Dn in D'. symmetry in D'. rewrite forallb_forall in D'.
        destruct (Nat.lt_ge_cases j 74) as [h|h].
        * specialize (D' j). unfold isz in D'. apply Z.eqb_eq. apply D'. apply in_seq. lia.
        * apply nth_overflow. destruct W' as [L _]. lia.
    - destruct (G s) as (W2 & K2 & C2 & D2). split; [exact W2|]. split; [exact K2|]. split; [|exact D2].
      intros j. rewrite GC. specialize (C2 j). lia.
  Qed.

  (* states the loop can be in, whatever random points are drawn *)
  Inductive visited (a : car Fo) (e : list Z) : gaState Fo -> Prop :=
  | v_init : visited a e (gaInit Fo a e)
  | v_round : forall st x, visited a e st -> visited a e (round st x).

  Lemma visited_ok : forall a e st, bytes e -> visited a e st -> ginv e st.
  Proof. intros a e st He V. induction V; [apply ginit_ok; exact He | apply ground_ok; assumption]. Qed.

  Notation loop := (gaLoop Fo fzero fone ffour fisZero fnonQR inject).
  Lemma loop_visited : forall a e f st rng st' rest, visited a e st -> loop f st rng = Some (st', rest) ->
    visited a e st' /\ gDone Fo st' false = true /\ gDone Fo st' true = true.
  Proof.
    intros a e. induction f; intros st rng st' rest V H; [discriminate|]. cbn [gaLoop] in H.
    destruct (randFp rng) as [[x rng']|]; [|discriminate].
    destruct (gDone Fo st _); [eapply IHf; eassumption|].
    destruct (andb _ _) eqn:A in H.
    - injection H as <- <-. apply andb_prop in A. split; [apply v_round; exact V|exact A].
    - eapply IHf; [|eassumption]. apply v_round. exact V.
  Qed.

  (* the fuel never runs out before the source does *)
  Lemma randFp_shorter : forall rng x rest, randFp rng = Some (x, rest) -> (length rest + 64 <= length rng)%nat.
  Proof.
    intros rng x rest. unfold randFp. generalize (S (length rng)) as f. intros f. revert rng.
    induction f; intros rng H; [discriminate|]. cbn [randFp_loop] in H. unfold readFull64 in H.
    destruct (Nat.ltb_spec (length rng) 64); [discriminate|]. destruct (isLess _ p).
    - assert (E : rest = skipn 64 rng) by congruence. rewrite E, skipn_length. lia.
    - apply IHf in H. rewrite skipn_length in H. lia.
  Qed.
  Lemma loop_fuel : forall f g st rng, (length rng < f)%nat -> (length rng < g)%nat -> loop f st rng = loop g st rng.
  Proof.
    induction f; intros g st rng Hf Hg; [lia|]. destruct g; [lia|]. cbn [gaLoop].
    destruct (randFp rng) as [[x rng']|] eqn:R; [|reflexivity]. apply randFp_shorter in R.
    destruct (gDone Fo st _); [apply IHf; lia|]. destruct (andb _ _); [reflexivity|]. apply IHf; lia.
  Qed.
  Lemma validLoop_fuel : forall f g a rng, (length rng < f)%nat -> (length rng < g)%nat ->
    validLoop Fo fzero fone ffour fisZero inject f a rng = validLoop Fo fzero fone ffour fisZero inject g a rng.
  Proof.
    induction f; intros g a rng Hf Hg; [lia|]. destruct g; [lia|]. cbn [validLoop].
    destruct (randFp rng) as [[x rng']|] eqn:R; [|reflexivity]. apply randFp_shorter in R.
    destruct (cofactorMul _ _ _ _ _ _ _ _ _ _ _) as [[dn rs] od]. destruct dn; [reflexivity|]. apply IHf; lia.
  Qed.
  Lemma cofactorMul_fuel : forall f g Pt a l r o, (l < r)%nat -> (r - l <= f)%nat -> (r - l <= g)%nat ->
    cofactorMul Fo fzero fone ffour fisZero f Pt a l r o = cofactorMul Fo fzero fone ffour fisZero g Pt a l r o.
  Proof.
    induction f; intros g Pt a l r o H Hf Hg; [lia|]. destruct g; [lia|]. cbn [cofactorMul].
    destruct (Nat.eqb_spec (r - l) 1); [reflexivity|]. cbv zeta.
    assert (M : (1 <= (r - l + 1) / 2 /\ (r - l + 1) / 2 < r - l)%nat).
    { split; [apply Nat.div_le_lower_bound; lia | apply Nat.div_lt_upper_bound; lia]. }
    rewrite (IHf g) by lia. destruct (cofactorMul _ _ _ _ _ g _ _ _ _ _) as [[d1 r1] o1].
    rewrite (IHf g) by lia. reflexivity.
  Qed.
End GA.
