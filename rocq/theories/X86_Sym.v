(* A symbolic executor for the machine of X86: words are integer polynomials over atoms (input words, carries, high
   halves of products), kept exact by introducing an atom for every carry or high half that may be non-zero.  [sym_run]
   says that a successful symbolic run describes every concrete run. *)
From Coq Require Import ZArith List Lia Bool.
From Verif Require Import Lib MP X86.
Import ListNotations.
Open Scope Z_scope.

(* ---------- polynomials: sorted lists of (monomial, coefficient); xO k is the bit atom k, xI k the word atom k ---------- *)
Definition mono := list positive.
Definition poly := list (mono * Z).
Fixpoint meval (e : positive -> Z) (m : mono) : Z := match m with [] => 1 | a :: m' => e a * meval e m' end.
Fixpoint peval (e : positive -> Z) (p : poly) : Z := match p with [] => 0 | (m, c) :: p' => c * meval e m + peval e p' end.

Fixpoint lexcmp (a b : mono) : comparison :=
  match a, b with
  | [], [] => Eq | [], _ => Lt | _, [] => Gt
  | x :: a', y :: b' => match Pos.compare x y with Eq => lexcmp a' b' | c => c end
  end.
Definition mcmp (a b : mono) : comparison :=
  match Nat.compare (length a) (length b) with Eq => lexcmp a b | c => c end.
Fixpoint padd (p : poly) : poly -> poly :=
  fix go (q : poly) : poly :=
    match p, q with
    | [], _ => q
    | _, [] => p
    | (m, c) :: p', (n, d) :: q' =>
      match mcmp m n with
      | Eq => if c + d =? 0 then padd p' q' else (m, c + d) :: padd p' q'
      | Lt => (m, c) :: padd p' q
      | Gt => (n, d) :: go q'
      end
    end.
Definition pscale (k : Z) (p : poly) : poly := if k =? 0 then [] else if k =? 1 then p else map (fun t => (fst t, k * snd t)) p.
Fixpoint mins (a : positive) (m : mono) : mono :=
  match m with [] => [a] | b :: m' => if (a <=? b)%positive then a :: m else b :: mins a m' end.
Definition mmul (a b : mono) : mono := fold_right mins b a.
Definition pmono (m : mono) (c : Z) (q : poly) : poly := match m with [] => pscale c q | _ => map (fun t => (mmul m (fst t), c * snd t)) q end.
Fixpoint pmul (p q : poly) : poly := match p with [] => [] | (m, c) :: p' => padd (pmono m c q) (pmul p' q) end.
Definition pcst (z : Z) : poly := if z =? 0 then [] else [([], z)].
Fixpoint meqb (a b : mono) : bool := match a, b with [], [] => true | x :: a', y :: b' => Pos.eqb x y && meqb a' b' | _, _ => false end.
Fixpoint peqb (p q : poly) : bool :=
  match p, q with
  | [], [] => true
  | (m, c) :: p', (n, d) :: q' => meqb m n && (c =? d) && peqb p' q'
  | _, _ => false
  end.

Lemma lexcmp_eq a b : lexcmp a b = Eq -> a = b.
Proof.
  revert b. induction a as [|x a IH]; intros [|y b]; simpl; try discriminate; try reflexivity.
  destruct (Pos.compare_spec x y); try discriminate. intro H1. f_equal; [assumption|]. apply IH, H1.
Qed.
Lemma mcmp_eq a b : mcmp a b = Eq -> a = b.
Proof. unfold mcmp. destruct (Nat.compare _ _); try discriminate. apply lexcmp_eq. Qed.
Lemma peval_add e p : forall q, peval e (padd p q) = peval e p + peval e q.
Proof.
  induction p as [|[m c] p IH]; intro q; [destruct q; simpl; lia|].
  induction q as [|[n d] q IHq]; [simpl; lia|].
  cbn [padd]. destruct (mcmp m n) eqn:C.
  - apply mcmp_eq in C; subst n. destruct (Z.eqb_spec (c + d) 0) as [Ez|Ez].
    + rewrite IH. cbn [peval]. replace d with (- c) by lia. ring.
    + cbn [peval]. rewrite IH. ring.
  - cbn [peval]. rewrite IH. cbn [peval]. ring.
  - cbn [peval]. cbn [padd] in IHq. rewrite IHq. cbn [peval]. ring.
Qed.
Lemma peval_scale e k p : peval e (pscale k p) = k * peval e p.
Proof.
  unfold pscale. destruct (Z.eqb_spec k 0); [subst; simpl; lia|]. destruct (Z.eqb_spec k 1); [subst; lia|].
  induction p as [|[m c] p IH]; cbn [map peval fst snd]; [lia|]. rewrite IH. ring.
Qed.
Lemma meval_ins e a m : meval e (mins a m) = e a * meval e m.
Proof. induction m as [|b m IH]; [reflexivity|]. cbn [mins]. destruct (a <=? b)%positive; cbn [meval]; [reflexivity|]. rewrite IH. ring. Qed.
Lemma meval_mul e a b : meval e (mmul a b) = meval e a * meval e b.
Proof. induction a as [|x a IH]; cbn [mmul fold_right meval]; [change (meval e b = 1 * meval e b); ring|]. rewrite meval_ins. fold (mmul a b). rewrite IH. ring. Qed.
Lemma peval_mono e m c q : peval e (pmono m c q) = c * meval e m * peval e q.
Proof.
  unfold pmono. destruct m as [|a m]; [rewrite peval_scale; cbn [meval]; ring|].
  set (mm := a :: m). induction q as [|[n d] q IH]; cbn [map peval fst snd]; [ring|]. rewrite IH, meval_mul. ring.
Qed.
Lemma peval_mul e p q : peval e (pmul p q) = peval e p * peval e q.
Proof. induction p as [|[m c] p IH]; cbn [pmul peval]; [ring|]. rewrite peval_add, peval_mono, IH. ring. Qed.
Lemma peval_cst e z : peval e (pcst z) = z.
Proof. unfold pcst. destruct (Z.eqb_spec z 0); cbn [peval meval]; lia. Qed.
Lemma meqb_eq a b : meqb a b = true -> a = b.
Proof.
  revert b. induction a as [|x a IH]; intros [|y b]; simpl; try discriminate; try reflexivity.
  intro H. apply andb_prop in H as [H1 H2]. apply Pos.eqb_eq in H1. f_equal; auto.
Qed.
Lemma peqb_eq p q : peqb p q = true -> p = q.
Proof.
  revert q. induction p as [|[m c] p IH]; intros [|[n d] q]; simpl; try discriminate; try reflexivity.
  intro H. apply andb_prop in H as [H H3]. apply andb_prop in H as [H1 H2]. apply meqb_eq in H1. apply Z.eqb_eq in H2. subst. f_equal. auto.
Qed.

(* ---------- the symbolic words: a polynomial and an upper bound; 0 <= value <= bound < 2^64 ---------- *)
Record sw : Type := mkSw { pl : poly; ub : Z }.
Definition bitA (k : positive) : poly := [([xO k], 1)].
Definition wordA (k : positive) : poly := [([xI k], 1)].
Definition scst (z : Z) : sw := mkSw (pcst z) z.
(* a mask: (2^64-1) times a bit atom *)
Definition isMask (p : poly) : option positive :=
  match p with [([xO k], c)] => if c =? B - 1 then Some k else None | _ => None end.
Definition isCst (p : poly) : option Z := match p with [] => Some 0 | [([], c)] => Some c | _ => None end.
Definition isNil (p : poly) : bool := match p with [] => true | _ => false end.
(* 1 plus a mask *)
Definition negOne (p : poly) : option positive :=
  match p with [([], o); ([xO k], c)] => if (o =? 1) && (c =? B - 1) then Some k else None | _ => None end.
Definition sadc (n : positive) (a b c : sw) : positive * sw * sw :=
  let p := padd (pl a) (padd (pl b) (pl c)) in
  let u := ub a + ub b + ub c in
  if u <? B then (n, mkSw p u, scst 0)
  else match negOne p with
  | Some k => (n, mkSw [([], 1); ([xO k], -1)] 1, mkSw (bitA k) 1)
  | None => (Pos.succ n, mkSw (padd p (pscale (- B) (bitA n))) (B - 1), mkSw (bitA n) 1)
  end.
Definition ssbb (n : positive) (a b c : sw) : positive * sw * sw :=
  if isNil (pl b) && isNil (pl c) then (n, a, scst 0)
  else if isNil (pl a) && isNil (pl c) && (ub b <=? 1) then (n, mkSw (pscale (B - 1) (pl b)) (B - 1), b)
  else if peqb (pl a) (pl b) then (n, mkSw (pscale (B - 1) (pl c)) (B - 1), c)
  else (Pos.succ n, mkSw (padd (padd (pl a) (pscale (-1) (padd (pl b) (pl c)))) (pscale B (bitA n))) (B - 1), mkSw (bitA n) 1).
Definition smul (n : positive) (a b : sw) : positive * sw * sw :=
  if ub a * ub b <? B then (n, scst 0, mkSw (pmul (pl a) (pl b)) (ub a * ub b))
  else (Pos.succ n, mkSw (wordA n) (ub a * ub b / B),
        mkSw (padd (pmul (pl a) (pl b)) (pscale (- B) (wordA n))) (B - 1)).
Definition sand (a b : sw) : option sw :=
  if isNil (pl a) || isNil (pl b) then Some (scst 0) else
  if (ub a <=? 1) && (ub b <=? 1) then Some (mkSw (pmul (pl a) (pl b)) 1) else
  match isMask (pl a) with
  | Some k => Some (mkSw (pmul (bitA k) (pl b)) (ub b))
  | None => match isMask (pl b) with Some k => Some (mkSw (pmul (bitA k) (pl a)) (ub a)) | None => None end
  end.
Definition sxor (a b : sw) : option sw := if peqb (pl a) (pl b) then Some (scst 0) else None.
Definition sbt0 (a : sw) : option sw :=
  if ub a <=? 1 then Some a else match isMask (pl a) with Some k => Some (mkSw (bitA k) 1) | None => None end.
Definition sisone (a : sw) : option bool := match isCst (pl a) with Some c => Some (c mod 256 =? 1) | None => None end.
(* every result word of an addition, subtraction and low half of a product is also recorded, latest first *)
Definition note (r : positive * sw * sw) (l : list poly) (w : sw) : (positive * list poly) * sw * sw :=
  let '(n, a, b) := r in ((n, pl w :: l), a, b).
Definition noted1 (l : list poly) (r : positive * sw * sw) : (positive * list poly) * sw * sw := note r l (snd (fst r)).
Definition noted2 (l : list poly) (r : positive * sw * sw) : (positive * list poly) * sw * sw := note r l (snd r).
(* a product computed before: among the d words recorded last, q minus 2^64 times an atom *)
Fixpoint shareK (d : nat) (l : list poly) (q : poly) : option (positive * poly) :=
  match d, l with
  | S d', p :: l' =>
    match padd q (pscale (-1) p) with
    | [([xI k], c)] => if c =? B then Some (k, p) else shareK d' l' q
    | _ => shareK d' l' q
    end
  | _, _ => None
  end.
Definition smulS (t : positive * list poly) (a b : sw) : (positive * list poly) * sw * sw :=
  if ub a * ub b <? B then noted2 (snd t) (smul (fst t) a b) else
  match shareK 24 (snd t) (pmul (pl a) (pl b)) with
  | Some (k, p) => (t, mkSw (wordA k) (ub a * ub b / B), mkSw p (B - 1))
  | None => noted2 (snd t) (smul (fst t) a b)
  end.
Definition sorS (t : positive * list poly) (b a : sw) (k : Z) : option ((positive * list poly) * sw) :=
  if forallb (fun m => snd m mod 2 ^ (64 - k) =? 0) (pl b)
  then let '(t', h, l) := smulS t a (scst (2 ^ (64 - k))) in Some (t', mkSw (padd (pl b) (pl h)) (B - 1))
  else None.
Definition sdom : dom := mkDom sw sw (positive * list poly) (fun z => scst z) (scst 0)
  (fun t a b c => noted1 (snd t) (sadc (fst t) a b c)) (fun t a b c => noted1 (snd t) (ssbb (fst t) a b c))
  (fun t a b => noted2 (snd t) (smul (fst t) a b)) sand sxor sbt0 (fun _ => None) (fun _ => None) sisone
  smulS sorS (fun _ => None) (fun _ => None).

(* ---------- traces: the values the atoms 1, 2, ... stand for; true marks a bit ---------- *)
Definition trace := list (bool * Z).
Definition atom (b : bool) (k : positive) : positive := if b then xO k else xI k.
Definition tn (i : nat) : positive := Pos.of_succ_nat i.
Definition agrees (e : positive -> Z) (tr : trace) : Prop :=
  (forall k, 0 <= e (xO k) <= 1) /\ forall i b v, nth_error tr i = Some (b, v) -> e (atom b (tn i)) = v.
Definition trOk (tr : trace) : Prop := forall v, In (true, v) tr -> 0 <= v <= 1.
Definition envOf (tr : trace) (a : positive) : Z :=
  match a with
  | xO k => match nth_error tr (pred (Pos.to_nat k)) with Some (true, v) => v | _ => 0 end
  | xI k => match nth_error tr (pred (Pos.to_nat k)) with Some (false, v) => v | _ => 0 end
  | xH => 0
  end.
Lemma tn_nat i : pred (Pos.to_nat (tn i)) = i.
Proof. unfold tn. rewrite SuccNat2Pos.id_succ. reflexivity. Qed.
Lemma envOf_agrees tr : trOk tr -> agrees (envOf tr) tr.
Proof.
  intro H. split.
  - intro k. cbn [envOf]. destruct (nth_error tr _) as [[[] v]|] eqn:En; try lia. apply nth_error_In in En. apply H, En.
  - intros i b v En. destruct b; cbn [atom envOf]; rewrite tn_nat, En; reflexivity.
Qed.
Lemma agrees_app e tr x : agrees e (tr ++ x) -> agrees e tr.
Proof.
  intros [H1 H2]. split; [exact H1|]. intros i b v En. apply H2. rewrite nth_error_app1; [exact En|].
  apply nth_error_Some. rewrite En. discriminate.
Qed.
Lemma agrees_last e tr b v : agrees e (tr ++ [(b, v)]) -> e (atom b (tn (length tr))) = v.
Proof. intros [_ H]. apply H. rewrite nth_error_app2 by lia. rewrite Nat.sub_diag. reflexivity. Qed.

Definition relW (e : positive -> Z) (z : Z) (w : sw) : Prop := 0 <= z <= ub w /\ ub w < B /\ z = peval e (pl w).
Definition RW (tr : trace) (z : Z) (w : sw) : Prop := forall e, agrees e tr -> relW e z w.
Definition relF (e : positive -> Z) (z : Z) (w : sw) : Prop := 0 <= z <= 1 /\ z <= ub w /\ ub w <= 1 /\ z = peval e (pl w).
Definition RF (tr : trace) (z : Z) (w : sw) : Prop := forall e, agrees e tr -> relF e z w.
Definition tnext (tr : trace) : positive := tn (length tr).
Lemma RW_app tr x z w : RW tr z w -> RW (tr ++ x) z w.
Proof. intros H e He. apply H. eapply agrees_app, He. Qed.
Lemma RF_app tr x z w : RF tr z w -> RF (tr ++ x) z w.
Proof. intros H e He. apply H. eapply agrees_app, He. Qed.
Lemma tnext_app tr b v : tnext (tr ++ [(b, v)]) = Pos.succ (tnext tr).
Proof. unfold tnext, tn. rewrite app_length. cbn [length]. rewrite Nat.add_comm. cbn [Nat.add Pos.of_succ_nat]. reflexivity. Qed.
Lemma trOk_app tr b v : trOk tr -> (b = true -> 0 <= v <= 1) -> trOk (tr ++ [(b, v)]).
Proof. intros H1 H2 w Hin. apply in_app_or in Hin as [Hin|[Hin|[]]]; [apply H1, Hin|]. inversion Hin; subst. auto. Qed.

Lemma RF_0 tr : RF tr 0 (scst 0).
Proof. intros e _. unfold relF, scst. cbn [pl ub]. rewrite peval_cst. lia. Qed.
Lemma RW_cst tr z : 0 <= z < B -> RW tr z (scst z).
Proof. intros H e _. unfold relW, scst. cbn [pl ub]. rewrite peval_cst. lia. Qed.
Lemma peval_bit e k : peval e (bitA k) = e (xO k).
Proof. unfold bitA. cbn [peval meval]. ring. Qed.
Lemma peval_word e k : peval e (wordA k) = e (xI k).
Proof. unfold wordA. cbn [peval meval]. ring. Qed.

(* every operation either adds nothing to the trace or one value *)
Definition ext (tr : trace) (P : trace -> Prop) : Prop := exists x, trOk (tr ++ x) /\ P (tr ++ x).
Lemma ext_nil tr (P : trace -> Prop) : trOk tr -> P tr -> ext tr P.
Proof. intros. exists []. rewrite app_nil_r. auto. Qed.
Lemma ext_one tr b v (P : trace -> Prop) : trOk tr -> (b = true -> 0 <= v <= 1) -> P (tr ++ [(b, v)]) -> ext tr P.
Proof. intros. exists [(b, v)]. split; [apply trOk_app; assumption|assumption]. Qed.

Definition opOk3 (R2 : trace -> Z -> sw -> Prop) (tr : trace) (n : positive) (w f : sw) (z c : Z) : Prop :=
  ext tr (fun tr' => n = tnext tr' /\ RW tr' z w /\ R2 tr' c f).

Lemma negOne_eq p k : negOne p = Some k -> forall e, peval e p = 1 + (B - 1) * e (xO k).
Proof.
  destruct p as [|[[|] o] [|[[|[a|a|] [|]] c] [|]]]; try discriminate. cbn [negOne].
  destruct (Z.eqb_spec o 1) as [->|]; [|discriminate]. destruct (Z.eqb_spec c (B - 1)) as [->|]; [|discriminate].
  intros [= ->] e. cbn [peval meval]. ring.
Qed.
Lemma sadc_ok tr a b c wa wb wc n w f :
  trOk tr -> RW tr a wa -> RW tr b wb -> RF tr c wc -> sadc (tnext tr) wa wb wc = (n, w, f) ->
  opOk3 RF tr n w f ((a + b + c) mod B) ((a + b + c) / B).
Proof.
  intros Ht Ha Hb Hc E. unfold sadc in E.
  pose proof (Ha _ (envOf_agrees tr Ht)) as (A1 & A2 & _). pose proof (Hb _ (envOf_agrees tr Ht)) as (B1 & B2 & _).
  pose proof (Hc _ (envOf_agrees tr Ht)) as (C1 & C2 & C3 & _).
  destruct (Z.ltb_spec (ub wa + ub wb + ub wc) B) as [L|L]; [injection E as <- <- <-|].
  - apply ext_nil; [exact Ht|]. split; [reflexivity|].
    rewrite Z.mod_small, Z.div_small by lia. split; [|apply RF_0].
    intros e He. destruct (Ha e He) as (_ & _ & Ea). destruct (Hb e He) as (_ & _ & Eb). destruct (Hc e He) as (_ & _ & _ & Ec).
    unfold relW. cbn [pl ub]. rewrite !peval_add. lia.
  - destruct (negOne (padd (pl wa) (padd (pl wb) (pl wc)))) as [k|] eqn:No; injection E as <- <- <-.
    { assert (Ev : forall e, agrees e tr -> a + b + c = 1 + (B - 1) * e (xO k)).
      { intros e He. destruct (Ha e He) as (_ & _ & Ea). destruct (Hb e He) as (_ & _ & Eb). destruct (Hc e He) as (_ & _ & _ & Ec).
        pose proof (negOne_eq _ _ No e) as En. rewrite !peval_add in En. lia. }
      apply ext_nil; [exact Ht|]. split; [reflexivity|].
      split; intros e He; rewrite (Ev e He); pose proof (proj1 He k) as Hk; assert (Hk1 : e (xO k) = 0 \/ e (xO k) = 1) by lia;
        unfold relW, relF; cbn [pl ub]; try rewrite peval_bit; cbn [peval meval]; destruct Hk1 as [-> | ->]; cbn; lia. }
    assert (Bd : 0 <= (a + b + c) / B <= 1) by (split; [apply Z.div_pos; lia|]; apply Z.lt_succ_r, Z.div_lt_upper_bound; lia).
    apply (ext_one tr true ((a + b + c) / B)); [exact Ht|intro; exact Bd|].
    split; [rewrite tnext_app; reflexivity|].
    split; intros e He; pose proof (agrees_last _ _ _ _ He) as El; cbn [atom] in El; pose proof (agrees_app _ _ _ He) as He'.
    + destruct (Ha e He') as (_ & _ & Ea). destruct (Hb e He') as (_ & _ & Eb). destruct (Hc e He') as (_ & _ & _ & Ec).
      unfold relW. cbn [pl ub]. rewrite !peval_add, peval_scale, peval_bit. unfold tnext. rewrite El, <- Ea, <- Eb, <- Ec.
      pose proof (Z.mod_pos_bound (a + b + c) B ltac:(lia)). pose proof (Z.div_mod (a + b + c) B ltac:(lia)). lia.
    + unfold relF. cbn [pl ub]. rewrite peval_bit. unfold tnext. rewrite El. lia.
Qed.

Lemma sbb_bounds a b c : 0 <= a < B -> 0 <= b < B -> 0 <= c <= 1 -> 0 <= - ((a - b - c) / B) <= 1.
Proof.
  intros. assert (a - b - c < B) by lia. assert (-1 <= (a - b - c) / B) by (apply Z.div_le_lower_bound; lia).
  assert ((a - b - c) / B < 1) by (apply Z.div_lt_upper_bound; lia). lia.
Qed.
Lemma isNil_eq p : isNil p = true -> p = [].
Proof. destruct p; [reflexivity|discriminate]. Qed.
Lemma ssbb_ok tr a b c wa wb wc n w f :
  trOk tr -> RW tr a wa -> RW tr b wb -> RF tr c wc -> ssbb (tnext tr) wa wb wc = (n, w, f) ->
  opOk3 RF tr n w f ((a - b - c) mod B) (- ((a - b - c) / B)).
Proof.
  intros Ht Ha Hb Hc E. unfold ssbb in E.
  pose proof (Ha _ (envOf_agrees tr Ht)) as (A1 & A2 & A3). pose proof (Hb _ (envOf_agrees tr Ht)) as (B1 & B2 & B3).
  pose proof (Hc _ (envOf_agrees tr Ht)) as (C1 & C2 & C3 & C4).
  destruct (isNil (pl wb) && isNil (pl wc)) eqn:N.
  { apply andb_prop in N as [N1 N2]. apply isNil_eq in N1, N2. injection E as <- <- <-.
    rewrite N1 in B3. rewrite N2 in C4. cbn [peval] in B3, C4. subst b c.
    apply ext_nil; [exact Ht|]. split; [reflexivity|].
    rewrite !Z.sub_0_r, Z.mod_small, Z.div_small by lia. split; [exact Ha|]. apply RF_0. }
  destruct (isNil (pl wa) && isNil (pl wc) && (ub wb <=? 1)) eqn:N2.
  { apply andb_prop in N2 as [N1 N3]. apply andb_prop in N1 as [N1 N2]. apply isNil_eq in N1, N2. apply Z.leb_le in N3. injection E as <- <- <-.
    rewrite N1 in A3. rewrite N2 in C4. cbn [peval] in A3, C4. subst a c.
    apply ext_nil; [exact Ht|]. split; [reflexivity|].
    replace (0 - b - 0) with (- b) by lia.
    assert (Hm : (- b) mod B = (B - 1) * b /\ - (- b / B) = b).
    { assert (Hc1 : b = 0 \/ b = 1) by lia. clear - Hc1. destruct Hc1 as [-> | ->]; split; reflexivity. }
    destruct Hm as [-> ->]. split.
    - intros e He. destruct (Hb e He) as (_ & _ & Eb). unfold relW. cbn [pl ub]. rewrite peval_scale, <- Eb.
      split; [|split; [lia|reflexivity]]. nia.
    - intros e He. destruct (Hb e He) as (_ & _ & Eb). unfold relF. lia. }
  destruct (peqb (pl wa) (pl wb)) eqn:Q.
  { apply peqb_eq in Q. injection E as <- <- <-. rewrite Q, <- B3 in A3. subst a.
    apply ext_nil; [exact Ht|]. split; [reflexivity|].
    replace (b - b - c) with (- c) by lia.
    assert (Hm : (- c) mod B = (B - 1) * c /\ - (- c / B) = c).
    { assert (Hc1 : c = 0 \/ c = 1) by lia. clear - Hc1. destruct Hc1 as [-> | ->]; split; reflexivity. }
    destruct Hm as [-> ->]. split; [|exact Hc].
    intros e He. destruct (Hc e He) as (_ & _ & _ & Ec). unfold relW. cbn [pl ub]. rewrite peval_scale, <- Ec.
    split; [|split; [lia|reflexivity]]. nia. }
  injection E as <- <- <-.
  assert (Bd := sbb_bounds a b c ltac:(lia) ltac:(lia) C1).
  apply (ext_one tr true (- ((a - b - c) / B))); [exact Ht|intro; exact Bd|].
  split; [rewrite tnext_app; reflexivity|].
  split; intros e He; pose proof (agrees_last _ _ _ _ He) as El; cbn [atom] in El; pose proof (agrees_app _ _ _ He) as He'.
  + destruct (Ha e He') as (_ & _ & Ea). destruct (Hb e He') as (_ & _ & Eb). destruct (Hc e He') as (_ & _ & _ & Ec).
    unfold relW. cbn [pl ub]. rewrite !peval_add, !peval_scale, peval_add, peval_bit. unfold tnext. rewrite El, <- Ea, <- Eb, <- Ec.
    pose proof (Z.mod_pos_bound (a - b - c) B ltac:(lia)). pose proof (Z.div_mod (a - b - c) B ltac:(lia)). lia.
  + unfold relF. cbn [pl ub]. rewrite peval_bit. unfold tnext. rewrite El. lia.
Qed.
Lemma smul_ok tr a b wa wb n h l :
  trOk tr -> RW tr a wa -> RW tr b wb -> smul (tnext tr) wa wb = (n, h, l) ->
  opOk3 RW tr n h l (a * b / B) ((a * b) mod B).
Proof.
  intros Ht Ha Hb E. unfold smul in E.
  pose proof (Ha _ (envOf_agrees tr Ht)) as (A1 & A2 & _). pose proof (Hb _ (envOf_agrees tr Ht)) as (B1 & B2 & _).
  assert (Hu : 0 <= a * b <= ub wa * ub wb) by (split; nia).
  destruct (Z.ltb_spec (ub wa * ub wb) B) as [L|L]; injection E as <- <- <-.
  - apply ext_nil; [exact Ht|]. split; [reflexivity|].
    rewrite Z.mod_small, Z.div_small by lia. split; [apply RW_cst; lia|].
    intros e He. destruct (Ha e He) as (_ & _ & Ea). destruct (Hb e He) as (_ & _ & Eb).
    unfold relW. cbn [pl ub]. rewrite !peval_mul, <- Ea, <- Eb. lia.
  - apply (ext_one tr false (a * b / B)); [exact Ht|intro; discriminate|].
    split; [rewrite tnext_app; reflexivity|].
    split; intros e He; pose proof (agrees_last _ _ _ _ He) as El; cbn [atom] in El; pose proof (agrees_app _ _ _ He) as He'.
    + unfold relW. cbn [pl ub]. rewrite peval_word. unfold tnext. rewrite El. split; [|split; [|reflexivity]].
      * split; [apply Z.div_pos; lia|]. apply Z.div_le_mono; lia.
      * apply Z.div_lt_upper_bound; [lia|]. nia.
    + destruct (Ha e He') as (_ & _ & Ea). destruct (Hb e He') as (_ & _ & Eb).
      unfold relW. cbn [pl ub]. rewrite !peval_add, peval_scale, peval_word, peval_mul. unfold tnext. rewrite El, <- Ea, <- Eb.
      pose proof (Z.mod_pos_bound (a * b) B ltac:(lia)). pose proof (Z.div_mod (a * b) B ltac:(lia)). lia.
Qed.
Lemma isMask_eq p k : isMask p = Some k -> forall e, peval e p = (B - 1) * e (xO k).
Proof.
  destruct p as [|[[|[a|a|] [|]] c] [|]]; try discriminate. cbn [isMask].
  destruct (Z.eqb_spec c (B - 1)) as [->|]; [|discriminate]. intros [= ->] e. cbn [peval meval]. ring.
Qed.
Lemma land_mask k z : 0 <= k <= 1 -> 0 <= z < B -> Z.land ((B - 1) * k) z = k * z.
Proof.
  intros Hk Hz. destruct (Z.eq_dec k 0) as [->|]; [rewrite Z.mul_0_r; apply Z.land_0_l|]. replace k with 1 by lia.
  rewrite Z.mul_1_r, Z.mul_1_l, Z.land_comm. change (B - 1) with (Z.ones 64). rewrite Z.land_ones by lia. apply Z.mod_small, Hz.
Qed.
Lemma Some_inj {X} (a b : X) : Some a = Some b -> a = b.
Proof. intro H. congruence. Qed.
Lemma sand_ok tr a b wa wb w : trOk tr -> RW tr a wa -> RW tr b wb -> sand wa wb = Some w -> RW tr (Z.land a b) w.
Proof.
  intros Ht Ha Hb. unfold sand. destruct (isNil (pl wa) || isNil (pl wb)) eqn:E0.
  { intro X; apply Some_inj in X; subst w; intros e He. destruct (Ha e He) as (_ & _ & Ea). destruct (Hb e He) as (_ & _ & Eb).
    assert (Ez : Z.land a b = 0).
    { apply orb_prop in E0 as [E0|E0]; apply isNil_eq in E0; rewrite E0 in *; cbn [peval] in *; subst; [apply Z.land_0_l|apply Z.land_0_r]. }
    rewrite Ez. unfold relW, scst. cbn. lia. }
  destruct ((ub wa <=? 1) && (ub wb <=? 1)) eqn:E3.
  { apply andb_prop in E3 as [E3 E4]. apply Z.leb_le in E3, E4. intro X; apply Some_inj in X; subst w; intros e He.
    destruct (Ha e He) as (A1 & A2 & Ea). destruct (Hb e He) as (B1 & B2 & Eb). unfold relW. cbn [pl ub]. rewrite peval_mul, <- Ea, <- Eb.
    assert (Ha1 : a = 0 \/ a = 1) by lia. assert (Hb1 : b = 0 \/ b = 1) by lia. clear - Ha1 Hb1.
    destruct Ha1 as [-> | ->], Hb1 as [-> | ->]; cbn; lia. }
  destruct (isMask (pl wa)) as [k|] eqn:E1.
  - intro X; apply Some_inj in X; subst w; intros e He. destruct (Ha e He) as (A1 & A2 & Ea). destruct (Hb e He) as (B1 & B2 & Eb).
    rewrite (isMask_eq _ _ E1) in Ea. pose proof (proj1 He k) as Hk. rewrite Ea, land_mask by lia.
    unfold relW. cbn [pl ub]. rewrite peval_mul, peval_bit, <- Eb. split; [|split; [lia|reflexivity]]. nia.
  - destruct (isMask (pl wb)) as [k|] eqn:E2; [|discriminate].
    intro X; apply Some_inj in X; subst w; intros e He. destruct (Ha e He) as (A1 & A2 & Ea). destruct (Hb e He) as (B1 & B2 & Eb).
    rewrite (isMask_eq _ _ E2) in Eb. pose proof (proj1 He k) as Hk. rewrite Eb, Z.land_comm, land_mask by lia.
    unfold relW. cbn [pl ub]. rewrite peval_mul, peval_bit, <- Ea. split; [|split; [lia|reflexivity]]. nia.
Qed.
Lemma sxor_ok tr a b wa wb w : trOk tr -> RW tr a wa -> RW tr b wb -> sxor wa wb = Some w -> RW tr (Z.lxor a b) w.
Proof.
  intros Ht Ha Hb. unfold sxor. destruct (peqb (pl wa) (pl wb)) eqn:E; [|discriminate]. apply peqb_eq in E. intros [= <-].
  pose proof (Ha _ (envOf_agrees tr Ht)) as (_ & _ & A). pose proof (Hb _ (envOf_agrees tr Ht)) as (_ & _ & B').
  rewrite E, <- B' in A. subst a. rewrite Z.lxor_nilpotent. apply RW_cst. lia.
Qed.
Lemma sbt0_ok tr a wa w : trOk tr -> RW tr a wa -> sbt0 wa = Some w -> RF tr (a mod 2) w.
Proof.
  intros Ht Ha. unfold sbt0. pose proof (Ha _ (envOf_agrees tr Ht)) as (A1 & A2 & _).
  destruct (Z.leb_spec (ub wa) 1) as [L|L].
  - intros [= <-] e He. destruct (Ha e He) as (_ & _ & Ea). rewrite Z.mod_small by lia. unfold relF. lia.
  - destruct (isMask (pl wa)) as [k|] eqn:E1; [|discriminate]. intros [= <-] e He. destruct (Ha e He) as (_ & _ & Ea).
    rewrite (isMask_eq _ _ E1) in Ea. pose proof (proj1 He k) as Hk. unfold relF. cbn [pl ub]. rewrite peval_bit, Ea.
    assert (Hm : ((B - 1) * e (xO k)) mod 2 = e (xO k)).
    { destruct (Z.eq_dec (e (xO k)) 0) as [->|]; [reflexivity|]. replace (e (xO k)) with 1 by lia. reflexivity. }
    rewrite Hm. lia.
Qed.
Lemma sisone_ok tr a wa b : trOk tr -> RW tr a wa -> sisone wa = Some b -> (a mod 256 =? 1) = b.
Proof.
  intros Ht Ha. unfold sisone. pose proof (Ha _ (envOf_agrees tr Ht)) as (_ & _ & A).
  destruct (isCst (pl wa)) as [c|] eqn:E; [|discriminate]. intros [= <-].
  assert (peval (envOf tr) (pl wa) = c).
  { unfold isCst in E. destruct (pl wa) as [|[[|] c'] [|]]; try discriminate; injection E as <-; cbn [peval meval]; lia. }
  congruence.
Qed.

(* ---------- related states ---------- *)
Definition RC (tr : trace) (z : cell zdom) (w : cell sdom) : Prop :=
  match z, w with
  | Wd a, Wd b => RW tr a b
  | Pt b o, Pt b' o' => b = b' /\ o = o'
  | Xm a b, Xm a' b' => RW tr a a' /\ RW tr b b'
  | _, Un => True
  | _, _ => False
  end.
Definition RO (tr : trace) (z : option Z) (w : option sw) : Prop :=
  match z, w with Some a, Some b => RF tr a b | _, None => True | _, _ => False end.
Definition RT (tr : trace) (t : positive * list poly) : Prop :=
  fst t = tnext tr /\ forall p, In p (snd t) -> forall e, agrees e tr -> 0 <= peval e p < B.
Record Rst (tr : trace) (s : st zdom) (t : st sdom) : Prop := mkRst {
  R_regs : Forall2 (RC tr) (regs s) (regs t); R_args : Forall2 (RC tr) (args s) (args t);
  R_mem : Forall2 (Forall2 (RC tr)) (mem s) (mem t); R_glob : Forall2 (Forall2 (RW tr)) (glob s) (glob t);
  R_cf : RO tr (cf s) (cf t); R_of : RO tr (ovf s) (ovf t); R_tt : RT tr (tt t) }.

Lemma F2_mono {X Y} (P Q : X -> Y -> Prop) l m : (forall x y, P x y -> Q x y) -> Forall2 P l m -> Forall2 Q l m.
Proof. intros H. induction 1; constructor; auto. Qed.
Lemma RC_app tr x a b : RC tr a b -> RC (tr ++ x) a b.
Proof. destruct a, b; simpl; auto; [apply RW_app|]. intros []; split; apply RW_app; assumption. Qed.
Lemma RO_app tr x a b : RO tr a b -> RO (tr ++ x) a b.
Proof. destruct a, b; simpl; auto. apply RF_app. Qed.
Lemma F2_nth {X Y} (P : X -> Y -> Prop) l m i y : Forall2 P l m -> nth_error m i = Some y -> exists x, nth_error l i = Some x /\ P x y.
Proof.
  intro H. revert i. induction H; intros [|i] E; simpl in *; try discriminate; [injection E as <-; eauto|eauto].
Qed.
Lemma F2_setl {X Y} (P : X -> Y -> Prop) l m i x y : Forall2 P l m -> P x y -> Forall2 P (setl l i x) (setl m i y).
Proof.
  intros H Hxy. unfold setl. revert i. induction H; intros [|i]; cbn [firstn skipn app]; repeat constructor; auto; try apply IHForall2.
Qed.
Lemma F2_len {X Y} (P : X -> Y -> Prop) l m : Forall2 P l m -> length l = length m.
Proof. induction 1; simpl; congruence. Qed.
Lemma slot_ok {X Y} (P : X -> Y -> Prop) l m o y : Forall2 P l m -> slot m o = Some y -> exists x, slot l o = Some x /\ P x y.
Proof. unfold slot. destruct (widx o); [apply F2_nth|discriminate]. Qed.
Lemma rreg_ok tr s t r w : Rst tr s t -> rreg sdom t r = Some w -> exists v, rreg zdom s r = Some v /\ RC tr v w.
Proof. intros Hs. apply F2_nth, (R_regs _ _ _ Hs). Qed.
Lemma load_ok tr s t r d w : Rst tr s t -> load sdom t r d = Some w -> exists v, load zdom s r d = Some v /\ RC tr v w.
Proof.
  intros Hs. unfold load. destruct (rreg sdom t r) as [[|bl o| |]|] eqn:E; try discriminate.
  destruct (rreg_ok _ _ _ _ _ Hs E) as (v & -> & Hv). destruct v; try (destruct Hv; fail). destruct Hv as [-> ->].
  destruct (nth_error (mem t) bl) as [l|] eqn:L; [|discriminate].
  destruct (F2_nth _ _ _ _ _ (R_mem _ _ _ Hs) L) as (l' & -> & Hl). apply slot_ok, Hl.
Qed.
Lemma rd_ok tr s t o w : Rst tr s t -> rd sdom t o = Some w -> exists v, rd zdom s o = Some v /\ RC tr v w.
Proof.
  intros Hs. destruct o as [r|z|r d|d|g d]; cbn [rd].
  - apply rreg_ok, Hs.
  - intros [= <-]. eexists; split; [reflexivity|]. cbn [RC]. apply RW_cst. apply Z.mod_pos_bound. lia.
  - apply load_ok, Hs.
  - apply slot_ok, (R_args _ _ _ Hs).
  - destruct (nth_error (glob t) g) as [l|] eqn:E; [|discriminate].
    destruct (F2_nth (X:=list (W zdom)) (Y:=list (W sdom)) _ _ _ _ _ (R_glob _ _ _ Hs) E) as (l' & -> & Hl).
    destruct (slot l d) as [b|] eqn:L; [|discriminate]. destruct (slot_ok (X:=W zdom) (Y:=W sdom) _ _ _ _ _ Hl L) as (a & -> & Ha).
    intros [= <-]. eauto.
Qed.
Lemma rdw_ok tr s t o b : Rst tr s t -> rdw sdom t o = Some b -> exists a, rdw zdom s o = Some a /\ RW tr a b.
Proof.
  intros Hs. unfold rdw. destruct (rd sdom t o) as [[w| | |]|] eqn:E; try discriminate. intros [= <-].
  destruct (rd_ok _ _ _ _ _ Hs E) as (v & -> & Hv). destruct v; try (destruct Hv; fail). eauto.
Qed.
Lemma setreg_ok tr s t r v w : Rst tr s t -> RC tr v w -> Rst tr (setreg zdom s r v) (setreg sdom t r w).
Proof. intros [] Hv. constructor; cbn; auto. apply F2_setl; assumption. Qed.
Lemma store_ok tr s t r d v w t' : Rst tr s t -> RC tr v w -> store sdom t r d w = Some t' -> exists s', store zdom s r d v = Some s' /\ Rst tr s' t'.
Proof.
  intros Hs Hv. unfold store. destruct (rreg sdom t r) as [[|b off| |]|] eqn:E; try discriminate.
  destruct (rreg_ok _ _ _ _ _ Hs E) as (v' & -> & Hv'). destruct v'; try (destruct Hv'; fail). destruct Hv' as [-> ->].
  destruct (nth_error (mem t) b) as [l|] eqn:L; [|discriminate]. destruct (F2_nth _ _ _ _ _ (R_mem _ _ _ Hs) L) as (l' & -> & Hl).
  destruct (widx (off + d)) as [i|]; [|discriminate]. rewrite (F2_len _ _ _ Hl). destruct (i <? length l)%nat; [|discriminate].
  intros [= <-]. eexists; split; [reflexivity|]. destruct Hs. constructor; cbn; auto. apply F2_setl; [assumption|]. apply F2_setl; assumption.
Qed.
Lemma wr_ok tr s t o v w t' : Rst tr s t -> RC tr v w -> wr sdom t o w = Some t' -> exists s', wr zdom s o v = Some s' /\ Rst tr s' t'.
Proof.
  intros Hs Hv. destruct o as [r|z|r d|d|g d]; cbn [wr]; try discriminate.
  - intros [= <-]. eexists; split; [reflexivity|]. apply setreg_ok; assumption.
  - apply store_ok; assumption.
Qed.
Lemma setfl_ok tr s t c o c' o' : Rst tr s t -> RO tr c c' -> RO tr o o' -> Rst tr (setfl zdom s c o) (setfl sdom t c' o').
Proof. intros [] H1 H2. constructor; cbn; auto. Qed.
Lemma sett_ok tr x s t u n : Rst tr s t -> RT (tr ++ x) n -> Rst (tr ++ x) (sett zdom s u) (sett sdom t n).
Proof.
  intros [] H. constructor; cbn; try exact H; try (apply RO_app; assumption);
    try (eapply F2_mono; [|eassumption]; intros ? ? ?; apply RC_app; assumption).
  all: eapply F2_mono; [|eassumption]; intros ? ? ?; (eapply F2_mono; [|eassumption]); intros ? ? ?; (apply RW_app || apply RC_app); assumption.
Qed.

Definition stepOk (tr : trace) (s' : option (st zdom)) (t' : st sdom) : Prop :=
  exists s1, s' = Some s1 /\ ext tr (fun tr' => Rst tr' s1 t').
Definition opSpec (zop : unit -> Z -> Z -> Z -> unit * Z * Z) (sop : positive * list poly -> sw -> sw -> sw -> (positive * list poly) * sw * sw) : Prop :=
  forall tr a b c wa wb wc t n w f u, trOk tr -> RT tr t -> RW tr a wa -> RW tr b wb -> RF tr c wc -> sop t wa wb wc = (n, w, f) ->
    let '(_, z, k) := zop u a b c in ext tr (fun tr' => RT tr' n /\ RW tr' z w /\ RF tr' k f).
Lemma RT_note tr x n l z w : RT tr (n, l) -> RW (tr ++ x) z w -> forall n', n' = tnext (tr ++ x) -> RT (tr ++ x) (n', pl w :: l).
Proof.
  intros [_ H2] Hw n' ->. split; [reflexivity|]. cbn [snd]. intros q [<-|Hq] e He.
  - destruct (Hw e He) as (A1 & A2 & A3). rewrite <- A3. lia.
  - apply (H2 q Hq). eapply agrees_app, He.
Qed.
Lemma adc_spec : opSpec (adc zdom) (adc sdom).
Proof.
  intros tr a b c wa wb wc [m l] n w f u Ht HT Ha Hb Hc E. pose proof (proj1 HT) as Hm. cbn [fst] in Hm. subst m. cbn in E.
  destruct (sadc (tnext tr) wa wb wc) as [[n1 w1] f1] eqn:Eo. unfold noted1, note in E. cbn in E. injection E as <- <- <-.
  destruct (sadc_ok _ _ _ _ _ _ _ _ _ _ Ht Ha Hb Hc Eo) as (x & Hx & Hn & Hw & Hf). cbn. exists x. split; [exact Hx|].
  split; [|split; assumption]. eapply RT_note; eassumption.
Qed.
Lemma borrow_div x : - B <= x < B -> (if x <? 0 then 1 else 0) = - (x / B).
Proof.
  intro H. destruct (Z.ltb_spec x 0).
  - replace (x / B) with (-1); [reflexivity|]. apply (Z.div_unique x B (-1) (x + B)); lia.
  - rewrite Z.div_small by lia. reflexivity.
Qed.
Lemma sbb_spec : opSpec (sbb zdom) (sbb sdom).
Proof.
  intros tr a b c wa wb wc [m l] n w f u Ht HT Ha Hb Hc E. pose proof (proj1 HT) as Hm. cbn [fst] in Hm. subst m. cbn in E.
  destruct (ssbb (tnext tr) wa wb wc) as [[n1 w1] f1] eqn:Eo. unfold noted1, note in E. cbn in E. injection E as <- <- <-.
  destruct (ssbb_ok _ _ _ _ _ _ _ _ _ _ Ht Ha Hb Hc Eo) as (x & Hx & Hn & Hw & Hf). cbn.
  pose proof (Ha _ (envOf_agrees tr Ht)) as (A1 & A2 & _). pose proof (Hb _ (envOf_agrees tr Ht)) as (B1 & B2 & _). pose proof (Hc _ (envOf_agrees tr Ht)) as (C1 & _).
  rewrite borrow_div by lia. exists x. split; [exact Hx|].
  split; [|split; assumption]. eapply RT_note; eassumption.
Qed.
Lemma mul_spec tr a b wa wb t n h l : trOk tr -> RT tr t -> RW tr a wa -> RW tr b wb -> mulw sdom t wa wb = (n, h, l) ->
  ext tr (fun tr' => RT tr' n /\ RW tr' (fst (Mul64 a b)) h /\ RW tr' (snd (Mul64 a b)) l).
Proof.
  destruct t as [m ls]. intros Ht HT Ha Hb E. pose proof (proj1 HT) as Hm. cbn [fst] in Hm. subst m. cbn in E.
  destruct (smul (tnext tr) wa wb) as [[n1 h1] l1] eqn:Eo. unfold noted2, note in E. cbn in E. injection E as <- <- <-.
  destruct (smul_ok _ _ _ _ _ _ _ _ Ht Ha Hb Eo) as (x & Hx & Hn & Hh & Hl). exists x. split; [exact Hx|].
  split; [|split; assumption]. eapply RT_note; eassumption.
Qed.
Lemma shareK_ok d : forall l q k p, shareK d l q = Some (k, p) -> In p l /\ forall e, peval e q = peval e p + B * e (xI k).
Proof.
  induction d as [|d IH]; intros [|p0 l] q k p; cbn [shareK]; try discriminate.
  assert (Rec : shareK d l q = Some (k, p) -> In p (p0 :: l) /\ forall e, peval e q = peval e p + B * e (xI k))
    by (intro H; destruct (IH _ _ _ _ H); split; [right; assumption|assumption]).
  destruct (padd q (pscale (-1) p0)) as [|[[|[k0|k0|] [|]] c] [|]] eqn:E; try exact Rec.
  destruct (Z.eqb_spec c B) as [->|]; [|exact Rec]. intro H. apply Some_inj in H. injection H as -> ->. split; [left; reflexivity|].
  intro e. assert (Ee : peval e (padd q (pscale (-1) p)) = peval e [([xI k], B)]) by (rewrite E; reflexivity).
  rewrite peval_add, peval_scale in Ee. cbn [peval meval] in Ee. lia.
Qed.
Lemma mulS_spec tr a b wa wb t n h l : trOk tr -> RT tr t -> RW tr a wa -> RW tr b wb -> mulS sdom t wa wb = (n, h, l) ->
  ext tr (fun tr' => RT tr' n /\ RW tr' (fst (Mul64 a b)) h /\ RW tr' (snd (Mul64 a b)) l).
Proof.
  intros Ht HT Ha Hb E. cbn [mulS sdom] in E. unfold smulS in E. destruct (ub wa * ub wb <? B); [apply (mul_spec _ _ _ _ _ _ _ _ _ Ht HT Ha Hb E)|].
  destruct (shareK 24 (snd t) (pmul (pl wa) (pl wb))) as [[k p]|] eqn:Es; [|apply (mul_spec _ _ _ _ _ _ _ _ _ Ht HT Ha Hb E)].
  injection E as <- <- <-. destruct (shareK_ok _ _ _ _ _ Es) as [Hin Hev]. apply ext_nil; [exact Ht|]. split; [exact HT|].
  assert (K : forall e, agrees e tr -> a * b / B = e (xI k) /\ (a * b) mod B = peval e p /\ 0 <= peval e p < B).
  { intros e He. pose proof (proj2 HT p Hin e He) as Hp. specialize (Hev e). rewrite peval_mul in Hev.
    destruct (Ha e He) as (_ & _ & Ea). destruct (Hb e He) as (_ & _ & Eb). rewrite <- Ea, <- Eb in Hev.
    split; [|split; [|exact Hp]]; symmetry; [apply Z.div_unique with (r := peval e p)|apply Z.mod_unique with (q := e (xI k))]; (left; lia) || lia. }
  unfold Mul64. cbn [fst snd]. split; intros e He; destruct (K e He) as (K1 & K2 & K3); destruct (Ha e He) as (A1 & A2 & _); destruct (Hb e He) as (B1 & B2 & _).
  - unfold relW. cbn [pl ub]. rewrite peval_word. split; [|split; [|exact K1]].
    + split; [apply Z.div_pos; nia|]. apply Z.div_le_mono; nia.
    + apply Z.div_lt_upper_bound; [lia|]. nia.
  - unfold relW. cbn [pl ub]. rewrite K2. split; [lia|split; [lia|reflexivity]].
Qed.
Lemma lor_parts m b h : 0 <= m -> 0 <= h < 2 ^ m -> Z.lor (2 ^ m * b) h = 2 ^ m * b + h.
Proof.
  intros Hm Hh. assert (Hl : Z.land (2 ^ m * b) h = 0).
  { apply Z.bits_inj'. intros i Hi. rewrite Z.land_spec, Z.bits_0, (Z.mul_comm _ b). destruct (Z_lt_ge_dec i m) as [L|L].
    - rewrite Z.mul_pow2_bits_low by lia. reflexivity.
    - rewrite <- (Z.mod_small h (2 ^ m)) by lia. rewrite Z.mod_pow2_bits_high by lia. apply andb_false_r. }
  rewrite Z.add_nocarry_lxor by exact Hl. symmetry. apply Z.lxor_lor, Hl.
Qed.
Lemma coefs_div n p e : 0 < n -> forallb (fun m => snd m mod n =? 0) p = true -> (n | peval e p).
Proof.
  intro Hn. induction p as [|[m c] p IH]; cbn [forallb snd peval]; intro H; [apply Z.divide_0_r|].
  apply andb_prop in H as [H1 H2]. apply Z.eqb_eq in H1. apply Z.divide_add_r; [|apply IH, H2]. apply Z.divide_mul_l, Z.mod_divide; lia.
Qed.
Lemma orS_spec tr a b wa wb k t n w : trOk tr -> RT tr t -> RW tr a wa -> RW tr b wb -> 0 < k < 64 -> orS sdom t wb wa k = Some (n, w) ->
  ext tr (fun tr' => RT tr' n /\ RW tr' (Z.lor b (Z.shiftr a k)) w).
Proof.
  intros Ht HT Ha Hb Hk E. cbn [orS sdom] in E. unfold sorS in E. destruct (forallb _ (pl wb)) eqn:Ef; [|discriminate].
  destruct (smulS t wa (scst (2 ^ (64 - k)))) as [[t' h] l] eqn:Em. apply Some_inj in E. injection E as <- <-.
  assert (Hp : 0 < 2 ^ (64 - k) < B) by (split; [apply Z.pow_pos_nonneg; lia|apply Z.pow_lt_mono_r; lia]).
  destruct (mulS_spec tr a (2 ^ (64 - k)) wa (scst (2 ^ (64 - k))) t t' h l Ht HT Ha (RW_cst tr _ (conj (Z.lt_le_incl _ _ (proj1 Hp)) (proj2 Hp))) Em) as (x & Hx & H1 & H2 & _).
  exists x. split; [exact Hx|]. split; [exact H1|]. intros e He. destruct (H2 e He) as (_ & _ & Eh).
  destruct (Ha e (agrees_app _ _ _ He)) as (A1 & A2 & _). destruct (Hb e (agrees_app _ _ _ He)) as (B1 & B2 & Eb).
  assert (Es : Z.shiftr a k = fst (Mul64 a (2 ^ (64 - k)))).
  { rewrite Z.shiftr_div_pow2 by lia. unfold Mul64. cbn [fst]. replace B with (2 ^ k * 2 ^ (64 - k)) by (rewrite <- Z.pow_add_r by lia; f_equal; lia).
    rewrite Z.div_mul_cancel_r; [reflexivity|apply Z.pow_nonzero; lia|lia]. }
  assert (Hs : 0 <= Z.shiftr a k < 2 ^ (64 - k)).
  { rewrite Z.shiftr_div_pow2 by lia. split; [apply Z.div_pos; [lia|apply Z.pow_pos_nonneg; lia]|].
    apply Z.div_lt_upper_bound; [apply Z.pow_pos_nonneg; lia|]. rewrite <- Z.pow_add_r by lia. replace (k + (64 - k)) with 64 by lia. lia. }
  destruct (coefs_div (2 ^ (64 - k)) (pl wb) e ltac:(lia) Ef) as [c Hc]. rewrite <- Eb in Hc.
  unfold relW. cbn [pl ub]. rewrite peval_add, <- Eb, <- Eh, <- Es.
  assert (El : Z.lor b (Z.shiftr a k) = b + Z.shiftr a k).
  { rewrite Hc, (Z.mul_comm c). apply lor_parts; lia. }
  rewrite El. split; [|split; [lia|reflexivity]]. split; [lia|].
  set (N := 2 ^ (64 - k)) in *. set (h0 := Z.shiftr a k) in *.
  assert (EB : B = 2 ^ k * N) by (unfold N; rewrite <- Z.pow_add_r by lia; f_equal; lia).
  assert (c + 1 <= 2 ^ k) by nia. nia.
Qed.
Lemma arith_ok zop sop tr s t src dst c c' flz fls t' :
  opSpec zop sop -> trOk tr -> Rst tr s t -> RO tr c c' ->
  (forall x z w, RF (tr ++ x) z w -> RO (tr ++ x) (fst (flz z)) (fst (fls w)) /\ RO (tr ++ x) (snd (flz z)) (snd (fls w))) ->
  arith sdom sop t src dst c' fls = Some t' -> stepOk tr (arith zdom zop s src dst c flz) t'.
Proof.
  intros Hop Ht Hs Hc Hfl. unfold arith.
  destruct (rdw sdom t src) as [wa|] eqn:Ea; [|discriminate]. destruct (rdw_ok _ _ _ _ _ Hs Ea) as (a & -> & Ha).
  destruct (rdw sdom t dst) as [wb|] eqn:Eb; [|discriminate]. destruct (rdw_ok _ _ _ _ _ Hs Eb) as (b & -> & Hb).
  destruct c' as [wc|]; [|discriminate]. destruct c as [c|]; [|destruct Hc]. change (RF tr c wc) in Hc.
  destruct (sop (tt t) wb wa wc) as [[n w] f] eqn:Eo.
  specialize (Hop tr b a c wb wa wc (tt t) n w f (tt s) Ht (R_tt _ _ _ Hs) Hb Ha Hc Eo).
  destruct (zop (tt s) b a c) as [[u z] k]. destruct Hop as (x & Hx1 & Hn & Hw & Hf).
  intro Hwr. destruct (Hfl x k f Hf) as [F1 F2].
  assert (Hs2 : Rst (tr ++ x) (setfl zdom (sett zdom s u) (fst (flz k)) (snd (flz k))) (setfl sdom (sett sdom t n) (fst (fls f)) (snd (fls f))))
    by (apply setfl_ok; [apply sett_ok; assumption|assumption|assumption]).
  destruct (wr_ok _ _ _ _ (@Wd zdom z) (@Wd sdom w) _ Hs2 Hw Hwr) as (s' & E' & Hs'). exists s'. split; [exact E'|]. exists x. auto.
Qed.
Lemma logic_ok (zop : Z -> Z -> option Z) sop tr s t src dst t' :
  (forall a b wa wb w, RW tr a wa -> RW tr b wb -> sop wa wb = Some w -> exists z, zop a b = Some z /\ RW tr z w) ->
  trOk tr -> Rst tr s t -> logic sdom sop t src dst = Some t' -> stepOk tr (logic zdom zop s src dst) t'.
Proof.
  intros Hop Ht Hs. unfold logic.
  destruct (rdw sdom t src) as [wa|] eqn:Ea; [|discriminate]. destruct (rdw_ok _ _ _ _ _ Hs Ea) as (a & -> & Ha).
  destruct (rdw sdom t dst) as [wb|] eqn:Eb; [|discriminate]. destruct (rdw_ok _ _ _ _ _ Hs Eb) as (b & -> & Hb).
  destruct (sop wb wa) as [w|] eqn:Eo; [|discriminate]. destruct (Hop b a wb wa w Hb Ha Eo) as (z & -> & Hz).
  intro Hwr.
  assert (Hs2 : Rst tr (setfl zdom s (Some (f0 zdom)) (Some (f0 zdom))) (setfl sdom t (Some (f0 sdom)) (Some (f0 sdom))))
    by (apply setfl_ok; [assumption| |]; apply RF_0).
  destruct (wr_ok _ _ _ _ (@Wd zdom z) (@Wd sdom w) _ Hs2 Hz Hwr) as (s' & E' & Hs'). exists s'. split; [exact E'|]. apply ext_nil; assumption.
Qed.
Lemma xlogic_ok (zop : Z -> Z -> option Z) sop tr s t src dst t' :
  (forall a b wa wb w, RW tr a wa -> RW tr b wb -> sop wa wb = Some w -> exists z, zop a b = Some z /\ RW tr z w) ->
  trOk tr -> Rst tr s t -> xlogic sdom sop t src dst = Some t' -> stepOk tr (xlogic zdom zop s src dst) t'.
Proof.
  intros Hop Ht Hs. unfold xlogic.
  destruct (rreg sdom t src) as [[| |a' b'|]|] eqn:Ea; try discriminate. destruct (rreg_ok _ _ _ _ _ Hs Ea) as (v & -> & Hv).
  destruct v as [| |a b|]; try (destruct Hv; fail). destruct Hv as [Ha Hb].
  destruct (rreg sdom t dst) as [[| |c' d'|]|] eqn:Eb; try discriminate. destruct (rreg_ok _ _ _ _ _ Hs Eb) as (v & -> & Hv).
  destruct v as [| |c d|]; try (destruct Hv; fail). destruct Hv as [Hc Hd].
  destruct (sop c' a') as [l|] eqn:E1; [|discriminate]. destruct (Hop _ _ _ _ _ Hc Ha E1) as (lz & -> & Hl).
  destruct (sop d' b') as [h|] eqn:E2; [|discriminate]. destruct (Hop _ _ _ _ _ Hd Hb E2) as (hz & -> & Hh).
  intros [= <-]. eexists; split; [reflexivity|]. apply ext_nil; [exact Ht|]. apply setreg_ok; [exact Hs|]. split; assumption.
Qed.
Lemma and_spec tr (Ht : trOk tr) a b wa wb w : RW tr a wa -> RW tr b wb -> andw sdom wa wb = Some w -> exists z, andw zdom a b = Some z /\ RW tr z w.
Proof. intros Ha Hb Eo. eexists; split; [reflexivity|]. eapply sand_ok; eassumption. Qed.
Lemma xor_spec tr (Ht : trOk tr) a b wa wb w : RW tr a wa -> RW tr b wb -> xorw sdom wa wb = Some w -> exists z, xorw zdom a b = Some z /\ RW tr z w.
Proof. intros Ha Hb Eo. eexists; split; [reflexivity|]. eapply sxor_ok; eassumption. Qed.
Lemma done tr s1 t' : trOk tr -> Rst tr s1 t' -> stepOk tr (Some s1) t'.
Proof. intros Ht Hs. eexists; split; [reflexivity|]. apply ext_nil; assumption. Qed.
Lemma carry_in tr (cin : bool) (x : option (F zdom)) (y : option (F sdom)) wc : RO tr x y -> (if cin then y else Some (f0 sdom)) = Some wc ->
  exists c, (if cin then x else Some (f0 zdom)) = Some c /\ RF tr c wc.
Proof.
  destruct cin; intros H E.
  - rewrite E in H. destruct x as [c|]; [|destruct H]. exists c. split; [reflexivity|exact H].
  - apply Some_inj in E. subst wc. exists 0. split; [reflexivity|apply RF_0].
Qed.
Lemma astep_ok i tr s t t' : trOk tr -> Rst tr s t -> astep sdom i t = Some t' -> stepOk tr (astep zdom i s) t'.
Proof.
  intros Ht Hs. destruct i as [cin set a b d|cin set a b d|a b d|a b d|a b d|k d|a k b d|src dst|eq c a b d]; cbn [astep].
  - destruct (rdw sdom t a) as [wx|] eqn:Ex; [|discriminate]. destruct (rdw_ok _ _ _ _ _ Hs Ex) as (x & -> & Hx).
    destruct (rdw sdom t b) as [wy|] eqn:Ey; [|discriminate]. destruct (rdw_ok _ _ _ _ _ Hs Ey) as (y & -> & Hy).
    destruct (if cin then cf t else Some (f0 sdom)) as [wc|] eqn:Ec; [|discriminate]. destruct (carry_in tr cin _ _ wc (R_cf _ _ _ Hs) Ec) as (c & -> & Hc).
    destruct (adc sdom (tt t) wy wx wc) as [[n w] f] eqn:Eo.
    pose proof (adc_spec tr y x c wy wx wc (tt t) n w f (tt s) Ht (R_tt _ _ _ Hs) Hy Hx Hc Eo) as Hop.
    destruct (adc zdom (tt s) y x c) as [[u z] k]. destruct Hop as (e & He & Hn & Hw & Hf). intro H; apply Some_inj in H; subst t'.
    eexists; split; [reflexivity|]. exists e. split; [exact He|]. apply setreg_ok; [|exact Hw].
    apply setfl_ok; [apply sett_ok; assumption| |]; destruct set; try exact Hf; try exact Logic.I; apply RO_app; [apply (R_cf _ _ _ Hs)|apply (R_of _ _ _ Hs)].
  - destruct (rdw sdom t a) as [wx|] eqn:Ex; [|discriminate]. destruct (rdw_ok _ _ _ _ _ Hs Ex) as (x & -> & Hx).
    destruct (rdw sdom t b) as [wy|] eqn:Ey; [|discriminate]. destruct (rdw_ok _ _ _ _ _ Hs Ey) as (y & -> & Hy).
    destruct (if cin then ovf t else Some (f0 sdom)) as [wc|] eqn:Ec; [|discriminate]. destruct (carry_in tr cin _ _ wc (R_of _ _ _ Hs) Ec) as (c & -> & Hc).
    destruct (sbb sdom (tt t) wy wx wc) as [[n w] f] eqn:Eo.
    pose proof (sbb_spec tr y x c wy wx wc (tt t) n w f (tt s) Ht (R_tt _ _ _ Hs) Hy Hx Hc Eo) as Hop.
    destruct (sbb zdom (tt s) y x c) as [[u z] k]. destruct Hop as (e & He & Hn & Hw & Hf). intro H; apply Some_inj in H; subst t'.
    eexists; split; [reflexivity|]. exists e. split; [exact He|]. apply setreg_ok; [|exact Hw].
    apply setfl_ok; [apply sett_ok; assumption| |]; destruct set; try exact Hf; try exact Logic.I; apply RO_app; [apply (R_cf _ _ _ Hs)|apply (R_of _ _ _ Hs)].
  - destruct (rdw sdom t a) as [wx|] eqn:Ex; [|discriminate]. destruct (rdw_ok _ _ _ _ _ Hs Ex) as (x & -> & Hx).
    destruct (rdw sdom t b) as [wy|] eqn:Ey; [|discriminate]. destruct (rdw_ok _ _ _ _ _ Hs Ey) as (y & -> & Hy).
    destruct (andw sdom wy wx) as [w|] eqn:Eo; [|discriminate]. destruct (and_spec tr Ht _ _ _ _ _ Hy Hx Eo) as (z & -> & Hz).
    intro H; apply Some_inj in H; subst t'. apply done; [exact Ht|]. apply setreg_ok; assumption.
  - destruct (rdw sdom t a) as [wx|] eqn:Ex; [|discriminate]. destruct (rdw_ok _ _ _ _ _ Hs Ex) as (x & -> & Hx).
    destruct (rdw sdom t b) as [wy|] eqn:Ey; [|discriminate]. destruct (rdw_ok _ _ _ _ _ Hs Ey) as (y & -> & Hy).
    destruct (mulS sdom (tt t) wy wx) as [[n h] l] eqn:Eo.
    destruct (mulS_spec _ _ _ _ _ _ _ _ _ Ht (R_tt _ _ _ Hs) Hy Hx Eo) as (e & He & Hn & Hh & Hl). intro H; apply Some_inj in H; subst t'.
    eexists; split; [reflexivity|]. exists e. split; [exact He|]. apply setreg_ok; [apply sett_ok; assumption|exact Hl].
  - destruct (rdw sdom t a) as [wx|] eqn:Ex; [|discriminate]. destruct (rdw_ok _ _ _ _ _ Hs Ex) as (x & -> & Hx).
    destruct (rdw sdom t b) as [wy|] eqn:Ey; [|discriminate]. destruct (rdw_ok _ _ _ _ _ Hs Ey) as (y & -> & Hy).
    destruct (mulS sdom (tt t) wy wx) as [[n h] l] eqn:Eo.
    destruct (mulS_spec _ _ _ _ _ _ _ _ _ Ht (R_tt _ _ _ Hs) Hy Hx Eo) as (e & He & Hn & Hh & Hl). intro H; apply Some_inj in H; subst t'.
    eexists; split; [reflexivity|]. exists e. split; [exact He|]. apply setreg_ok; [apply sett_ok; assumption|exact Hh].
  - destruct (rdw sdom t (R d)) as [wx|] eqn:Ex; [|discriminate]. destruct (rdw_ok _ _ _ _ _ Hs Ex) as (x & -> & Hx).
    destruct (Z.ltb_spec 0 k); [|discriminate]. destruct (Z.ltb_spec k 64); [|discriminate]. cbn [andb].
    destruct (mulS sdom (tt t) wx (cst sdom (2 ^ k))) as [[n h] l] eqn:Eo.
    assert (Hp : 0 <= 2 ^ k < B) by (split; [apply Z.pow_nonneg; lia|apply Z.pow_lt_mono_r; lia]).
    destruct (mulS_spec _ _ _ _ _ _ _ _ _ Ht (R_tt _ _ _ Hs) Hx (RW_cst tr _ Hp) Eo) as (e & He & Hn & Hh & Hl). intro E; apply Some_inj in E; subst t'.
    eexists; split; [reflexivity|]. exists e. split; [exact He|]. apply setreg_ok; [apply sett_ok; assumption|exact Hl].
  - destruct (rdw sdom t (R a)) as [wx|] eqn:Ex; [|discriminate]. destruct (rdw_ok _ _ _ _ _ Hs Ex) as (x & -> & Hx).
    destruct (rdw sdom t b) as [wy|] eqn:Ey; [|discriminate]. destruct (rdw_ok _ _ _ _ _ Hs Ey) as (y & -> & Hy).
    destruct (Z.ltb_spec 0 k); [|discriminate]. destruct (Z.ltb_spec k 64); [|discriminate]. cbn [andb].
    destruct (orS sdom (tt t) wy wx k) as [[n w]|] eqn:Eo; [|discriminate].
    destruct (orS_spec tr x y wx wy k _ n w Ht (R_tt _ _ _ Hs) Hx Hy ltac:(lia) Eo) as (e & He & Hn & Hw). intro E; apply Some_inj in E; subst t'.
    eexists; split; [reflexivity|]. exists e. split; [exact He|]. apply setreg_ok; [apply sett_ok; assumption|exact Hw].
  - destruct (rdw sdom t src); discriminate.
  - destruct (rdw sdom t (R c)); discriminate.
Qed.
Lemma step_ok i tr s t t' : trOk tr -> Rst tr s t -> step sdom i t = Some t' -> stepOk tr (step zdom i s) t'.
Proof.
  intros Ht Hs. destruct i as [src dst|src dst|src dst|src dst|src dst|src dst|src dst|src|src lo hi|src dst|src dst|dst|src|src dst|src dst|src dst|src dst|src dst|src dst|ai|g p]; cbn [step].
  - destruct (rd sdom t src) as [w|] eqn:E; [|discriminate]. destruct (rd_ok _ _ _ _ _ Hs E) as (v & -> & Hv). intro Hw.
    destruct (wr_ok _ _ _ _ _ _ _ Hs Hv Hw) as (s' & -> & Hs'). apply done; assumption.
  - apply arith_ok; [apply adc_spec|exact Ht|exact Hs|apply RF_0|]. intros x z w H. cbn. auto.
  - apply arith_ok; [apply adc_spec|exact Ht|exact Hs|apply (R_cf _ _ _ Hs)|]. intros x z w H. cbn. auto.
  - apply arith_ok; [apply sbb_spec|exact Ht|exact Hs|apply RF_0|]. intros x z w H. cbn. auto.
  - apply arith_ok; [apply sbb_spec|exact Ht|exact Hs|apply (R_cf _ _ _ Hs)|]. intros x z w H. cbn. auto.
  - apply logic_ok; [|exact Ht|exact Hs]. apply and_spec, Ht.
  - assert (L : logic sdom (xorw sdom) t src dst = Some t' -> stepOk tr (logic zdom (xorw zdom) s src dst) t')
      by (apply logic_ok; [|exact Ht|exact Hs]; apply xor_spec, Ht).
    destruct src; try exact L. destruct dst; try exact L. destruct (rn r =? rn r0)%nat; try exact L.
    cbn [wr]. intros [= <-]. apply done; [exact Ht|]. apply setreg_ok; [apply setfl_ok; [exact Hs| |]; apply RF_0|]. apply RW_cst. lia.
  - destruct (rdw sdom t src) as [wa|] eqn:Ea; [|discriminate]. destruct (rdw_ok _ _ _ _ _ Hs Ea) as (a & -> & Ha).
    destruct (rdw sdom t (R AX)) as [wb|] eqn:Eb; [|discriminate]. destruct (rdw_ok _ _ _ _ _ Hs Eb) as (b & -> & Hb).
    destruct (mulw sdom (tt t) wb wa) as [[n h] l] eqn:Eo.
    destruct (mul_spec _ _ _ _ _ _ _ _ _ Ht (R_tt _ _ _ Hs) Hb Ha Eo) as (x & Hx & Hn & Hh & Hl). intros [= <-].
    eexists; split; [reflexivity|]. exists x. split; [exact Hx|].
    apply setreg_ok; [apply setreg_ok; [apply setfl_ok; [apply sett_ok; assumption|exact Logic.I|exact Logic.I]|exact Hl]|exact Hh].
  - destruct (rdw sdom t src) as [wa|] eqn:Ea; [|discriminate]. destruct (rdw_ok _ _ _ _ _ Hs Ea) as (a & -> & Ha).
    destruct (rdw sdom t (R DX)) as [wb|] eqn:Eb; [|discriminate]. destruct (rdw_ok _ _ _ _ _ Hs Eb) as (b & -> & Hb).
    destruct (mulw sdom (tt t) wb wa) as [[n h] l] eqn:Eo.
    destruct (mul_spec _ _ _ _ _ _ _ _ _ Ht (R_tt _ _ _ Hs) Hb Ha Eo) as (x & Hx & Hn & Hh & Hl). intros [= <-].
    eexists; split; [reflexivity|]. exists x. split; [exact Hx|].
    apply setreg_ok; [apply setreg_ok; [apply sett_ok; assumption|exact Hl]|exact Hh].
  - apply arith_ok; [apply adc_spec|exact Ht|exact Hs|apply (R_cf _ _ _ Hs)|]. intros x z w H. cbn. split; [exact H|]. apply RO_app, (R_of _ _ _ Hs).
  - apply arith_ok; [apply adc_spec|exact Ht|exact Hs|apply (R_of _ _ _ Hs)|]. intros x z w H. cbn. split; [|exact H]. apply RO_app, (R_cf _ _ _ Hs).
  - destruct (rdw sdom t dst) as [wb|] eqn:Eb; [|discriminate]. destruct (rdw_ok _ _ _ _ _ Hs Eb) as (b & -> & Hb).
    destruct (sbb sdom (tt t) (cst sdom 0) wb (f0 sdom)) as [[n w] f] eqn:Eo.
    pose proof (sbb_spec tr 0 b 0 _ _ _ _ _ _ _ Datatypes.tt Ht (R_tt _ _ _ Hs) (RW_cst tr 0 ltac:(lia)) Hb (RF_0 tr) Eo) as Hop.
    cbn in Hop. destruct Hop as (x & Hx & Hn & Hw & Hf). intro Hwr. cbn [sbb zdom cst f0].
    assert (Hs2 : Rst (tr ++ x) (setfl zdom (sett zdom s Datatypes.tt) (Some (snd (Sub64 0 b 0))) None) (setfl sdom (sett sdom t n) (Some f) None))
      by (apply setfl_ok; [apply sett_ok; assumption|exact Hf|exact Logic.I]).
    destruct (wr_ok _ _ _ _ (@Wd zdom (fst (Sub64 0 b 0))) (@Wd sdom w) _ Hs2 Hw Hwr) as (s' & E' & Hs'). exists s'. split; [exact E'|]. exists x. auto.
  - destruct (rdw sdom t src) as [wa|] eqn:Ea; [|discriminate]. destruct (rdw_ok _ _ _ _ _ Hs Ea) as (a & -> & Ha).
    cbn [bt0 sdom zdom]. destruct (sbt0 wa) as [w|] eqn:Eo; [|discriminate]. intros [= <-].
    apply done; [exact Ht|]. apply setfl_ok; [exact Hs| |exact Logic.I]. exact (sbt0_ok _ _ _ _ Ht Ha Eo).
  - destruct (rdw sdom t src); discriminate.
  - destruct (rdw sdom t (R src)) as [wa|] eqn:Ea; [|discriminate]. destruct (rdw_ok _ _ _ _ _ Hs Ea) as (a & -> & Ha).
    intros [= <-]. apply done; [exact Ht|]. apply setreg_ok; [exact Hs|]. split; [exact Ha|]. apply RW_cst. lia.
  - destruct (rreg sdom t src) as [[]|]; discriminate.
  - destruct src as [r|z|r d|d|g d]; try discriminate; destruct dst as [r'|z'|r' d'|d'|g' d']; try discriminate.
    + destruct (rreg sdom t r) as [[| |a' b'|]|] eqn:Ea; try discriminate. destruct (rreg_ok _ _ _ _ _ Hs Ea) as (v & -> & Hv).
      destruct v as [| |a b|]; try (destruct Hv; fail). intros [= <-]. apply done; [exact Ht|]. apply setreg_ok; assumption.
    + destruct (rreg sdom t r) as [[| |a' b'|]|] eqn:Ea; try discriminate. destruct (rreg_ok _ _ _ _ _ Hs Ea) as (v & -> & Hv).
      destruct v as [| |a b|]; try (destruct Hv; fail). destruct Hv as [Hv1 Hv2].
      destruct (store sdom t r' d' (Wd a')) as [t1|] eqn:E1; [|discriminate].
      destruct (store_ok _ _ _ _ _ (@Wd zdom a) (@Wd sdom a') _ Hs Hv1 E1) as (s1 & -> & Hs1). intro E2.
      destruct (store_ok _ _ _ _ _ (@Wd zdom b) (@Wd sdom b') _ Hs1 Hv2 E2) as (s2 & -> & Hs2). apply done; assumption.
    + destruct (load sdom t r d) as [[a'| | |]|] eqn:E1; try discriminate. destruct (load_ok _ _ _ _ _ _ Hs E1) as (v & -> & Hv).
      destruct v as [a| | |]; try (destruct Hv; fail).
      destruct (load sdom t r (d + 8)) as [[b'| | |]|] eqn:E2; try discriminate. destruct (load_ok _ _ _ _ _ _ Hs E2) as (v & -> & Hv2).
      destruct v as [b| | |]; try (destruct Hv2; fail). intros [= <-]. apply done; [exact Ht|]. apply setreg_ok; [exact Hs|]. split; assumption.
  - apply xlogic_ok; [|exact Ht|exact Hs]. apply xor_spec, Ht.
  - apply xlogic_ok; [|exact Ht|exact Hs]. apply and_spec, Ht.
  - apply astep_ok; assumption.
  - discriminate.
Qed.

(* a successful symbolic run describes the concrete run *)
Theorem sym_run : forall fuel p tr s t t',
  trOk tr -> Rst tr s t -> run sdom fuel p t = Some t' -> exists s', run zdom fuel p s = Some s' /\ ext tr (fun tr' => Rst tr' s' t').
Proof.
  induction fuel as [|f IH]; intros p tr s t t' Ht Hs; [discriminate|]. cbn [run].
  destruct p as [|i p]; [intros [= <-]; eexists; split; [reflexivity|]; apply ext_nil; assumption|].
  assert (Step : forall i, (match step sdom i t with Some s' => run sdom f p s' | None => None end = Some t') ->
    exists s', (match step zdom i s with Some s' => run zdom f p s' | None => None end) = Some s' /\ ext tr (fun tr' => Rst tr' s' t')).
  { intro j. destruct (step sdom j t) as [t1|] eqn:E; [|discriminate]. intro Hr.
    destruct (step_ok _ _ _ _ _ Ht Hs E) as (s1 & -> & x & Hx & Hs1).
    destruct (IH _ _ _ _ _ Hx Hs1 Hr) as (s' & E' & y & Hy & Hs'). exists s'. split; [exact E'|].
    exists (x ++ y). rewrite app_assoc. auto. }
  destruct i; try apply Step.
  unfold flagSet. destruct (rdw sdom t (G g 0)) as [w|] eqn:E; [|discriminate]. destruct (rdw_ok _ _ _ _ _ Hs E) as (a & -> & Ha).
  cbn [isone sdom zdom]. destruct (sisone w) as [b|] eqn:Eb; [|discriminate]. rewrite (sisone_ok _ _ _ _ Ht Ha Eb).
  assert (Hs2 : Rst tr (setfl zdom s None None) (setfl sdom t None None)) by (apply setfl_ok; [exact Hs|exact Logic.I|exact Logic.I]).
  destruct b; apply IH; assumption.
Qed.
