(* The assembly permutation is FIPS 202's.  A stretch of code is run on expressions; what it leaves is compared with what is
   wanted by normal forms (sums of products of rotated lanes over GF(2)).  The round is split where the five column words
   are in registers, which keeps the normal forms small. *)
From Coq Require Import ZArith List Lia Bool.
From Verif Require Import Lib X86 X86_Sym Keccak_Asm Keccak_Spec Keccak_Proofs.
Import ListNotations.
Open Scope Z_scope.

(* expressions *)
Inductive E : Type := EV (i : nat) | EX (a b : E) | EO (a b : E) | EA (a b : E) | EN (a : E) | ER (k : Z) (a : E).
Definition rcVar : nat := 30.
Definition ke : kdom := mkKdom E (fun _ => EV rcVar) EX EO EA EN ER.
Fixpoint eval (env : nat -> Z) (e : E) : Z :=
  match e with
  | EV i => env i
  | EX a b => Z.lxor (eval env a) (eval env b)
  | EO a b => Z.lor (eval env a) (eval env b)
  | EA a b => Z.land (eval env a) (eval env b)
  | EN a => knot kz (eval env a)
  | ER k a => krol kz k (eval env a)
  end.
Fixpoint subst (s : nat -> E) (e : E) : E :=
  match e with
  | EV i => s i
  | EX a b => EX (subst s a) (subst s b)
  | EO a b => EO (subst s a) (subst s b)
  | EA a b => EA (subst s a) (subst s b)
  | EN a => EN (subst s a)
  | ER k a => ER k (subst s a)
  end.
Lemma eval_subst env s e : eval env (subst s e) = eval (fun i => eval env (s i)) e.
Proof. induction e; cbn [eval subst]; congruence. Qed.
Fixpoint allv (P : nat -> bool) (e : E) : bool :=
  match e with
  | EV i => P i
  | EX a b | EO a b | EA a b => allv P a && allv P b
  | EN a | ER _ a => allv P a
  end.
Lemma eval_ext P env env' e : allv P e = true -> (forall i, P i = true -> env i = env' i) -> eval env e = eval env' e.
Proof.
  intros H K. induction e; cbn [allv eval] in *; try (apply andb_true_iff in H; destruct H as [H ?]); try (f_equal; auto); auto.
Qed.

(* bits *)
Lemma rol_eq k x : 0 <= k <= 64 -> is_w64 x -> krol kz k x = rol64 k x.
Proof.
  intros Hk Hx. unfold is_w64 in Hx. cbn [krol kz]. unfold rol64.
  assert (P1 : 0 < 2 ^ k) by (apply Z.pow_pos_nonneg; lia). assert (P2 : 0 < 2 ^ (64 - k)) by (apply Z.pow_pos_nonneg; lia).
  assert (PP : 2 ^ 64 = 2 ^ (64 - k) * 2 ^ k) by (rewrite <- Z.pow_add_r by lia; f_equal; lia).
  assert (D : x / 2 ^ (64 - k) < 2 ^ k) by (apply Z.div_lt_upper_bound; lia).
  assert (D0 : 0 <= x / 2 ^ (64 - k)) by (apply Z.div_pos; lia).
  assert (L : Z.land ((x * 2 ^ k) mod 2 ^ 64) (x / 2 ^ (64 - k)) = 0).
  { apply Z.bits_inj'. intros n Hn. rewrite Z.land_spec, Z.bits_0. destruct (Z_lt_ge_dec n k) as [C|C].
    - rewrite PP, Z.mul_mod_distr_r by lia. rewrite Z.mul_pow2_bits_low by lia. reflexivity.
    - rewrite (bound_testbit (x / _) k n) by lia. apply andb_false_r. }
  rewrite <- Z.lxor_lor by exact L. apply Z.add_nocarry_lxor, L.
Qed.
Lemma rol_bit k x n : 0 <= k < 64 -> is_w64 x -> 0 <= n < 64 -> Z.testbit (krol kz k x) n = Z.testbit x ((n - k) mod 64).
Proof.
  intros Hk Hx Hn. rewrite rol_eq by (assumption || lia). unfold rol64. rewrite Z.lor_spec, Z.mod_pow2_bits_low by lia.
  rewrite <- (Z.shiftr_div_pow2 x) by lia. rewrite Z.shiftr_spec by lia. destruct (Z_lt_ge_dec n k) as [C|C].
  - rewrite Z.mul_pow2_bits_low by lia. cbn [orb]. f_equal. symmetry. rewrite <- (Z.mod_add (n - k) 1 64) by lia. rewrite Z.mod_small; lia.
  - rewrite Z.mul_pow2_bits by lia. unfold is_w64 in Hx. rewrite (bound_testbit x 64 (n + (64 - k))) by lia. rewrite orb_false_r.
    f_equal. rewrite Z.mod_small; lia.
Qed.
Lemma not_mod x : is_w64 x -> knot kz x = Z.lnot x mod 2 ^ 64.
Proof. unfold is_w64. intro. cbn [knot kz]. rewrite <- (Z.mod_add (Z.lnot x) 1 (2 ^ 64)) by lia. unfold Z.lnot. rewrite Z.mod_small; lia. Qed.
Lemma not_bit x n : is_w64 x -> 0 <= n < 64 -> Z.testbit (knot kz x) n = negb (Z.testbit x n).
Proof. intros Hx Hn. rewrite not_mod by assumption. rewrite Z.mod_pow2_bits_low, Z.lnot_spec by lia. reflexivity. Qed.
Lemma not_w64 x : is_w64 x -> is_w64 (knot kz x).
Proof. unfold is_w64. cbn [knot kz]. lia. Qed.
Lemma bic_not x y : is_w64 x -> is_w64 y -> Z.land (knot kz x) y = Z.land (Z.lnot x) y.
Proof.
  intros Hx Hy. apply Z.bits_inj'. intros n Hn. rewrite !Z.land_spec. destruct (Z_lt_ge_dec n 64).
  - rewrite not_bit, Z.lnot_spec by (assumption || lia). reflexivity.
  - unfold is_w64 in Hy. rewrite (bound_testbit y 64 n) by lia. rewrite !andb_false_r. reflexivity.
Qed.

Fixpoint rols (e : E) : bool :=
  match e with
  | EV _ => true
  | EX a b | EO a b | EA a b => rols a && rols b
  | EN a => rols a
  | ER k a => (0 <=? k) && (k <? 64) && rols a
  end.
Lemma eval_w64 env e : rols e = true -> (forall i, is_w64 (env i)) -> is_w64 (eval env e).
Proof.
  intros H K. induction e; simpl in H; repeat (apply andb_true_iff in H; destruct H as [H ?]); cbn [eval].
  - apply K.
  - apply lxor_w64; auto.
  - apply lor_bound; [lia|apply IHe1|apply IHe2]; auto.
  - apply land_bound; [lia|]; apply IHe1; auto.
  - apply not_w64; auto.
  - assert (is_w64 (eval env e)) by auto. rewrite rol_eq by (assumption || lia). apply rol64_w64; [lia|assumption].
Qed.

(* normal forms: an atom is 64 * variable + rotation *)
Definition abit (env : nat -> Z) (n a : Z) : bool := Z.testbit (env (Z.to_nat (a / 64))) ((n - a mod 64) mod 64).
Definition mden (env : nat -> Z) (n : Z) (m : list Z) : bool := fold_right (fun a r => abit env n a && r) true m.
Definition pden (env : nat -> Z) (n : Z) (p : list (list Z)) : bool := fold_right (fun m r => xorb (mden env n m) r) false p.
Fixpoint mins (a : Z) (m : list Z) : list Z :=
  match m with
  | [] => [a]
  | b :: t => match a ?= b with Eq => m | Lt => a :: m | Gt => b :: mins a t end
  end.
Fixpoint mcmp (m m' : list Z) : comparison :=
  match m, m' with
  | [], [] => Eq | [], _ => Lt | _, [] => Gt
  | a :: t, b :: t' => match a ?= b with Eq => mcmp t t' | c => c end
  end.
Fixpoint pins (m : list Z) (p : list (list Z)) : list (list Z) :=
  match p with
  | [] => [m]
  | b :: t => match mcmp m b with Eq => t | Lt => m :: p | Gt => b :: pins m t end
  end.
Definition padd (p q : list (list Z)) : list (list Z) := fold_right pins q p.
Definition mmul (m m' : list Z) : list Z := fold_right mins m' m.
Definition pmul (p q : list (list Z)) : list (list Z) := fold_right (fun m r => fold_right (fun m' r => pins (mmul m m') r) r q) [] p.
Fixpoint norm (e : E) (k : Z) : list (list Z) :=
  match e with
  | EV i => [[64 * Z.of_nat i + k]]
  | EX a b => padd (norm a k) (norm b k)
  | EO a b => let p := norm a k in let q := norm b k in padd p (padd q (pmul p q))
  | EA a b => pmul (norm a k) (norm b k)
  | EN a => pins [] (norm a k)
  | ER j a => norm a ((k + j) mod 64)
  end.

Lemma mcmp_eq m m' : mcmp m m' = Eq -> m = m'.
Proof. revert m'. induction m as [|a m IH]; intros [|b m']; simpl; try discriminate; auto. destruct (a ?= b) eqn:C; try discriminate. intro H. apply Z.compare_eq in C. f_equal; auto. Qed.
Lemma mins_den env n a m : mden env n (mins a m) = abit env n a && mden env n m.
Proof.
  induction m as [|b m IH]; simpl; auto. destruct (a ?= b) eqn:C; simpl; auto.
  - apply Z.compare_eq in C. subst. destruct (abit env n b); reflexivity.
  - rewrite IH. destruct (abit env n a), (abit env n b); reflexivity.
Qed.
Lemma mmul_den env n m m' : mden env n (mmul m m') = mden env n m && mden env n m'.
Proof. unfold mmul. induction m as [|a m IH]; simpl; auto. rewrite mins_den, IH, andb_assoc. reflexivity. Qed.
Lemma pins_den env n m p : pden env n (pins m p) = xorb (mden env n m) (pden env n p).
Proof.
  induction p as [|b p IH]; simpl; auto. destruct (mcmp m b) eqn:C; simpl; auto.
  - apply mcmp_eq in C. subst. rewrite <- xorb_assoc, xorb_nilpotent. destruct (pden env n p); reflexivity.
  - rewrite IH. destruct (mden env n m), (mden env n b), (pden env n p); reflexivity.
Qed.
Lemma padd_den env n p q : pden env n (padd p q) = xorb (pden env n p) (pden env n q).
Proof. unfold padd. induction p as [|m p IH]; simpl; [destruct (pden env n q); auto|]. rewrite pins_den, IH, xorb_assoc. reflexivity. Qed.
Lemma pmul_den env n p q : pden env n (pmul p q) = pden env n p && pden env n q.
Proof.
  unfold pmul. induction p as [|m p IH]; [reflexivity|].
  change (pden env n (m :: p)) with (xorb (mden env n m) (pden env n p)). cbn [fold_right].
  assert (K : forall q r, pden env n (fold_right (fun m' r => pins (mmul m m') r) r q) = xorb (mden env n m && pden env n q) (pden env n r)).
  { clear. induction q as [|b q IH]; intro r; simpl; [rewrite andb_false_r; destruct (pden env n r); auto|].
    rewrite pins_den, IH, mmul_den. destruct (mden env n m), (mden env n b), (pden env n q), (pden env n r); reflexivity. }
  rewrite K, IH. destruct (mden env n m), (pden env n p), (pden env n q); reflexivity.
Qed.
Lemma norm_ok env e : rols e = true -> (forall i, is_w64 (env i)) -> forall k n, 0 <= k < 64 -> 0 <= n < 64 ->
  pden env n (norm e k) = Z.testbit (eval env e) ((n - k) mod 64).
Proof.
  intros H K. induction e; intros j n Hj Hn; simpl in H; repeat (apply andb_true_iff in H; destruct H as [H ?]); cbn [norm eval].
  - unfold pden, mden. cbn [fold_right]. unfold abit. rewrite andb_true_r, xorb_false_r. f_equal.
    + f_equal. rewrite Z.mul_comm, Z.div_add_l, Z.div_small, Z.add_0_r, Nat2Z.id by lia. reflexivity.
    + rewrite Z.mul_comm, Z.add_comm, Z.mod_add, (Z.mod_small j) by lia. reflexivity.
  - rewrite padd_den, Z.lxor_spec, IHe1, IHe2 by assumption. reflexivity.
  - rewrite !padd_den, pmul_den, Z.lor_spec, IHe1, IHe2 by assumption. destruct (Z.testbit _ _), (Z.testbit (eval env e2) _); reflexivity.
  - rewrite pmul_den, Z.land_spec, IHe1, IHe2 by assumption. reflexivity.
  - rewrite pins_den, not_bit, IHe by (auto using eval_w64 || (apply Z.mod_pos_bound; lia)). reflexivity.
  - assert (W := eval_w64 env e ltac:(assumption) K). rewrite rol_bit by (assumption || lia || (apply Z.mod_pos_bound; lia)).
    rewrite IHe by (assumption || (apply Z.mod_pos_bound; lia)). f_equal.
    rewrite Zminus_mod_idemp_r, Zminus_mod_idemp_l. f_equal. lia.
Qed.

Fixpoint leqb {X} (f : X -> X -> bool) (l m : list X) : bool :=
  match l, m with [], [] => true | a :: l, b :: m => f a b && leqb f l m | _, _ => false end.
Lemma leqb_eq {X} (f : X -> X -> bool) : (forall a b, f a b = true -> a = b) -> forall l m, leqb f l m = true -> l = m.
Proof. intros Hf. induction l as [|a l IH]; intros [|b m]; simpl; try discriminate; auto. intro H. apply andb_true_iff in H. destruct H. f_equal; auto. Qed.
Definition same (e e' : E) : bool := rols e && rols e' && leqb (leqb Z.eqb) (norm e 0) (norm e' 0).
Lemma same_ok env e e' : same e e' = true -> (forall i, is_w64 (env i)) -> eval env e = eval env e'.
Proof.
  unfold same. intros H K. apply andb_true_iff in H. destruct H as [H N]. apply andb_true_iff in H. destruct H as [R R'].
  apply leqb_eq in N; [|apply leqb_eq; intros a b; apply Z.eqb_eq].
  apply Z.bits_inj'. intros n Hn. destruct (Z_lt_ge_dec n 64) as [C|C].
  - assert (A1 := norm_ok env e R K 0 n ltac:(lia) ltac:(lia)). assert (A2 := norm_ok env e' R' K 0 n ltac:(lia) ltac:(lia)).
    rewrite Z.sub_0_r, Z.mod_small in A1, A2 by lia. congruence.
  - assert (W := eval_w64 env e R K). assert (W' := eval_w64 env e' R' K). unfold is_w64 in *. rewrite !(bound_testbit _ 64 n) by lia. reflexivity.
Qed.

(* symbolic states *)
Definition crel (env : nat -> Z) (c : kcell kz) (t : kcell ke) : Prop :=
  match t with KUn => True | KPt b o => c = KPt b o | KWd e => c = KWd (eval env e : KW kz) end.
Definition srel (env : nat -> Z) (s : kst kz) (t : kst ke) : Prop :=
  Forall2 (crel env) (kregs s) (kregs t) /\ Forall2 (Forall2 (crel env)) (kmem s) (kmem t).

Lemma krd_ok env s t o v : srel env s t -> (forall z, o = Imm z -> env rcVar = z mod 2 ^ 64) -> krd ke t o = Some v ->
  exists u, krd kz s o = Some u /\ crel env u v.
Proof.
  intros [H1 H2] HI. destruct o; simpl.
  - apply F2_nth, H1.
  - intro Q. injection Q as <-. eexists; split; [reflexivity|]. simpl. rewrite (HI z eq_refl). reflexivity.
  - unfold kload. destruct (nth_error (kregs t) (rn r)) as [c|] eqn:Q; [|discriminate].
    destruct (F2_nth _ _ _ _ _ H1 Q) as (u & Eu & Cu). destruct c; try discriminate. simpl in Cu. subst u. rewrite Eu.
    destruct (nth_error (kmem t) b) as [l|] eqn:Q2; [|discriminate]. destruct (F2_nth _ _ _ _ _ H2 Q2) as (m & Em & Cm). rewrite Em.
    apply slot_ok, Cm.
  - destruct (d =? 0); [|discriminate]. intro Q. injection Q as <-. eexists; split; reflexivity.
  - discriminate.
Qed.
Lemma kwr_ok env s t o u v t' : srel env s t -> crel env u v -> kwr ke t o v = Some t' -> exists s', kwr kz s o u = Some s' /\ srel env s' t'.
Proof.
  intros [H1 H2] C. destruct o; simpl; try discriminate.
  - intro Q. injection Q as <-. eexists; split; [reflexivity|]. split; [apply F2_setl|]; assumption.
  - destruct (nth_error (kregs t) (rn r)) as [c|] eqn:Q; [|discriminate].
    destruct (F2_nth _ _ _ _ _ H1 Q) as (w & Eu & Cu). destruct c; try discriminate. simpl in Cu. subst w. rewrite Eu.
    destruct (nth_error (kmem t) b) as [l|] eqn:Q2; [|discriminate]. destruct (F2_nth _ _ _ _ _ H2 Q2) as (m & Em & Cm). rewrite Em.
    destruct (widx (o + d)); [|discriminate]. rewrite (F2_len _ _ _ Cm). destruct (n <? length l)%nat; [|discriminate].
    intro P. injection P as <-. eexists; split; [reflexivity|]. split; [assumption|]. simpl. apply F2_setl; [|apply F2_setl]; assumption.
Qed.
Definition iimm (i : kinstr) : list Z :=
  let f o := match o with Imm z => [z] | _ => [] end in
  match i with KMOV a b | KXOR a b | KOR a b | KAND a b => f a ++ f b | KNOT a | KROL _ a => f a | KLEA _ _ _ => [] end.
Definition imms (c : list kinstr) : list Z := flat_map iimm c.
Lemma kop2_ok env f g s t a b t' : (forall x y, eval env (f x y) = g (eval env x) (eval env y)) ->
  (forall z, a = Imm z -> env rcVar = z mod 2 ^ 64) -> (forall z, b = Imm z -> env rcVar = z mod 2 ^ 64) ->
  srel env s t -> kop2 ke f t a b = Some t' -> exists s', kop2 kz g s a b = Some s' /\ srel env s' t'.
Proof.
  intros Hf Ha Hb H. unfold kop2. destruct (krd ke t a) as [v|] eqn:Qa; [|discriminate].
  destruct (krd_ok _ _ _ _ _ H Ha Qa) as (u & Eu & Cu). destruct v; try discriminate. simpl in Cu. subst u. rewrite Eu.
  destruct (krd ke t b) as [v|] eqn:Qb; [|discriminate]. destruct (krd_ok _ _ _ _ _ H Hb Qb) as (u & Eu2 & Cu). destruct v; try discriminate.
  simpl in Cu. subst u. rewrite Eu2. apply kwr_ok; [assumption|]. unfold crel. rewrite Hf. reflexivity.
Qed.
Lemma kop1_ok env f g s t b t' : (forall x, eval env (f x) = g (eval env x)) ->
  (forall z, b = Imm z -> env rcVar = z mod 2 ^ 64) ->
  srel env s t -> kop1 ke f t b = Some t' -> exists s', kop1 kz g s b = Some s' /\ srel env s' t'.
Proof.
  intros Hf Hb H. unfold kop1.
  destruct (krd ke t b) as [v|] eqn:Qb; [|discriminate]. destruct (krd_ok _ _ _ _ _ H Hb Qb) as (u & Eu2 & Cu). destruct v; try discriminate.
  simpl in Cu. subst u. rewrite Eu2. apply kwr_ok; [assumption|]. unfold crel. rewrite Hf. reflexivity.
Qed.
Lemma kstep_ok env i s t t' : (forall z, In z (iimm i) -> env rcVar = z mod 2 ^ 64) -> srel env s t -> kstep ke i t = Some t' ->
  exists s', kstep kz i s = Some s' /\ srel env s' t'.
Proof.
  intros HI H. destruct i; cbn [kstep iimm] in *.
  - destruct (krd ke t src) as [v|] eqn:Q; [|discriminate].
    assert (HS : forall z, src = Imm z -> env rcVar = z mod 2 ^ 64) by (intros z ->; apply HI, in_or_app; simpl; auto).
    destruct (krd_ok _ _ _ _ v H HS Q) as (u & Eu & Cu). rewrite Eu. apply kwr_ok; assumption.
  - apply kop2_ok; auto; intros z ->; apply HI, in_or_app; simpl; auto.
  - apply kop2_ok; auto; intros z ->; apply HI, in_or_app; simpl; auto.
  - apply kop2_ok; auto; intros z ->; apply HI, in_or_app; simpl; auto.
  - apply kop1_ok; auto; intros z ->; apply HI; simpl; auto.
  - apply kop1_ok; auto; intros z ->; apply HI; simpl; auto.
  - destruct (nth_error (kregs t) (rn r)) as [c|] eqn:Q; [|discriminate]. destruct H as [H1 H2].
    destruct (F2_nth _ _ _ _ _ H1 Q) as (w & Eu & Cu). destruct c; try discriminate. simpl in Cu. subst w. rewrite Eu.
    apply kwr_ok; [split; assumption|reflexivity].
Qed.
Lemma krun_ok env c : forall s t t', (forall z, In z (imms c) -> env rcVar = z mod 2 ^ 64) -> srel env s t -> krun ke c t = Some t' ->
  exists s', krun kz c s = Some s' /\ srel env s' t'.
Proof.
  induction c as [|i c IH]; intros s t t' HI H Q; cbn [krun] in *.
  - injection Q as <-. eauto.
  - destruct (kstep ke i t) as [t1|] eqn:Q1; [|discriminate].
    destruct (kstep_ok env i s t t1 ltac:(intros; apply HI; unfold imms; simpl; apply in_or_app; auto) H Q1) as (s1 & -> & H1).
    apply (IH s1 t1 t'); auto. intros. apply HI. unfold imms. simpl. apply in_or_app. auto.
Qed.
Lemma krun_app D c d : forall s, krun D (c ++ d) s = match krun D c s with Some s' => krun D d s' | None => None end.
Proof. induction c as [|i c IH]; intro s; cbn [krun app]; auto. destruct (kstep D i s); auto. Qed.

(* what a stretch leaves, against a pattern t2 in which variable i stands for [s i] *)
Definition cleb (s : nat -> E) (t t2 : kcell ke) : bool :=
  match t2, t with
  | KUn, _ => true
  | KPt b o, KPt b' o' => (b =? b')%nat && (o =? o')
  | KWd e2, KWd e => same e (subst s e2)
  | _, _ => false
  end.
Fixpoint forall2b {X Y} (f : X -> Y -> bool) (l : list X) (m : list Y) : bool :=
  match l, m with [], [] => true | a :: l, b :: m => f a b && forall2b f l m | _, _ => false end.
Lemma F2_trans {X Y Z0} (P : X -> Y -> Prop) (f : Y -> Z0 -> bool) (Q : X -> Z0 -> Prop) :
  (forall x y z, P x y -> f y z = true -> Q x z) -> forall l m n, Forall2 P l m -> forall2b f m n = true -> Forall2 Q l n.
Proof.
  intros K l m n H. revert n. induction H; intros [|z n]; simpl; try discriminate; [constructor|].
  intro B. apply andb_true_iff in B. destruct B. constructor; eauto.
Qed.
Definition sleb (s : nat -> E) (t t2 : kst ke) : bool :=
  forall2b (cleb s) (kregs t) (kregs t2) && forall2b (forall2b (cleb s)) (kmem t) (kmem t2).
Lemma crel_le env s c t t2 : (forall i, is_w64 (env i)) -> crel env c t -> cleb s t t2 = true -> crel (fun i => eval env (s i)) c t2.
Proof.
  intros K H L. destruct t2, t; cbn [cleb crel] in *; try discriminate; auto.
  - rewrite H, (same_ok env _ _ L K), eval_subst. reflexivity.
  - apply andb_true_iff in L. destruct L as [L1 L2]. apply Nat.eqb_eq in L1. apply Z.eqb_eq in L2. subst. reflexivity.
Qed.
Lemma srel_le env s c t t2 : (forall i, is_w64 (env i)) -> srel env c t -> sleb s t t2 = true -> srel (fun i => eval env (s i)) c t2.
Proof.
  intros K [H1 H2] L. apply andb_true_iff in L. destruct L as [L1 L2]. split.
  - revert H1 L1. apply F2_trans. intros; eapply crel_le; eauto.
  - revert H2 L2. apply F2_trans. apply F2_trans. intros; eapply crel_le; eauto.
Qed.

Definition hoare (c : list kinstr) (t1 : kst ke) (s : nat -> E) (t2 : kst ke) : bool :=
  match krun ke c t1 with Some t => sleb s t t2 | None => false end.
Lemma hoare_ok c t1 s t2 env st : hoare c t1 s t2 = true -> (forall i, is_w64 (env i)) ->
  (forall z, In z (imms c) -> env rcVar = z mod 2 ^ 64) -> srel env st t1 ->
  exists st', krun kz c st = Some st' /\ srel (fun i => eval env (s i)) st' t2.
Proof.
  unfold hoare. intros H K HI R. destruct (krun ke c t1) as [t|] eqn:Q; [|discriminate].
  destruct (krun_ok env c st t1 t HI R Q) as (st' & Q' & R'). exists st'. split; [exact Q'|]. eapply srel_le; eauto.
Qed.

(* changing the value of variables a state does not mention *)
Definition cvars (P : nat -> bool) (c : kcell ke) : bool := match c with KWd e => allv P e | _ => true end.
Definition svars (P : nat -> bool) (t : kst ke) : bool := forallb (cvars P) (kregs t) && forallb (forallb (cvars P)) (kmem t).
Lemma F2_forallb {X Y} (P Q : X -> Y -> Prop) (f : Y -> bool) : (forall x y, P x y -> f y = true -> Q x y) ->
  forall l m, Forall2 P l m -> forallb f m = true -> Forall2 Q l m.
Proof. intros K. induction 1; simpl; intro B; [constructor|]. apply andb_true_iff in B. destruct B. constructor; auto. Qed.
Lemma srel_ext P env env' s t : svars P t = true -> (forall i, P i = true -> env i = env' i) -> srel env s t -> srel env' s t.
Proof.
  intros V K [H1 H2]. apply andb_true_iff in V. destruct V as [V1 V2].
  assert (C : forall x y, crel env x y -> cvars P y = true -> crel env' x y).
  { intros x [e|b o|] Hc Hv; cbn [crel cvars] in *; auto. rewrite Hc. rewrite (eval_ext P env env' e Hv K). reflexivity. }
  split; [revert H1 V1; apply F2_forallb, C|]. revert H2 V2. apply F2_forallb. intros x y. apply F2_forallb, C.
Qed.

(* the internal representation: six lanes complemented *)
Definition compl (i : nat) : bool := existsb (Nat.eqb i) [1; 2; 8; 12; 17; 20]%nat.
Definition enc (i : nat) (e : E) : E := if compl i then EN e else e.
Definition L (i : nat) : E := enc i (EV i).
Definition par (x : nat) : E := EX (EX (EX (EX (L x) (L (x + 5))) (L (x + 10))) (L (x + 15))) (L (x + 20)).
Definition bpVar : nat := 31.
Definition setr (l : list (kcell ke)) (r : reg) (e : E) : list (kcell ke) := setl l (rn r) (KWd (e : KW ke)).
Definition base : list (kcell ke) := setl (setl (repeat KUn 16) (rn SP) (KPt 0 0)) (rn DI) (KPt 1 0).
Definition blocks (b : bool) : list (list (kcell ke)) :=
  let lanes := map (fun i => KWd (L i : KW ke) : kcell ke) (seq 0 25) in
  let un := repeat (KUn : kcell ke) 25 in
  [(if b then un else lanes) ++ [KWd (EV bpVar : KW ke)]; if b then lanes else un].
(* between rounds: the lanes in block 1 (b) or in the frame *)
Definition between (b : bool) : kst ke :=
  mkKst (setr (setr (setr (setr (setr base SI (par 0)) BP (par 1)) R15 (par 4)) DX (L 22)) R8 (L 23)) (blocks b).
Definition dVar (x : nat) : nat := 25 + x.
Definition dEnc (x : nat) : E := if existsb (Nat.eqb x) [0; 3]%nat then EN (EV (dVar x)) else EV (dVar x).
(* the column words in registers, and two lanes *)
Definition columns (b : bool) : kst ke :=
  mkKst (setr (setr (setr (setr (setr (setr (setr base BX (dEnc 0)) CX (dEnc 1)) DX (dEnc 2)) R8 (dEnc 3)) R9 (dEnc 4)) R10 (L 0)) R11 (L 6)) (blocks b).
Definition lastly (b : bool) : kst ke := mkKst base (blocks b).

(* the specification on expressions *)
Definition zeroE : E := EX (EV 0) (EV 0).
Definition laneE (A : list E) (x y : nat) : E := nth (x mod 5 + 5 * (y mod 5)) A zeroE.
Definition makeE (f : nat -> nat -> E) : list E := map (fun k => f (k mod 5)%nat (k / 5)%nat) (seq 0 25).
Definition vars : list E := map EV (seq 0 25).
Definition colCE (x : nat) : E := EX (EX (EX (EX (laneE vars x 0) (laneE vars x 1)) (laneE vars x 2)) (laneE vars x 3)) (laneE vars x 4).
Definition colDE (x : nat) : E := EX (colCE ((x + 4) mod 5)) (ER 1 (colCE ((x + 1) mod 5))).
Definition thetaE : list E := makeE (fun x y => EX (laneE vars x y) (EV (dVar (x mod 5)))).
Definition rhoE (A : list E) : list E :=
  makeE (fun x y => match lookup (rho_offsets 24 0 1 0) x y with Some k => ER k (laneE A x y) | None => laneE A x y end).
Definition piE (A : list E) : list E := makeE (fun x y => laneE A ((x + 3 * y) mod 5) x).
Definition chiE (A : list E) : list E :=
  makeE (fun x y => EX (laneE A x y) (EA (EN (laneE A ((x + 1) mod 5) y)) (laneE A ((x + 2) mod 5) y))).
Definition iotaE (A : list E) : list E :=
  makeE (fun x y => if (Nat.eqb x 0 && Nat.eqb y 0)%bool then EX (laneE A x y) (EV rcVar) else laneE A x y).
Definition roundE : list E := iotaE (chiE (piE (rhoE thetaE))).
Definition sCols (i : nat) : E := if (25 <=? i)%nat && (i <? 30)%nat then colDE (i - 25) else EV i.
Definition sRound (i : nat) : E := if (i <? 25)%nat then nth i roundE zeroE else EV i.

Lemma eval_zeroE env : eval env zeroE = 0.
Proof. apply Z.lxor_nilpotent. Qed.
Lemma lane_eval env A x y : lane (map (eval env) A) x y = eval env (laneE A x y).
Proof. unfold lane, laneE. rewrite <- (eval_zeroE env) at 1. apply map_nth. Qed.
Lemma make_eval env f g : (forall x y, (x < 5)%nat -> (y < 5)%nat -> eval env (f x y) = g x y) -> map (eval env) (makeE f) = make g.
Proof.
  intro H. unfold makeE, make. rewrite map_map. apply map_ext_in. intros k Hk. apply in_seq in Hk. apply H.
  - apply Nat.mod_upper_bound. lia.
  - apply Nat.div_lt_upper_bound; lia.
Qed.
Section Round.
Variables (env : nat -> Z) (A : list Z).
Hypothesis Henv : forall i, is_w64 (env i).
Hypothesis HA : length A = 25%nat.
Hypothesis Hlanes : forall i, (i < 25)%nat -> env i = nth i A 0.
Lemma vars_eval : map (eval env) vars = A.
Proof.
  unfold vars. rewrite map_map. cbn [eval]. apply nth_ext with (d := 0) (d' := 0).
  - rewrite map_length, seq_length. symmetry. exact HA.
  - rewrite map_length, seq_length. intros n Hn. rewrite (nth_indep _ 0 (env 25%nat)) by (rewrite map_length, seq_length; exact Hn).
    rewrite map_nth, seq_nth by exact Hn. apply Hlanes. exact Hn.
Qed.
Lemma colD_eval x : eval env (colDE x) = colD A x.
Proof.
  assert (C : forall x, eval env (colCE x) = colC A x).
  { intro z. unfold colCE, colC. cbn [eval]. rewrite <- !lane_eval, vars_eval. reflexivity. }
  unfold colDE, colD. cbn [eval]. rewrite !C, rol_eq; [reflexivity|lia|]. rewrite <- C. apply eval_w64; [|exact Henv].
  assert (Hx : ((x + 1) mod 5 < 5)%nat) by (apply Nat.mod_upper_bound; lia).
  destruct ((x + 1) mod 5)%nat as [|[|[|[|[|n]]]]]; try reflexivity. lia.
Qed.
Lemma rols_lane B x y : forallb rols B = true -> rols (laneE B x y) = true.
Proof.
  intro H. unfold laneE. set (n := (x mod 5 + 5 * (y mod 5))%nat). clearbody n. revert n.
  induction B as [|b B IH]; intros [|n]; simpl in *; auto; apply andb_true_iff in H; destruct H; auto.
Qed.
Hypothesis Hcols : forall x, (x < 5)%nat -> env (dVar x) = colD A x.
Lemma round_eval : map (eval env) roundE = Rnd' (env rcVar) A.
Proof.
  assert (T : map (eval env) thetaE = theta A).
  { apply make_eval. intros x y Hx Hy. cbn [eval]. rewrite <- lane_eval, vars_eval, (Nat.mod_small x 5), Hcols by lia. reflexivity. }
  assert (RT : forallb rols thetaE = true) by reflexivity.
  assert (P : map (eval env) (rhoE thetaE) = rho (theta A)).
  { apply make_eval. intros x y Hx Hy. destruct (lookup _ x y) as [k|] eqn:Q; cbn [eval]; rewrite <- lane_eval, T; [|reflexivity].
    apply rol_eq; [eapply lookup_range; eauto|]. rewrite <- T, lane_eval. apply eval_w64; [apply rols_lane, RT|exact Henv]. }
  assert (Q : map (eval env) (piE (rhoE thetaE)) = pi (rho (theta A))).
  { apply make_eval. intros x y Hx Hy. rewrite <- lane_eval, P. reflexivity. }
  assert (RQ : forallb rols (piE (rhoE thetaE)) = true) by reflexivity.
  assert (C : map (eval env) (chiE (piE (rhoE thetaE))) = chi (pi (rho (theta A)))).
  { apply make_eval. intros x y Hx Hy. cbn [eval]. rewrite bic_not by (apply eval_w64; [apply rols_lane, RQ|exact Henv]).
    rewrite <- !lane_eval, Q. reflexivity. }
  unfold roundE, iotaE, Rnd'. apply make_eval. intros x y Hx Hy.
  destruct ((x =? 0)%nat && (y =? 0)%nat); cbn [eval]; rewrite <- lane_eval, C; reflexivity.
Qed.
End Round.

Definition stdRound (i o : reg) (rc : Z) : list kinstr :=
  mKeccakRound i o rc MOVQ_RBI_RCE XORQ_RT1_RCA XORQ_RT1_RCE XORQ_RBA_RCU XORQ_RT1_RCA XORQ_RT1_RCE XORQ_RBA_RCU
    XORQ_RT1_RCA XORQ_RT1_RCE XORQ_RBE_RCU XORQ_RDU_RCU XORQ_RDA_RCA XORQ_RDE_RCE.
Definition lastRound (i o : reg) (rc : Z) : list kinstr :=
  mKeccakRound i o rc NOP NOP NOP NOP NOP NOP NOP NOP NOP NOP NOP NOP NOP.

(* T describes the machine when the lanes are A and the caller's BP is bp *)
Definition holds (T : kst ke) (A : list Z) (bp : Z) (st : kst kz) : Prop :=
  exists env, (forall i, is_w64 (env i)) /\ (forall i, (i < 25)%nat -> env i = nth i A 0) /\ env bpVar = bp /\ srel env st T.
Definition lanesOnly (i : nat) : bool := (i <? 25)%nat || (i =? bpVar)%nat.

Lemma round_step code b T rc A bp st :
  hoare (firstn 27 code) (between b) sCols (columns b) = true -> hoare (skipn 27 code) (columns b) sRound T = true ->
  imms code = [rc] -> imms (firstn 27 code) = [] -> svars lanesOnly (between b) = true -> is_w64 rc ->
  length A = 25%nat -> Forall is_w64 A -> holds (between b) A bp st ->
  exists st', krun kz code st = Some st' /\ holds T (Rnd' rc A) bp st'.
Proof.
  intros H1 H2 I1 I2 V Wrc HA WA (env & We & He & Hb & R).
  set (env0 := fun i => if (i =? rcVar)%nat then rc else env i).
  assert (W0 : forall i, is_w64 (env0 i)) by (intro i; unfold env0; destruct (i =? rcVar)%nat; auto).
  assert (L0 : forall i, (i < 25)%nat -> env0 i = nth i A 0).
  { intros i Hi. unfold env0, rcVar. destruct (Nat.eqb_spec i 30); [lia|]. apply He, Hi. }
  assert (R0 : srel env0 st (between b)).
  { revert R. apply (srel_ext lanesOnly); [exact V|]. intros i Hi. unfold env0, lanesOnly, rcVar, bpVar in *.
    destruct (Nat.eqb_spec i 30); [|reflexivity]. subst i. discriminate. }
  destruct (hoare_ok _ _ _ _ env0 st H1 W0 ltac:(rewrite I2; intros z []) R0) as (s1 & Q1 & R1).
  set (env2 := fun i => eval env0 (sCols i)) in *.
  assert (S2 : forall i, env2 i = if (25 <=? i)%nat && (i <? 30)%nat then colD A (i - 25) else env0 i).
  { intro i. unfold env2, sCols. destruct ((25 <=? i)%nat && (i <? 30)%nat); [apply colD_eval; assumption|reflexivity]. }
  assert (W2 : forall i, is_w64 (env2 i)).
  { intro i. apply eval_w64; [|exact W0]. unfold sCols. destruct ((25 <=? i)%nat && (i <? 30)%nat) eqn:C; [|reflexivity].
    apply andb_true_iff in C. destruct C as [C1 C2]. apply Nat.leb_le in C1. apply Nat.ltb_lt in C2.
    destruct (i - 25)%nat as [|[|[|[|[|n]]]]] eqn:D; try reflexivity. lia. }
  assert (L2 : forall i, (i < 25)%nat -> env2 i = nth i A 0).
  { intros i Hi. rewrite S2. destruct (Nat.leb_spec 25 i); [lia|]. cbn [andb]. apply L0, Hi. }
  assert (C2 : forall x, (x < 5)%nat -> env2 (dVar x) = colD A x).
  { intros x Hx. rewrite S2. unfold dVar. destruct (Nat.leb_spec 25 (25 + x)); [|lia]. destruct (Nat.ltb_spec (25 + x) 30); [|lia].
    cbn [andb]. f_equal. lia. }
  assert (Rc2 : env2 rcVar = rc) by (rewrite S2; reflexivity).
  assert (I3 : forall z, In z (imms (skipn 27 code)) -> env2 rcVar = z mod 2 ^ 64).
  { intros z Hz. assert (J : imms code = imms (firstn 27 code) ++ imms (skipn 27 code)).
    { unfold imms. rewrite <- flat_map_app, firstn_skipn. reflexivity. }
    rewrite I1, I2 in J. cbn [app] in J. rewrite <- J in Hz. destruct Hz as [<-|[]]. rewrite Rc2. unfold is_w64 in Wrc. rewrite Z.mod_small; lia. }
  destruct (hoare_ok _ _ _ _ env2 s1 H2 W2 I3 R1) as (s2 & Q2 & R2).
  exists s2. split. { rewrite <- (firstn_skipn 27 code), krun_app, Q1. exact Q2. }
  assert (RE := round_eval env2 A W2 HA L2 C2). rewrite Rc2 in RE.
  exists (fun i => eval env2 (sRound i)). split; [|split; [|split]].
  - intro i. apply eval_w64; [|exact W2]. unfold sRound. destruct (Nat.ltb_spec i 25) as [C|C]; [|reflexivity].
    do 25 (destruct i as [|i]; [reflexivity|]). lia.
  - intros i Hi. unfold sRound. destruct (Nat.ltb_spec i 25); [|lia]. rewrite <- RE. rewrite (nth_indep _ 0 (eval env2 zeroE)) by exact H. symmetry. apply map_nth.
  - unfold sRound. cbn [eval]. change (eval env2 (EV bpVar) = bp). cbn [eval]. rewrite S2. change (env0 bpVar = bp). exact Hb.
  - exact R2.
Qed.
Lemma stdRound_in rc A bp st : is_w64 rc -> length A = 25%nat -> Forall is_w64 A -> holds (between true) A bp st ->
  exists st', krun kz (stdRound DI SP rc) st = Some st' /\ holds (between false) (Rnd' rc A) bp st'.
Proof. intros. apply (round_step _ true); auto; vm_compute; reflexivity. Qed.
Lemma stdRound_out rc A bp st : is_w64 rc -> length A = 25%nat -> Forall is_w64 A -> holds (between false) A bp st ->
  exists st', krun kz (stdRound SP DI rc) st = Some st' /\ holds (between true) (Rnd' rc A) bp st'.
Proof. intros. apply (round_step _ false); auto; vm_compute; reflexivity. Qed.
Lemma lastRound_out rc A bp st : is_w64 rc -> length A = 25%nat -> Forall is_w64 A -> holds (between false) A bp st ->
  exists st', krun kz (lastRound SP DI rc) st = Some st' /\ holds (lastly true) (Rnd' rc A) bp st'.
Proof. intros. apply (round_step _ false); auto; vm_compute; reflexivity. Qed.

(* the 24 rounds *)
Definition pair (j : nat) : list kinstr := stdRound DI SP (RC (2 * j)) ++ stdRound SP DI (RC (2 * j + 1)).
Lemma rounds_eq : roundsCode = flat_map pair (seq 0 11) ++ stdRound DI SP (RC 22) ++ lastRound SP DI (RC 23).
Proof. vm_compute. reflexivity. Qed.
Lemma pairs_ok bp n : forall k A st, length A = 25%nat -> Forall is_w64 A -> holds (between true) A bp st ->
  let A' := fold_left (fun A ir => Rnd ir A) (seq (2 * k) (2 * n)) A in
  exists st', krun kz (flat_map pair (seq k n)) st = Some st' /\ length A' = 25%nat /\ Forall is_w64 A' /\ holds (between true) A' bp st'.
Proof.
  induction n as [|n IH]; intros k A st HA WA H; [exists st; cbn; auto|].
  replace (2 * S n)%nat with (S (S (2 * n))) by lia. cbn [seq flat_map fold_left]. unfold pair at 1. rewrite !krun_app.
  destruct (stdRound_in (RC (2 * k)) A bp st (RC_w64 _) HA WA H) as (s1 & -> & H1).
  rewrite <- Rnd_Rnd' in H1. assert (HA1 := Rnd_length (2 * k) A). assert (WA1 := Rnd_w64 (2 * k) A WA).
  destruct (stdRound_out (RC (2 * k + 1)) _ bp s1 (RC_w64 _) HA1 WA1 H1) as (s2 & -> & H2).
  rewrite <- Rnd_Rnd' in H2. replace (2 * k + 1)%nat with (S (2 * k)) in H2 by lia.
  replace (S (S (2 * k))) with (2 * S k)%nat by lia.
  apply (IH (S k) _ s2); [apply Rnd_length|apply Rnd_w64, WA1|exact H2].
Qed.
Lemma rounds_ok A bp st : length A = 25%nat -> Forall is_w64 A -> holds (between true) A bp st ->
  exists st', krun kz roundsCode st = Some st' /\ holds (lastly true) (keccak_p A) bp st'.
Proof.
  intros HA WA H. rewrite rounds_eq, krun_app. destruct (pairs_ok bp 11 0 A st HA WA H) as (s1 & -> & H1).
  unfold keccak_p. change (seq 0 24) with (seq (2 * 0) (2 * 11) ++ [22; 23]%nat). rewrite fold_left_app.
  set (A1 := fold_left _ (seq (2 * 0) (2 * 11)) A) in *. clearbody A1. destruct H1 as (L1 & W1 & H1). cbn [fold_left]. rewrite krun_app.
  destruct (stdRound_in (RC 22) _ bp s1 (RC_w64 _) L1 W1 H1) as (s2 & -> & H2). rewrite <- Rnd_Rnd' in H2.
  assert (L2 := Rnd_length 22 A1). assert (W2 := Rnd_w64 22 A1 W1).
  destruct (lastRound_out (RC 23) _ bp s2 (RC_w64 _) L2 W2 H2) as (s3 & -> & H3). rewrite <- Rnd_Rnd' in H3. eauto.
Qed.

(* the whole call *)
Definition entry : kst ke :=
  mkKst (setl (setr (repeat KUn 16) BP (EV bpVar)) (rn SP) (KPt 0 0)) [repeat KUn 26; map (fun i => KWd (EV i : KW ke) : kcell ke) (seq 0 25)].
Definition exit : kst ke :=
  mkKst (setl (setr (repeat KUn 16) BP (EV bpVar)) (rn SP) (KPt 0 0)) [repeat KUn 26; map (fun i => KWd (EV i : KW ke) : kcell ke) (seq 0 25)].
Lemma holds_step c T T' A bp st : hoare c T EV T' = true -> imms c = [] -> holds T A bp st ->
  exists st', krun kz c st = Some st' /\ holds T' A bp st'.
Proof.
  intros H I (env & W & He & Hb & R). destruct (hoare_ok c T EV T' env st H W ltac:(rewrite I; intros z []) R) as (st' & Q & R').
  exists st'. split; [exact Q|]. exists env. auto.
Qed.
Lemma holds_entry A bp : length A = 25%nat -> Forall is_w64 A -> is_w64 bp ->
  holds entry A bp (mkKst (entryRegs bp) [repeat KUn 26; map (fun w => KWd w : kcell kz) A]).
Proof.
  intros HA WA Wb. exists (fun i => if (i =? bpVar)%nat then bp else nth i A 0). split; [|split; [|split]].
  - intro i. destruct (i =? bpVar)%nat; [exact Wb|apply nth_w64, WA].
  - intros i Hi. unfold bpVar. destruct (Nat.eqb_spec i 31); [lia|reflexivity].
  - reflexivity.
  - destr25 A HA. split; cbn; repeat constructor.
Qed.
Lemma words_all l A : Forall2 (fun c w => c = KWd (w : KW kz)) l A -> words l = Some A.
Proof. induction 1; cbn [words]; [reflexivity|]. subst. cbn [word]. rewrite IHForall2. reflexivity. Qed.

Definition before : list kinstr := [KMOV (R BP) (M SP 200); KLEA SP 200 BP] ++ preCode.
Definition after : list kinstr := postCode ++ [KMOV (M SP 200) (R BP)].
Lemma before_hoare : hoare before entry EV (between true) = true.
Proof. vm_compute. reflexivity. Qed.
Lemma after_hoare : hoare after (lastly true) EV exit = true.
Proof. vm_compute. reflexivity. Qed.

Theorem keccakCall_ok A bp : length A = 25%nat -> Forall is_w64 A -> is_w64 bp -> keccakCall A bp = Some (keccak_p A, bp).
Proof.
  intros HA WA Wb. unfold keccakCall. assert (H := holds_entry A bp HA WA Wb). set (st := mkKst _ _) in *. clearbody st.
  change keccakAsm with (before ++ roundsCode ++ after).
  rewrite krun_app. destruct (holds_step before entry (between true) A bp st before_hoare eq_refl H) as (s1 & -> & H1).
  rewrite krun_app. destruct (rounds_ok A bp s1 HA WA H1) as (s2 & -> & H2).
  destruct (holds_step after (lastly true) exit _ bp s2 after_hoare eq_refl H2) as (s3 & -> & H3).
  destruct H3 as (env & W & He & Hb & R1 & R2).
  destruct (F2_nth _ _ _ 1%nat _ R2 eq_refl) as (l & -> & Hl).
  destruct (F2_nth _ _ _ (rn BP) _ R1 eq_refl) as (c & -> & Hc). cbn [crel eval] in Hc. subst c. rewrite Hb.
  destruct (F2_nth _ _ _ (rn SP) _ R1 eq_refl) as (c & -> & Hc). cbn [crel] in Hc. subst c.
  rewrite (words_all l (keccak_p A)); [reflexivity|].
  assert (LK := keccak_p_length A HA). set (K := keccak_p A) in *. clearbody K.
  assert (EK : K = map env (seq 0 25)).
  { apply nth_ext with (d := 0) (d' := 0). { rewrite map_length, seq_length. exact LK. }
    intros n Hn. rewrite LK in Hn. rewrite (nth_indep (map _ _) 0 (env 25%nat)) by (rewrite map_length, seq_length; exact Hn).
    rewrite map_nth, seq_nth by exact Hn. symmetry. apply He, Hn. }
  rewrite EK. clear - Hl. revert Hl. generalize (seq 0 25). intro q. revert l. induction q as [|i q IH]; intros l H; inversion H; subst; constructor; auto.
Qed.
