(* A tiny machine for the straight-line curve code of dh/csidh and dh/sidh: the Go functions are
   sequences of calls add(&d, &a, &b), mul(&d, &a, &b), ... on named field elements.  A program is
   a list of such calls on memory locations, so that pointer aliasing is explicit; its meaning is
   a state transformer over any field implementation (limb vectors, or an abstract field). *)
From Coq Require Import ZArith List Lia Bool.
Import ListNotations.

Inductive instr : Type :=
| IAdd (d a b : nat)     (* d = a + b *)
| ISub (d a b : nat)     (* d = a - b *)
| IMul (d a b : nat)     (* d = a * b *)
| ISqr (d a : nat)       (* d = a ^ 2 *)
| IInv (d a : nat)       (* d = 1 / a *)
| ICopy (d a : nat)      (* d = a *)
| ISwap (a b : nat) (c : bool)   (* swap a and b if c *)
| IPow (d a : nat) (k : Z).      (* d = a ^ k *)

Record fops : Type := mkFops {
  car : Type;
  fadd : car -> car -> car;
  fsub : car -> car -> car;
  fmul : car -> car -> car;
  fsqr : car -> car;
  finv : car -> car;
  fpow : car -> Z -> car
}.

Definition mset {A : Type} (m : nat -> A) (d : nat) (v : A) : nat -> A :=
  fun l => if Nat.eqb l d then v else m l.

Section Run.
  Variable O : fops.
  Definition step (m : nat -> car O) (i : instr) : nat -> car O :=
    match i with
    | IAdd d a b => mset m d (fadd O (m a) (m b))
    | ISub d a b => mset m d (fsub O (m a) (m b))
    | IMul d a b => mset m d (fmul O (m a) (m b))
    | ISqr d a => mset m d (fsqr O (m a))
    | IInv d a => mset m d (finv O (m a))
    | ICopy d a => mset m d (m a)
    | ISwap a b c => if c then mset (mset m a (m b)) b (m a) else m
    | IPow d a k => mset m d (fpow O (m a) k)
    end.
  Fixpoint run (p : list instr) (m : nat -> car O) : nat -> car O :=
    match p with
    | [] => m
    | i :: p' => run p' (step m i)
    end.
  Lemma run_app : forall p q m, run (p ++ q) m = run q (run p m).
  Proof. induction p; intros; [reflexivity|]. cbn [app run]. apply IHp. Qed.
  Lemma run_ext : forall p m m', (forall l, m l = m' l) -> forall l, run p m l = run p m' l.
  Proof.
    induction p as [|i p IH]; intros m m' H l; [apply H|]. cbn [run]. apply IH. clear IH l. intros l.
    destruct i as [d a b|d a b|d a b|d a|d a|d a|a b c|d a k]; cbn [step]; try (unfold mset; rewrite ?H; reflexivity).
    destruct c; [unfold mset; rewrite ?H; reflexivity | apply H].
  Qed.
  (* memory holding a list of arguments from location 0 on *)
  Definition args (z : car O) (l : list (car O)) : nat -> car O := fun i => nth i l z.
End Run.

(* ---------- relating two field implementations ---------- *)
Definition instr_ok (i : instr) : Prop :=
  match i with IPow _ _ k => (0 <= k < 2 ^ 64)%Z | _ => True end.
Definition prog_ok (p : list instr) : Prop := Forall instr_ok p.

Record simulates (A C : fops) (R : car A -> car C -> Prop) : Prop := {
  sim_add : forall x x' y y', R x x' -> R y y' -> R (fadd A x y) (fadd C x' y');
  sim_sub : forall x x' y y', R x x' -> R y y' -> R (fsub A x y) (fsub C x' y');
  sim_mul : forall x x' y y', R x x' -> R y y' -> R (fmul A x y) (fmul C x' y');
  sim_sqr : forall x x', R x x' -> R (fsqr A x) (fsqr C x');
  sim_inv : forall x x', R x x' -> R (finv A x) (finv C x');
  sim_pow : forall x x' k, R x x' -> (0 <= k < 2 ^ 64)%Z -> R (fpow A x k) (fpow C x' k)
}.

Lemma run_sim : forall A C R, simulates A C R -> forall p m m', prog_ok p ->
  (forall l, R (m l) (m' l)) -> forall l, R (run A p m l) (run C p m' l).
Proof.
  intros A C R S. induction p as [|i p IH]; intros m m' Hp H l; [apply H|].
  inversion Hp as [|? ? Hi Hp']; subst. cbn [run]. apply IH; [exact Hp'|]. clear IH l. intros l.
  destruct i as [d a b|d a b|d a b|d a|d a|d a|a b c|d a k]; cbn [step]; try (unfold mset; destruct (Nat.eqb l d); [|apply H]).
  - apply (sim_add _ _ _ S); apply H.
  - apply (sim_sub _ _ _ S); apply H.
  - apply (sim_mul _ _ _ S); apply H.
  - apply (sim_sqr _ _ _ S); apply H.
  - apply (sim_inv _ _ _ S); apply H.
  - apply H.
  - destruct c; [|apply H]. unfold mset. destruct (Nat.eqb l b); [apply H|]. destruct (Nat.eqb l a); apply H.
  - apply (sim_pow _ _ _ S); [apply H | exact Hi].
Qed.
