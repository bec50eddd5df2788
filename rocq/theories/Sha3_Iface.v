(* Calls and observable results of the hash objects of hash/sha3 (sha3.go, shake.go):
   shared by the model and by the ideal machine. *)
From Coq Require Import ZArith List Bool.
Import ListNotations.
Open Scope Z_scope.

(* sha3.go:34 *)
Inductive error := ErrWriteAfterRead.

(* One call on object number h of a program's objects *)
Inductive op :=
| OWrite (h : nat) (p : list Z)
| ORead (h : nat) (out : list Z)
| OSum (h : nat) (isnil : bool) (inp spare : list Z)
| OReset (h : nat)
| OClone (h : nat).
Inductive res :=
| RWrite (n : nat) (e : option error)
| RBytes (b : list Z)
| RUnit
| RBad.      (* no such object *)

Fixpoint set_obj {A : Type} (l : list A) (h : nat) (o : A) : list A :=
  match l, h with
  | [], _ => []
  | _ :: t, O => o :: t
  | x :: t, S h' => x :: set_obj t h' o
  end.

