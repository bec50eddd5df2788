(* The hash.Hash calls a client can make on an SM3 object, and the ideal object they are compared
   with: it remembers nothing but the message written since the last Reset. *)
From Coq Require Import ZArith List.
From Verif Require Import Lib.
Import ListNotations.
Open Scope Z_scope.

Inductive op := OWrite (p : list Z) | OSum (b : list Z) | OReset.
Inductive res := RCount (n : Z) | RBytes (b : list Z) | RUnit.

Definition op_bytes (o : op) : Prop :=
  match o with OWrite p => bytes p | OSum b => bytes b | OReset => True end.

Section Ideal.
(* the hash function *)
Variable hash : list Z -> list Z.
(* the count reported by Write for n bytes when [buffered] bytes are waiting *)
Variable reported : Z -> Z -> Z.

Definition ideal_step (m : list Z) (o : op) : list Z * res :=
  match o with
  | OWrite p => (m ++ p, RCount (reported (Z.of_nat (length m) mod 64) (Z.of_nat (length p))))
  | OSum b => (m, RBytes (hash (m ++ b)))
  | OReset => ([], RUnit)
  end.
Fixpoint ideal_run (m : list Z) (ops : list op) : list res :=
  match ops with
  | [] => []
  | o :: t => let '(m', r) := ideal_step m o in r :: ideal_run m' t
  end.
End Ideal.
