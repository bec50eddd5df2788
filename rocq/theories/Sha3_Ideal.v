(* The ideal hash object: it remembers the message absorbed since creation/Reset and, once output
   has been taken, how many output bytes were taken.  Output is FIPS 202's sponge function. *)
From Coq Require Import ZArith List Bool.
From Verif Require Import Lib Sha3_Iface Sha3_Spec.
Import ListNotations.
Open Scope Z_scope.

Record iobj := mkI {
  i_rate : nat; i_size : nat; i_sfx : list bool;
  i_pre : list Z;          (* cSHAKE prefix, empty for SHA-3/SHAKE *)
  i_msg : list Z;
  i_out : option nat }.    (* None: absorbing; Some k: k bytes have been output *)

Definition fresh (r d : nat) (s : list bool) (pre : list Z) : iobj := mkI r d s pre [] None.

(* byte string at positions [k, k+n) of the output *)
Definition output (o : iobj) (k n : nat) : list Z :=
  skipn k (sponge (i_rate o) (bits_of_bytes (i_pre o ++ i_msg o) ++ i_sfx o) (k + n)).
Definition taken (o : iobj) : nat := match i_out o with Some k => k | None => O end.

Definition i_read (o : iobj) (n : nat) : iobj * list Z :=
  (mkI (i_rate o) (i_size o) (i_sfx o) (i_pre o) (i_msg o) (Some (taken o + n)%nat),
   output o (taken o) n).
Definition i_write (o : iobj) (p : list Z) : iobj * (nat * option error) :=
  match i_out o with
  | Some _ => (o, (O, Some ErrWriteAfterRead))
  | None => (mkI (i_rate o) (i_size o) (i_sfx o) (i_pre o) (i_msg o ++ p) None, (length p, None))
  end.
Definition i_reset (o : iobj) : iobj := fresh (i_rate o) (i_size o) (i_sfx o) (i_pre o).

Definition istep (os : list iobj) (p : op) : list iobj * res :=
  match p with
  | OWrite h b =>
      match nth_error os h with
      | None => (os, RBad)
      | Some o => let '(o', (n, e)) := i_write o b in (set_obj os h o', RWrite n e)
      end
  | ORead h out =>
      match nth_error os h with
      | None => (os, RBad)
      | Some o => let '(o', b) := i_read o (length out) in (set_obj os h o', RBytes b)
      end
  | OSum h _ inp _ =>
      match nth_error os h with
      | None => (os, RBad)
      | Some o => let '(o', b) := i_read o (i_size o) in (set_obj os h o', RBytes (inp ++ b))
      end
  | OReset h =>
      match nth_error os h with
      | None => (os, RBad)
      | Some o => (set_obj os h (i_reset o), RUnit)
      end
  | OClone h =>
      match nth_error os h with
      | None => (os, RBad)
      | Some o => (os ++ [o], RUnit)
      end
  end.
Fixpoint irun (os : list iobj) (ops : list op) : list res :=
  match ops with
  | [] => []
  | p :: t => let '(os', r) := istep os p in r :: irun os' t
  end.

(* well-formed calls: written data are bytes; a nil slice has no contents *)
Definition op_ok (p : op) : Prop :=
  match p with
  | OWrite _ b => bytes b
  | OSum _ true inp spare => inp = [] /\ spare = []
  | _ => True
  end.
