(* Vocabulary used by the statements about hash/sha3: what programs can create and do, and the
   exact string a cSHAKE instance absorbs. *)
From Coq Require Import ZArith List Bool.
From Verif Require Import Lib Sha3_Iface Sha3_Spec Sha3_Ideal Sha3_Model.
Import ListNotations.
Open Scope Z_scope.

(* the rates (block sizes in bytes) in use *)
Definition valid_rate (r : nat) : Prop :=
  r = 72%nat \/ r = 104%nat \/ r = 136%nat \/ r = 144%nat \/ r = 168%nat.

(* strings whose bit length fits a uint64 *)
Definition small (l : list Z) : Prop := Z.of_nat (length l) < 2 ^ 61.

(* the prefix the code absorbs, in terms of the standard's functions *)
Definition cshake_block (r : nat) (N S : list Z) : list Z :=
  let enc := encode_string N ++ encode_string S in
  Sha3_Spec.bytepad enc r ++
  (if (length (left_encode (Z.of_nat r) ++ enc) mod r =? 0)%nat then repeat 0 r else []).

Definition is_nil (l : list Z) : bool := match l with [] => true | _ => false end.

(* ---------- the objects a program can create ---------- *)
Inductive creates (g : bool) : obj -> iobj -> Prop :=
| cr224 : creates g (mkObj New224 None) (fresh 144 28 suffix_sha3 [])
| cr256 : creates g (mkObj New256 None) (fresh 136 32 suffix_sha3 [])
| cr384 : creates g (mkObj New384 None) (fresh 104 48 suffix_sha3 [])
| cr512 : creates g (mkObj New512 None) (fresh 72 64 suffix_sha3 [])
| crS128 : creates g (mkObj NewShake128 None) (fresh 168 0 suffix_shake [])
| crS256 : creates g (mkObj NewShake256 None) (fresh 136 0 suffix_shake [])
| crC128 : forall N S, bytes N -> bytes S -> small N -> small S ->
    creates g (NewCShake128 g N S)
      (if (is_nil N && is_nil S)%bool then fresh 168 0 suffix_shake []
       else fresh 168 0 suffix_cshake (cshake_block 168 N S))
| crC256 : forall N S, bytes N -> bytes S -> small N -> small S ->
    creates g (NewCShake256 g N S)
      (if (is_nil N && is_nil S)%bool then fresh 136 0 suffix_shake []
       else fresh 136 0 suffix_cshake (cshake_block 136 N S)).

(* several Write calls; several Read calls *)
Definition writes (g : bool) (s : state) (ps : list (list Z)) : state :=
  fold_left (fun s p => fst (Write g s p)) ps s.
Fixpoint reads (g : bool) (s : state) (outs : list (list Z)) : list (list Z) :=
  match outs with
  | [] => []
  | o :: t => let '(s', b) := Read g s o in b :: reads g s' t
  end.

(* states an object can get into *)
Inductive reach (g : bool) (o : obj) : obj -> Prop :=
| r_refl : reach g o o
| r_write : forall o' p, reach g o o' -> bytes p ->
    reach g o (mkObj (fst (Write g (st o') p)) (initBlock o'))
| r_read : forall o' out, reach g o o' ->
    reach g o (mkObj (fst (Read g (st o') out)) (initBlock o'))
| r_sum : forall o' inp spare, reach g o o' ->
    reach g o (mkObj (fst (Sum g (st o') false inp spare)) (initBlock o'))
| r_sumnil : forall o', reach g o o' ->
    reach g o (mkObj (fst (Sum g (st o') true [] [])) (initBlock o'))
| r_reset : forall o', reach g o o' -> reach g o (ResetObj g o')
| r_clone : forall o', reach g o o' -> reach g o (CloneObj o').

(* the bit string absorbed by an instance customised with N, S after writing X *)
Definition absorbed (r : nat) (N S X : list Z) : list bool :=
  if (is_nil N && is_nil S)%bool then bits_of_bytes X ++ suffix_shake
  else bits_of_bytes (cshake_block r N S ++ X) ++ suffix_cshake.

(* the encoded customisation fills its last block exactly *)
Definition aligned (r : nat) (N S : list Z) : Prop :=
  (length (left_encode (Z.of_nat r) ++ encode_string N ++ encode_string S) mod r = 0)%nat.
