(* The objects of hash/sha3 in the amd64 build: sha3.go and shake.go over the machine code of keccakf_amd64.s (Keccak_Asm).
   [bp] is what BP holds; the permutation gives it back (C75).  None is a run of the machine code that is stuck.
   [g] selects the xor implementation as in Sha3_Model. *)
From Coq Require Import ZArith List Bool.
From Verif Require Import Lib Sha3_Iface Sha3_Model Keccak_Asm.
Import ListNotations.
Open Scope Z_scope.

Definition ob {A C : Type} (o : option A) (f : A -> option C) : option C := match o with Some x => f x | None => None end.
(* keccakf_amd64.go: keccakF1600(a *[25]uint64) *)
Definition permA (bp : Z) (l : list Z) : option (list Z) := ob (keccakCall l bp) (fun '(l', _) => Some l').

(* sha3.go:122-126 *)
Fixpoint write_loopA (g : bool) (bp : Z) (rate : nat) (fuel : nat) (l inp : list Z) : option (list Z * list Z) :=
  match fuel with
  | O => Some (l, inp)
  | S f =>
      if (rate <=? length inp)%nat
      then ob (permA bp (xorIn g l (firstn rate inp))) (fun l => write_loopA g bp rate f l (skipn rate inp))
      else Some (l, inp)
  end.
(* sha3.go:92-133 *)
Definition WriteA (g : bool) (bp : Z) (c : state) (inp : list Z) : option (state * (nat * option error)) :=
  if isSquezing c then Some (c, (0%nat, Some ErrWriteAfterRead))
  else
    let nwrite := length inp in
    let buf := data c in
    let processLen := (idx c + length inp)%nat in
    if (processLen <? rate c)%nat then
      Some (mkState (rate c) (size c) (a c) (sfx c) (blit buf (idx c) inp) processLen false, (nwrite, None))
    else
      let fbLen := (rate c - idx c)%nat in
      let buf1 := blit buf (idx c) (firstn fbLen inp) in
      ob (permA bp (xorIn g (a c) buf1)) (fun a1 =>
      let in1 := skipn fbLen inp in
      ob (write_loopA g bp (rate c) (length in1) a1 in1) (fun '(a2, in2) =>
      Some (mkState (rate c) (size c) a2 (sfx c) (blit buf1 0 in2) (length in2) false, (nwrite, None)))).
(* sha3.go:135-151 *)
Definition finalizeA (g : bool) (bp : Z) (c : state) : option state :=
  let buf := data c in
  let r := rate c in
  let buf1 := firstn (S (idx c)) buf ++ repeat 0 (r - S (idx c)) ++ skipn r buf in
  let buf2 := upd buf1 (idx c) (sfx c) in
  let buf3 := upd buf2 (r - 1) (Z.lor (nth (r - 1) buf2 0) 0x80) in
  ob (permA bp (xorIn g (a c) (firstn r buf3))) (fun a1 =>
  let buf4 := blit buf3 0 (copyOut g a1 (firstn r buf3)) in
  Some (mkState r (size c) a1 (sfx c) buf4 r true)).
(* sha3.go:179-184 *)
Fixpoint read_loopA (g : bool) (bp : Z) (rate : nat) (nblocks : nat) (l out : list Z) : option (list Z * list Z * list Z) :=
  match nblocks with
  | O => Some (l, [], out)
  | S n =>
      ob (permA bp l) (fun a1 =>
      let blk := copyOut g a1 (firstn rate out) in
      ob (read_loopA g bp rate n a1 (skipn rate out)) (fun '(a2, blks, rest) => Some (a2, blk ++ blks, rest)))
  end.
(* sha3.go:153-191 *)
Definition ReadA (g : bool) (bp : Z) (c0 : state) (out : list Z) : option (state * list Z) :=
  ob (if isSquezing c0 then Some c0 else finalizeA g bp c0) (fun c =>
  let r := rate c in
  let l := Nat.min (idx c) (length out) in
  let part1 := slice (data c) (r - idx c) l in
  let out1 := skipn l out in
  let idx1 := (idx c - l)%nat in
  if (length out1 =? 0)%nat then Some (mkState r (size c) (a c) (sfx c) (data c) idx1 true, part1)
  else
    let nblocks := (length out1 / r)%nat in
    ob (read_loopA g bp r nblocks (a c) out1) (fun '(a2, blks, out2) =>
    ob (permA bp a2) (fun a3 =>
    let buf := copyOut g a3 (data c) in
    Some (mkState r (size c) a3 (sfx c) buf (r - length out2) true, part1 ++ blks ++ firstn (length out2) buf)))).
(* sha3.go:193-211 *)
Definition SumA (g : bool) (bp : Z) (c : state) (isnil : bool) (inp spare : list Z) : option (state * list Z) :=
  let l := length inp in
  let mem0 := if isnil then repeat 0 (size c) else inp ++ spare in
  let mem1 := if (length mem0 <? l + size c)%nat then mem0 ++ repeat 0 (l + size c - length mem0) else mem0 in
  let mem2 := firstn (l + size c) mem1 in
  ob (ReadA g bp c (skipn l mem2)) (fun '(c', out) => Some (c', firstn l mem2 ++ out)).
(* shake.go:74-86, 121-145 *)
Definition newCShakeA (g : bool) (bp : Z) (N S : list Z) (s : Z) (r : nat) : option obj :=
  let ib := initBlock_of N S r in ob (WriteA g bp (new r 0 s) ib) (fun '(c, _) => Some (mkObj c (Some ib))).
Definition NewCShake128A (g : bool) (bp : Z) (N S : list Z) : option obj :=
  if ((length N =? 0)%nat && (length S =? 0)%nat)%bool then Some (mkObj NewShake128 None) else newCShakeA g bp N S 0x04 168.
Definition NewCShake256A (g : bool) (bp : Z) (N S : list Z) : option obj :=
  if ((length N =? 0)%nat && (length S =? 0)%nat)%bool then Some (mkObj NewShake256 None) else newCShakeA g bp N S 0x04 136.
(* sha3.go:80, shake.go:88-92 *)
Definition ResetObjA (g : bool) (bp : Z) (o : obj) : option obj :=
  match initBlock o with
  | None => Some (mkObj (Reset (st o)) None)
  | Some ib => ob (WriteA g bp (Reset (st o)) ib) (fun '(c, _) => Some (mkObj c (Some ib)))
  end.
(* shake.go:147-159 *)
Definition ShakeSum128A (g : bool) (bp : Z) (hash data : list Z) : option (list Z) :=
  ob (WriteA g bp NewShake128 data) (fun '(c, _) => ob (ReadA g bp c hash) (fun '(_, out) => Some out)).
Definition ShakeSum256A (g : bool) (bp : Z) (hash data : list Z) : option (list Z) :=
  ob (WriteA g bp NewShake256 data) (fun '(c, _) => ob (ReadA g bp c hash) (fun '(_, out) => Some out)).

(* a program: one call on one of its objects after the other, with any content of BP at each call *)
Definition stepA (g : bool) (bp : Z) (os : list obj) (p : op) : option (list obj * res) :=
  match p with
  | OWrite h b =>
      match nth_error os h with
      | None => Some (os, RBad)
      | Some o => ob (WriteA g bp (st o) b) (fun '(s', (n, e)) => Some (set_obj os h (mkObj s' (initBlock o)), RWrite n e))
      end
  | ORead h out =>
      match nth_error os h with
      | None => Some (os, RBad)
      | Some o => ob (ReadA g bp (st o) out) (fun '(s', b) => Some (set_obj os h (mkObj s' (initBlock o)), RBytes b))
      end
  | OSum h isnil inp spare =>
      match nth_error os h with
      | None => Some (os, RBad)
      | Some o => ob (SumA g bp (st o) isnil inp spare) (fun '(s', b) => Some (set_obj os h (mkObj s' (initBlock o)), RBytes b))
      end
  | OReset h =>
      match nth_error os h with
      | None => Some (os, RBad)
      | Some o => ob (ResetObjA g bp o) (fun o' => Some (set_obj os h o', RUnit))
      end
  | OClone h =>
      match nth_error os h with
      | None => Some (os, RBad)
      | Some o => Some (os ++ [CloneObj o], RUnit)
      end
  end.
Fixpoint runA (g : bool) (os : list obj) (ops : list (Z * op)) : option (list res) :=
  match ops with
  | [] => Some []
  | (bp, p) :: t => ob (stepA g bp os p) (fun '(os', r) => ob (runA g os' t) (fun rs => Some (r :: rs)))
  end.
