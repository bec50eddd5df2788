(* Model of hash/sha3: sha3.go, shake.go, xor.go, xor_generic.go, xor_unaligned.go.
   The boolean [g] selects the build: true = xor.go (generic), false = xor_unaligned.go.
   The permutation is the portable keccakf.go. *)
From Coq Require Import ZArith List Bool.
From Verif Require Import Lib Sha3_Iface Keccak_Model.
Import ListNotations.
Open Scope Z_scope.

(* sha3.go:28-31 *)
Definition maxRate : nat := 168.

(* sha3.go:45-62; desc is flattened into rate and size (sha3.go:12-16, name dropped);
   storageBuf is modelled by its asBytes view (168 bytes) *)
Record state := mkState {
  rate : nat; size : nat;
  a : list Z; sfx : Z; data : list Z; idx : nat; isSquezing : bool }.

(* binary.LittleEndian.Uint64(buf[8*i:]) / bw[i] on a little-endian machine *)
Definition word (buf : list Z) (i : nat) : Z := le_dec (slice buf (8 * i) 8).

Definition xor_word (buf : list Z) (a : list Z) (i : nat) : list Z :=
  upd a i (Z.lxor (ix a i) (word buf i)).

(* xor_generic.go:12-20: n = len(buf)/8 words *)
Definition xorInGeneric (a buf : list Z) : list Z :=
  fold_left (xor_word buf) (seq 0 (length buf / 8)) a.

(* xor_unaligned.go:21-55 *)
Definition xorInUnaligned (a buf : list Z) : list Z :=
  let n := length buf in
  let a := if (72 <=? n)%nat then fold_left (xor_word buf) (seq 0 9) a else a in
  let a := if (104 <=? n)%nat then fold_left (xor_word buf) (seq 9 4) a else a in
  let a := if (136 <=? n)%nat then fold_left (xor_word buf) (seq 13 4) a else a in
  let a := if (144 <=? n)%nat then fold_left (xor_word buf) (seq 17 1) a else a in
  if (168 <=? n)%nat then fold_left (xor_word buf) (seq 18 3) a else a.

(* memory image of the lanes on a little-endian machine *)
Definition lane_bytes (a : list Z) : list Z := concat (map (le_enc 8) a).

(* xor_generic.go:23-28: stores lanes while 8 bytes remain (25 lanes suffice for all callers) *)
Fixpoint copyOutGeneric (a b : list Z) : list Z :=
  if (8 <=? length b)%nat then
    match a with
    | x :: a' => le_enc 8 x ++ copyOutGeneric a' (skipn 8 b)
    | [] => b
    end
  else b.

(* xor_unaligned.go:57-60: copy(buf, ab[:]) with ab the first 168 bytes of the state *)
Definition copyOutUnaligned (a b : list Z) : list Z := blit b 0 (firstn maxRate (lane_bytes a)).

(* xor.go:16-21 / xor_unaligned.go:63-66 *)
Definition xorIn (g : bool) := if g then xorInGeneric else xorInUnaligned.
Definition copyOut (g : bool) := if g then copyOutGeneric else copyOutUnaligned.

(* sha3.go:78-90 *)
Definition Reset (c : state) : state :=
  mkState (rate c) (size c) (repeat 0 25) (sfx c) (repeat 0 maxRate) 0 false.

(* sha3.go:122-126: for len(in) >= rate { ... } ; fuel = number of remaining bytes *)
Fixpoint write_loop (g : bool) (rate : nat) (fuel : nat) (a inp : list Z) : list Z * list Z :=
  match fuel with
  | O => (a, inp)
  | S f =>
      if (rate <=? length inp)%nat
      then write_loop g rate f (keccakF1600 (xorIn g a (firstn rate inp))) (skipn rate inp)
      else (a, inp)
  end.

(* sha3.go:92-133 *)
Definition Write (g : bool) (c : state) (inp : list Z) : state * (nat * option error) :=
  if isSquezing c then (c, (0%nat, Some ErrWriteAfterRead))
  else
    let nwrite := length inp in
    let buf := data c in
    let processLen := (idx c + length inp)%nat in
    if (processLen <? rate c)%nat then
      (mkState (rate c) (size c) (a c) (sfx c) (blit buf (idx c) inp) processLen false,
       (nwrite, None))
    else
      let fbLen := (rate c - idx c)%nat in
      let buf1 := blit buf (idx c) (firstn fbLen inp) in
      let a1 := keccakF1600 (xorIn g (a c) buf1) in
      let in1 := skipn fbLen inp in
      let '(a2, in2) := write_loop g (rate c) (length in1) a1 in1 in
      (mkState (rate c) (size c) a2 (sfx c) (blit buf1 0 in2) (length in2) false,
       (nwrite, None)).

(* sha3.go:135-151 *)
Definition finalize_sha3 (g : bool) (c : state) : state :=
  let buf := data c in
  let r := rate c in
  let buf1 := firstn (S (idx c)) buf ++ repeat 0 (r - S (idx c)) ++ skipn r buf in  (* 141-143 *)
  let buf2 := upd buf1 (idx c) (sfx c) in
  let buf3 := upd buf2 (r - 1) (Z.lor (nth (r - 1) buf2 0) 0x80) in
  let a1 := keccakF1600 (xorIn g (a c) (firstn r buf3)) in
  let buf4 := blit buf3 0 (copyOut g a1 (firstn r buf3)) in
  mkState r (size c) a1 (sfx c) buf4 r true.

(* sha3.go:179-184 *)
Fixpoint read_loop (g : bool) (rate : nat) (nblocks : nat) (a out : list Z) : list Z * list Z * list Z :=
  match nblocks with
  | O => (a, [], out)
  | S n =>
      let a1 := keccakF1600 a in
      let blk := copyOut g a1 (firstn rate out) in
      let '(a2, blks, rest) := read_loop g rate n a1 (skipn rate out) in
      (a2, blk ++ blks, rest)
  end.

(* sha3.go:153-191: [out] is the destination with its old contents; returns the new contents.
   nread is always len(out) and err nil *)
Definition Read (g : bool) (c0 : state) (out : list Z) : state * list Z :=
  let c := if isSquezing c0 then c0 else finalize_sha3 g c0 in
  let r := rate c in
  let l := Nat.min (idx c) (length out) in
  let part1 := slice (data c) (r - idx c) l in
  let out1 := skipn l out in
  let idx1 := (idx c - l)%nat in
  if (length out1 =? 0)%nat then
    (mkState r (size c) (a c) (sfx c) (data c) idx1 true, part1)
  else
    let nblocks := (length out1 / r)%nat in
    let '(a2, blks, out2) := read_loop g r nblocks (a c) out1 in
    let a3 := keccakF1600 a2 in
    let buf := copyOut g a3 (data c) in
    (mkState r (size c) a3 (sfx c) buf (r - length out2) true,
     part1 ++ blks ++ firstn (length out2) buf).

(* sha3.go:193-211.  A slice argument is its visible bytes [inp] and the bytes [spare] of its
   backing array between len and cap; nil is inp = spare = []. *)
Definition Sum (g : bool) (c : state) (isnil : bool) (inp spare : list Z) : state * list Z :=
  let l := length inp in
  let mem0 := if isnil then repeat 0 (size c) else inp ++ spare in       (* in[:cap(in)] *)
  let mem1 := if (length mem0 <? l + size c)%nat
              then mem0 ++ repeat 0 (l + size c - length mem0) else mem0 in
  let mem2 := firstn (l + size c) mem1 in
  let '(c', out) := Read g c (skipn l mem2) in
  (c', firstn l mem2 ++ out).

(* sha3.go:36-43, 228-254 and shake.go:107-119; a Go struct literal zeroes the other fields *)
Definition new (r d : nat) (s : Z) : state :=
  mkState r d (repeat 0 25) s (repeat 0 maxRate) 0 false.
Definition New224 : state := new 144 28 0x06.
Definition New256 : state := new 136 32 0x06.
Definition New384 : state := new 104 48 0x06.
Definition New512 : state := new 72 64 0x06.
Definition NewShake128 : state := new 168 0 0x1f.
Definition NewShake256 : state := new 136 0 0x1f.

(* shake.go:61-72.  b = 0 || big-endian value; i runs from 1 while i < 8 and b[i] = 0 *)
Fixpoint skip_zeros (b : list Z) (fuel : nat) (i : nat) : nat :=
  match fuel with
  | O => i
  | S f => if ((i <? 8)%nat && (nth i b 0 =? 0))%bool then skip_zeros b f (S i) else i
  end.
Definition leftEncode (value : Z) : list Z :=
  let b := 0 :: be_enc 8 value in
  let i := skip_zeros b 8 1 in
  skipn (i - 1) (upd b (i - 1) (9 - Z.of_nat i)).

(* shake.go:52-59 *)
Definition bytepad (input : list Z) (w : nat) : list Z :=
  let buf := leftEncode (wrap64 (Z.of_nat w)) ++ input in
  buf ++ repeat 0 (w - length buf mod w).

(* shake.go:77-83: the string absorbed first.  len(N)*8 is computed in int and converted to uint64 *)
Definition initBlock_of (N S : list Z) (r : nat) : list Z :=
  bytepad (leftEncode (wrap64 (Z.of_nat (length N) * 8)) ++ N ++
           leftEncode (wrap64 (Z.of_nat (length S) * 8)) ++ S) r.

(* Objects: a plain state (None) or a cshakeState (Some initBlock), shake.go:33-42 *)
Record obj := mkObj { st : state; initBlock : option (list Z) }.

(* shake.go:74-86 *)
Definition newCShake (g : bool) (N S : list Z) (s : Z) (r : nat) : obj :=
  let ib := initBlock_of N S r in
  mkObj (fst (Write g (new r 0 s) ib)) (Some ib).

(* shake.go:121-145 *)
Definition NewCShake128 (g : bool) (N S : list Z) : obj :=
  if ((length N =? 0)%nat && (length S =? 0)%nat)%bool then mkObj NewShake128 None
  else newCShake g N S 0x04 168.
Definition NewCShake256 (g : bool) (N S : list Z) : obj :=
  if ((length N =? 0)%nat && (length S =? 0)%nat)%bool then mkObj NewShake256 None
  else newCShake g N S 0x04 136.

(* sha3.go:80 for plain states, shake.go:88-92 for cSHAKE *)
Definition ResetObj (g : bool) (o : obj) : obj :=
  match initBlock o with
  | None => mkObj (Reset (st o)) None
  | Some ib => mkObj (fst (Write g (Reset (st o)) ib)) (Some ib)
  end.
(* shake.go:94-105: struct copy, and a fresh copy of initBlock *)
Definition CloneObj (o : obj) : obj := mkObj (st o) (initBlock o).

(* shake.go:147-159 *)
Definition ShakeSum128 (g : bool) (hash data : list Z) : list Z :=
  snd (Read g (fst (Write g NewShake128 data)) hash).
Definition ShakeSum256 (g : bool) (hash data : list Z) : list Z :=
  snd (Read g (fst (Write g NewShake256 data)) hash).

Definition step (g : bool) (os : list obj) (p : op) : list obj * res :=
  match p with
  | OWrite h b =>
      match nth_error os h with
      | None => (os, RBad)
      | Some o => let '(s', (n, e)) := Write g (st o) b in
                  (set_obj os h (mkObj s' (initBlock o)), RWrite n e)
      end
  | ORead h out =>
      match nth_error os h with
      | None => (os, RBad)
      | Some o => let '(s', b) := Read g (st o) out in
                  (set_obj os h (mkObj s' (initBlock o)), RBytes b)
      end
  | OSum h isnil inp spare =>
      match nth_error os h with
      | None => (os, RBad)
      | Some o => let '(s', b) := Sum g (st o) isnil inp spare in
                  (set_obj os h (mkObj s' (initBlock o)), RBytes b)
      end
  | OReset h =>
      match nth_error os h with
      | None => (os, RBad)
      | Some o => (set_obj os h (ResetObj g o), RUnit)
      end
  | OClone h =>
      match nth_error os h with
      | None => (os, RBad)
      | Some o => (os ++ [CloneObj o], RUnit)
      end
  end.

Fixpoint run (g : bool) (os : list obj) (ops : list op) : list res :=
  match ops with
  | [] => []
  | p :: t => let '(os', r) := step g os p in r :: run g os' t
  end.
