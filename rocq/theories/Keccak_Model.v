(* Model of hash/sha3/keccakf.go (the portable permutation). *)
From Coq Require Import ZArith List.
From Verif Require Import Lib.
Import ListNotations.
Open Scope Z_scope.

(* math/bits.RotateLeft64 for 0 < k < 64 (Go standard library) *)
Definition RotateLeft64 (x k : Z) : Z :=
  Z.lor (wrap64 (Z.shiftl x k)) (Z.shiftr x (64 - k)).
(* Go's x &^ y *)
Definition bic (x y : Z) : Z := Z.land x (Z.lnot y).
(* a[i] *)
Definition ix (a : list Z) (i : nat) : Z := nth i a 0.

(* keccakf.go:12-37 *)
Definition rc : list Z :=
  [0x0000000000000001;
   0x0000000000008082;
   0x800000000000808A;
   0x8000000080008000;
   0x000000000000808B;
   0x0000000080000001;
   0x8000000080008081;
   0x8000000000008009;
   0x000000000000008A;
   0x0000000000000088;
   0x0000000080008009;
   0x000000008000000A;
   0x000000008000808B;
   0x800000000000008B;
   0x8000000000008089;
   0x8000000000008003;
   0x8000000000008002;
   0x8000000000000080;
   0x000000000000800A;
   0x800000008000000A;
   0x8000000080008081;
   0x8000000000008080;
   0x0000000080000001;
   0x8000000080008008].

(* keccakf.go:50-139 (round 1 of the unrolled loop body); rci is rc[i] *)
Definition round1 (rci : Z) (a : list Z) : list Z :=
  let bc0 := (Z.lxor (Z.lxor (Z.lxor (Z.lxor (ix a 0) (ix a 5)) (ix a 10)) (ix a 15)) (ix a 20)) in
  let bc1 := (Z.lxor (Z.lxor (Z.lxor (Z.lxor (ix a 1) (ix a 6)) (ix a 11)) (ix a 16)) (ix a 21)) in
  let bc2 := (Z.lxor (Z.lxor (Z.lxor (Z.lxor (ix a 2) (ix a 7)) (ix a 12)) (ix a 17)) (ix a 22)) in
  let bc3 := (Z.lxor (Z.lxor (Z.lxor (Z.lxor (ix a 3) (ix a 8)) (ix a 13)) (ix a 18)) (ix a 23)) in
  let bc4 := (Z.lxor (Z.lxor (Z.lxor (Z.lxor (ix a 4) (ix a 9)) (ix a 14)) (ix a 19)) (ix a 24)) in
  let d0 := (Z.lxor bc4 (RotateLeft64 bc1 1)) in
  let d1 := (Z.lxor bc0 (RotateLeft64 bc2 1)) in
  let d2 := (Z.lxor bc1 (RotateLeft64 bc3 1)) in
  let d3 := (Z.lxor bc2 (RotateLeft64 bc4 1)) in
  let d4 := (Z.lxor bc3 (RotateLeft64 bc0 1)) in
  let bc0 := (Z.lxor (ix a 0) d0) in
  let t := (Z.lxor (ix a 6) d1) in
  let bc1 := RotateLeft64 t 44 in
  let t := (Z.lxor (ix a 12) d2) in
  let bc2 := RotateLeft64 t 43 in
  let t := (Z.lxor (ix a 18) d3) in
  let bc3 := RotateLeft64 t 21 in
  let t := (Z.lxor (ix a 24) d4) in
  let bc4 := RotateLeft64 t 14 in
  let a := upd a 0 (Z.lxor (Z.lxor bc0 (bic bc2 bc1)) rci) in
  let a := upd a 6 (Z.lxor bc1 (bic bc3 bc2)) in
  let a := upd a 12 (Z.lxor bc2 (bic bc4 bc3)) in
  let a := upd a 18 (Z.lxor bc3 (bic bc0 bc4)) in
  let a := upd a 24 (Z.lxor bc4 (bic bc1 bc0)) in
  let t := (Z.lxor (ix a 10) d0) in
  let bc2 := RotateLeft64 t 3 in
  let t := (Z.lxor (ix a 16) d1) in
  let bc3 := RotateLeft64 t 45 in
  let t := (Z.lxor (ix a 22) d2) in
  let bc4 := RotateLeft64 t 61 in
  let t := (Z.lxor (ix a 3) d3) in
  let bc0 := RotateLeft64 t 28 in
  let t := (Z.lxor (ix a 9) d4) in
  let bc1 := RotateLeft64 t 20 in
  let a := upd a 10 (Z.lxor bc0 (bic bc2 bc1)) in
  let a := upd a 16 (Z.lxor bc1 (bic bc3 bc2)) in
  let a := upd a 22 (Z.lxor bc2 (bic bc4 bc3)) in
  let a := upd a 3 (Z.lxor bc3 (bic bc0 bc4)) in
  let a := upd a 9 (Z.lxor bc4 (bic bc1 bc0)) in
  let t := (Z.lxor (ix a 20) d0) in
  let bc4 := RotateLeft64 t 18 in
  let t := (Z.lxor (ix a 1) d1) in
  let bc0 := RotateLeft64 t 1 in
  let t := (Z.lxor (ix a 7) d2) in
  let bc1 := RotateLeft64 t 6 in
  let t := (Z.lxor (ix a 13) d3) in
  let bc2 := RotateLeft64 t 25 in
  let t := (Z.lxor (ix a 19) d4) in
  let bc3 := RotateLeft64 t 8 in
  let a := upd a 20 (Z.lxor bc0 (bic bc2 bc1)) in
  let a := upd a 1 (Z.lxor bc1 (bic bc3 bc2)) in
  let a := upd a 7 (Z.lxor bc2 (bic bc4 bc3)) in
  let a := upd a 13 (Z.lxor bc3 (bic bc0 bc4)) in
  let a := upd a 19 (Z.lxor bc4 (bic bc1 bc0)) in
  let t := (Z.lxor (ix a 5) d0) in
  let bc1 := RotateLeft64 t 36 in
  let t := (Z.lxor (ix a 11) d1) in
  let bc2 := RotateLeft64 t 10 in
  let t := (Z.lxor (ix a 17) d2) in
  let bc3 := RotateLeft64 t 15 in
  let t := (Z.lxor (ix a 23) d3) in
  let bc4 := RotateLeft64 t 56 in
  let t := (Z.lxor (ix a 4) d4) in
  let bc0 := RotateLeft64 t 27 in
  let a := upd a 5 (Z.lxor bc0 (bic bc2 bc1)) in
  let a := upd a 11 (Z.lxor bc1 (bic bc3 bc2)) in
  let a := upd a 17 (Z.lxor bc2 (bic bc4 bc3)) in
  let a := upd a 23 (Z.lxor bc3 (bic bc0 bc4)) in
  let a := upd a 4 (Z.lxor bc4 (bic bc1 bc0)) in
  let t := (Z.lxor (ix a 15) d0) in
  let bc3 := RotateLeft64 t 41 in
  let t := (Z.lxor (ix a 21) d1) in
  let bc4 := RotateLeft64 t 2 in
  let t := (Z.lxor (ix a 2) d2) in
  let bc0 := RotateLeft64 t 62 in
  let t := (Z.lxor (ix a 8) d3) in
  let bc1 := RotateLeft64 t 55 in
  let t := (Z.lxor (ix a 14) d4) in
  let bc2 := RotateLeft64 t 39 in
  let a := upd a 15 (Z.lxor bc0 (bic bc2 bc1)) in
  let a := upd a 21 (Z.lxor bc1 (bic bc3 bc2)) in
  let a := upd a 2 (Z.lxor bc2 (bic bc4 bc3)) in
  let a := upd a 8 (Z.lxor bc3 (bic bc0 bc4)) in
  let a := upd a 14 (Z.lxor bc4 (bic bc1 bc0)) in
  a.

(* keccakf.go:141-230 (round 2 of the unrolled loop body); rci is rc[i+1] *)
Definition round2 (rci : Z) (a : list Z) : list Z :=
  let bc0 := (Z.lxor (Z.lxor (Z.lxor (Z.lxor (ix a 0) (ix a 5)) (ix a 10)) (ix a 15)) (ix a 20)) in
  let bc1 := (Z.lxor (Z.lxor (Z.lxor (Z.lxor (ix a 1) (ix a 6)) (ix a 11)) (ix a 16)) (ix a 21)) in
  let bc2 := (Z.lxor (Z.lxor (Z.lxor (Z.lxor (ix a 2) (ix a 7)) (ix a 12)) (ix a 17)) (ix a 22)) in
  let bc3 := (Z.lxor (Z.lxor (Z.lxor (Z.lxor (ix a 3) (ix a 8)) (ix a 13)) (ix a 18)) (ix a 23)) in
  let bc4 := (Z.lxor (Z.lxor (Z.lxor (Z.lxor (ix a 4) (ix a 9)) (ix a 14)) (ix a 19)) (ix a 24)) in
  let d0 := (Z.lxor bc4 (RotateLeft64 bc1 1)) in
  let d1 := (Z.lxor bc0 (RotateLeft64 bc2 1)) in
  let d2 := (Z.lxor bc1 (RotateLeft64 bc3 1)) in
  let d3 := (Z.lxor bc2 (RotateLeft64 bc4 1)) in
  let d4 := (Z.lxor bc3 (RotateLeft64 bc0 1)) in
  let bc0 := (Z.lxor (ix a 0) d0) in
  let t := (Z.lxor (ix a 16) d1) in
  let bc1 := RotateLeft64 t 44 in
  let t := (Z.lxor (ix a 7) d2) in
  let bc2 := RotateLeft64 t 43 in
  let t := (Z.lxor (ix a 23) d3) in
  let bc3 := RotateLeft64 t 21 in
  let t := (Z.lxor (ix a 14) d4) in
  let bc4 := RotateLeft64 t 14 in
  let a := upd a 0 (Z.lxor (Z.lxor bc0 (bic bc2 bc1)) rci) in
  let a := upd a 16 (Z.lxor bc1 (bic bc3 bc2)) in
  let a := upd a 7 (Z.lxor bc2 (bic bc4 bc3)) in
  let a := upd a 23 (Z.lxor bc3 (bic bc0 bc4)) in
  let a := upd a 14 (Z.lxor bc4 (bic bc1 bc0)) in
  let t := (Z.lxor (ix a 20) d0) in
  let bc2 := RotateLeft64 t 3 in
  let t := (Z.lxor (ix a 11) d1) in
  let bc3 := RotateLeft64 t 45 in
  let t := (Z.lxor (ix a 2) d2) in
  let bc4 := RotateLeft64 t 61 in
  let t := (Z.lxor (ix a 18) d3) in
  let bc0 := RotateLeft64 t 28 in
  let t := (Z.lxor (ix a 9) d4) in
  let bc1 := RotateLeft64 t 20 in
  let a := upd a 20 (Z.lxor bc0 (bic bc2 bc1)) in
  let a := upd a 11 (Z.lxor bc1 (bic bc3 bc2)) in
  let a := upd a 2 (Z.lxor bc2 (bic bc4 bc3)) in
  let a := upd a 18 (Z.lxor bc3 (bic bc0 bc4)) in
  let a := upd a 9 (Z.lxor bc4 (bic bc1 bc0)) in
  let t := (Z.lxor (ix a 15) d0) in
  let bc4 := RotateLeft64 t 18 in
  let t := (Z.lxor (ix a 6) d1) in
  let bc0 := RotateLeft64 t 1 in
  let t := (Z.lxor (ix a 22) d2) in
  let bc1 := RotateLeft64 t 6 in
  let t := (Z.lxor (ix a 13) d3) in
  let bc2 := RotateLeft64 t 25 in
  let t := (Z.lxor (ix a 4) d4) in
  let bc3 := RotateLeft64 t 8 in
  let a := upd a 15 (Z.lxor bc0 (bic bc2 bc1)) in
  let a := upd a 6 (Z.lxor bc1 (bic bc3 bc2)) in
  let a := upd a 22 (Z.lxor bc2 (bic bc4 bc3)) in
  let a := upd a 13 (Z.lxor bc3 (bic bc0 bc4)) in
  let a := upd a 4 (Z.lxor bc4 (bic bc1 bc0)) in
  let t := (Z.lxor (ix a 10) d0) in
  let bc1 := RotateLeft64 t 36 in
  let t := (Z.lxor (ix a 1) d1) in
  let bc2 := RotateLeft64 t 10 in
  let t := (Z.lxor (ix a 17) d2) in
  let bc3 := RotateLeft64 t 15 in
  let t := (Z.lxor (ix a 8) d3) in
  let bc4 := RotateLeft64 t 56 in
  let t := (Z.lxor (ix a 24) d4) in
  let bc0 := RotateLeft64 t 27 in
  let a := upd a 10 (Z.lxor bc0 (bic bc2 bc1)) in
  let a := upd a 1 (Z.lxor bc1 (bic bc3 bc2)) in
  let a := upd a 17 (Z.lxor bc2 (bic bc4 bc3)) in
  let a := upd a 8 (Z.lxor bc3 (bic bc0 bc4)) in
  let a := upd a 24 (Z.lxor bc4 (bic bc1 bc0)) in
  let t := (Z.lxor (ix a 5) d0) in
  let bc3 := RotateLeft64 t 41 in
  let t := (Z.lxor (ix a 21) d1) in
  let bc4 := RotateLeft64 t 2 in
  let t := (Z.lxor (ix a 12) d2) in
  let bc0 := RotateLeft64 t 62 in
  let t := (Z.lxor (ix a 3) d3) in
  let bc1 := RotateLeft64 t 55 in
  let t := (Z.lxor (ix a 19) d4) in
  let bc2 := RotateLeft64 t 39 in
  let a := upd a 5 (Z.lxor bc0 (bic bc2 bc1)) in
  let a := upd a 21 (Z.lxor bc1 (bic bc3 bc2)) in
  let a := upd a 12 (Z.lxor bc2 (bic bc4 bc3)) in
  let a := upd a 3 (Z.lxor bc3 (bic bc0 bc4)) in
  let a := upd a 19 (Z.lxor bc4 (bic bc1 bc0)) in
  a.

(* keccakf.go:232-321 (round 3 of the unrolled loop body); rci is rc[i+2] *)
Definition round3 (rci : Z) (a : list Z) : list Z :=
  let bc0 := (Z.lxor (Z.lxor (Z.lxor (Z.lxor (ix a 0) (ix a 5)) (ix a 10)) (ix a 15)) (ix a 20)) in
  let bc1 := (Z.lxor (Z.lxor (Z.lxor (Z.lxor (ix a 1) (ix a 6)) (ix a 11)) (ix a 16)) (ix a 21)) in
  let bc2 := (Z.lxor (Z.lxor (Z.lxor (Z.lxor (ix a 2) (ix a 7)) (ix a 12)) (ix a 17)) (ix a 22)) in
  let bc3 := (Z.lxor (Z.lxor (Z.lxor (Z.lxor (ix a 3) (ix a 8)) (ix a 13)) (ix a 18)) (ix a 23)) in
  let bc4 := (Z.lxor (Z.lxor (Z.lxor (Z.lxor (ix a 4) (ix a 9)) (ix a 14)) (ix a 19)) (ix a 24)) in
  let d0 := (Z.lxor bc4 (RotateLeft64 bc1 1)) in
  let d1 := (Z.lxor bc0 (RotateLeft64 bc2 1)) in
  let d2 := (Z.lxor bc1 (RotateLeft64 bc3 1)) in
  let d3 := (Z.lxor bc2 (RotateLeft64 bc4 1)) in
  let d4 := (Z.lxor bc3 (RotateLeft64 bc0 1)) in
  let bc0 := (Z.lxor (ix a 0) d0) in
  let t := (Z.lxor (ix a 11) d1) in
  let bc1 := RotateLeft64 t 44 in
  let t := (Z.lxor (ix a 22) d2) in
  let bc2 := RotateLeft64 t 43 in
  let t := (Z.lxor (ix a 8) d3) in
  let bc3 := RotateLeft64 t 21 in
  let t := (Z.lxor (ix a 19) d4) in
  let bc4 := RotateLeft64 t 14 in
  let a := upd a 0 (Z.lxor (Z.lxor bc0 (bic bc2 bc1)) rci) in
  let a := upd a 11 (Z.lxor bc1 (bic bc3 bc2)) in
  let a := upd a 22 (Z.lxor bc2 (bic bc4 bc3)) in
  let a := upd a 8 (Z.lxor bc3 (bic bc0 bc4)) in
  let a := upd a 19 (Z.lxor bc4 (bic bc1 bc0)) in
  let t := (Z.lxor (ix a 15) d0) in
  let bc2 := RotateLeft64 t 3 in
  let t := (Z.lxor (ix a 1) d1) in
  let bc3 := RotateLeft64 t 45 in
  let t := (Z.lxor (ix a 12) d2) in
  let bc4 := RotateLeft64 t 61 in
  let t := (Z.lxor (ix a 23) d3) in
  let bc0 := RotateLeft64 t 28 in
  let t := (Z.lxor (ix a 9) d4) in
  let bc1 := RotateLeft64 t 20 in
  let a := upd a 15 (Z.lxor bc0 (bic bc2 bc1)) in
  let a := upd a 1 (Z.lxor bc1 (bic bc3 bc2)) in
  let a := upd a 12 (Z.lxor bc2 (bic bc4 bc3)) in
  let a := upd a 23 (Z.lxor bc3 (bic bc0 bc4)) in
  let a := upd a 9 (Z.lxor bc4 (bic bc1 bc0)) in
  let t := (Z.lxor (ix a 5) d0) in
  let bc4 := RotateLeft64 t 18 in
  let t := (Z.lxor (ix a 16) d1) in
  let bc0 := RotateLeft64 t 1 in
  let t := (Z.lxor (ix a 2) d2) in
  let bc1 := RotateLeft64 t 6 in
  let t := (Z.lxor (ix a 13) d3) in
  let bc2 := RotateLeft64 t 25 in
  let t := (Z.lxor (ix a 24) d4) in
  let bc3 := RotateLeft64 t 8 in
  let a := upd a 5 (Z.lxor bc0 (bic bc2 bc1)) in
  let a := upd a 16 (Z.lxor bc1 (bic bc3 bc2)) in
  let a := upd a 2 (Z.lxor bc2 (bic bc4 bc3)) in
  let a := upd a 13 (Z.lxor bc3 (bic bc0 bc4)) in
  let a := upd a 24 (Z.lxor bc4 (bic bc1 bc0)) in
  let t := (Z.lxor (ix a 20) d0) in
  let bc1 := RotateLeft64 t 36 in
  let t := (Z.lxor (ix a 6) d1) in
  let bc2 := RotateLeft64 t 10 in
  let t := (Z.lxor (ix a 17) d2) in
  let bc3 := RotateLeft64 t 15 in
  let t := (Z.lxor (ix a 3) d3) in
  let bc4 := RotateLeft64 t 56 in
  let t := (Z.lxor (ix a 14) d4) in
  let bc0 := RotateLeft64 t 27 in
  let a := upd a 20 (Z.lxor bc0 (bic bc2 bc1)) in
  let a := upd a 6 (Z.lxor bc1 (bic bc3 bc2)) in
  let a := upd a 17 (Z.lxor bc2 (bic bc4 bc3)) in
  let a := upd a 3 (Z.lxor bc3 (bic bc0 bc4)) in
  let a := upd a 14 (Z.lxor bc4 (bic bc1 bc0)) in
  let t := (Z.lxor (ix a 10) d0) in
  let bc3 := RotateLeft64 t 41 in
  let t := (Z.lxor (ix a 21) d1) in
  let bc4 := RotateLeft64 t 2 in
  let t := (Z.lxor (ix a 7) d2) in
  let bc0 := RotateLeft64 t 62 in
  let t := (Z.lxor (ix a 18) d3) in
  let bc1 := RotateLeft64 t 55 in
  let t := (Z.lxor (ix a 4) d4) in
  let bc2 := RotateLeft64 t 39 in
  let a := upd a 10 (Z.lxor bc0 (bic bc2 bc1)) in
  let a := upd a 21 (Z.lxor bc1 (bic bc3 bc2)) in
  let a := upd a 7 (Z.lxor bc2 (bic bc4 bc3)) in
  let a := upd a 18 (Z.lxor bc3 (bic bc0 bc4)) in
  let a := upd a 4 (Z.lxor bc4 (bic bc1 bc0)) in
  a.

(* keccakf.go:323-412 (round 4 of the unrolled loop body); rci is rc[i+3] *)
Definition round4 (rci : Z) (a : list Z) : list Z :=
  let bc0 := (Z.lxor (Z.lxor (Z.lxor (Z.lxor (ix a 0) (ix a 5)) (ix a 10)) (ix a 15)) (ix a 20)) in
  let bc1 := (Z.lxor (Z.lxor (Z.lxor (Z.lxor (ix a 1) (ix a 6)) (ix a 11)) (ix a 16)) (ix a 21)) in
  let bc2 := (Z.lxor (Z.lxor (Z.lxor (Z.lxor (ix a 2) (ix a 7)) (ix a 12)) (ix a 17)) (ix a 22)) in
  let bc3 := (Z.lxor (Z.lxor (Z.lxor (Z.lxor (ix a 3) (ix a 8)) (ix a 13)) (ix a 18)) (ix a 23)) in
  let bc4 := (Z.lxor (Z.lxor (Z.lxor (Z.lxor (ix a 4) (ix a 9)) (ix a 14)) (ix a 19)) (ix a 24)) in
  let d0 := (Z.lxor bc4 (RotateLeft64 bc1 1)) in
  let d1 := (Z.lxor bc0 (RotateLeft64 bc2 1)) in
  let d2 := (Z.lxor bc1 (RotateLeft64 bc3 1)) in
  let d3 := (Z.lxor bc2 (RotateLeft64 bc4 1)) in
  let d4 := (Z.lxor bc3 (RotateLeft64 bc0 1)) in
  let bc0 := (Z.lxor (ix a 0) d0) in
  let t := (Z.lxor (ix a 1) d1) in
  let bc1 := RotateLeft64 t 44 in
  let t := (Z.lxor (ix a 2) d2) in
  let bc2 := RotateLeft64 t 43 in
  let t := (Z.lxor (ix a 3) d3) in
  let bc3 := RotateLeft64 t 21 in
  let t := (Z.lxor (ix a 4) d4) in
  let bc4 := RotateLeft64 t 14 in
  let a := upd a 0 (Z.lxor (Z.lxor bc0 (bic bc2 bc1)) rci) in
  let a := upd a 1 (Z.lxor bc1 (bic bc3 bc2)) in
  let a := upd a 2 (Z.lxor bc2 (bic bc4 bc3)) in
  let a := upd a 3 (Z.lxor bc3 (bic bc0 bc4)) in
  let a := upd a 4 (Z.lxor bc4 (bic bc1 bc0)) in
  let t := (Z.lxor (ix a 5) d0) in
  let bc2 := RotateLeft64 t 3 in
  let t := (Z.lxor (ix a 6) d1) in
  let bc3 := RotateLeft64 t 45 in
  let t := (Z.lxor (ix a 7) d2) in
  let bc4 := RotateLeft64 t 61 in
  let t := (Z.lxor (ix a 8) d3) in
  let bc0 := RotateLeft64 t 28 in
  let t := (Z.lxor (ix a 9) d4) in
  let bc1 := RotateLeft64 t 20 in
  let a := upd a 5 (Z.lxor bc0 (bic bc2 bc1)) in
  let a := upd a 6 (Z.lxor bc1 (bic bc3 bc2)) in
  let a := upd a 7 (Z.lxor bc2 (bic bc4 bc3)) in
  let a := upd a 8 (Z.lxor bc3 (bic bc0 bc4)) in
  let a := upd a 9 (Z.lxor bc4 (bic bc1 bc0)) in
  let t := (Z.lxor (ix a 10) d0) in
  let bc4 := RotateLeft64 t 18 in
  let t := (Z.lxor (ix a 11) d1) in
  let bc0 := RotateLeft64 t 1 in
  let t := (Z.lxor (ix a 12) d2) in
  let bc1 := RotateLeft64 t 6 in
  let t := (Z.lxor (ix a 13) d3) in
  let bc2 := RotateLeft64 t 25 in
  let t := (Z.lxor (ix a 14) d4) in
  let bc3 := RotateLeft64 t 8 in
  let a := upd a 10 (Z.lxor bc0 (bic bc2 bc1)) in
  let a := upd a 11 (Z.lxor bc1 (bic bc3 bc2)) in
  let a := upd a 12 (Z.lxor bc2 (bic bc4 bc3)) in
  let a := upd a 13 (Z.lxor bc3 (bic bc0 bc4)) in
  let a := upd a 14 (Z.lxor bc4 (bic bc1 bc0)) in
  let t := (Z.lxor (ix a 15) d0) in
  let bc1 := RotateLeft64 t 36 in
  let t := (Z.lxor (ix a 16) d1) in
  let bc2 := RotateLeft64 t 10 in
  let t := (Z.lxor (ix a 17) d2) in
  let bc3 := RotateLeft64 t 15 in
  let t := (Z.lxor (ix a 18) d3) in
  let bc4 := RotateLeft64 t 56 in
  let t := (Z.lxor (ix a 19) d4) in
  let bc0 := RotateLeft64 t 27 in
  let a := upd a 15 (Z.lxor bc0 (bic bc2 bc1)) in
  let a := upd a 16 (Z.lxor bc1 (bic bc3 bc2)) in
  let a := upd a 17 (Z.lxor bc2 (bic bc4 bc3)) in
  let a := upd a 18 (Z.lxor bc3 (bic bc0 bc4)) in
  let a := upd a 19 (Z.lxor bc4 (bic bc1 bc0)) in
  let t := (Z.lxor (ix a 20) d0) in
  let bc3 := RotateLeft64 t 41 in
  let t := (Z.lxor (ix a 21) d1) in
  let bc4 := RotateLeft64 t 2 in
  let t := (Z.lxor (ix a 22) d2) in
  let bc0 := RotateLeft64 t 62 in
  let t := (Z.lxor (ix a 23) d3) in
  let bc1 := RotateLeft64 t 55 in
  let t := (Z.lxor (ix a 24) d4) in
  let bc2 := RotateLeft64 t 39 in
  let a := upd a 20 (Z.lxor bc0 (bic bc2 bc1)) in
  let a := upd a 21 (Z.lxor bc1 (bic bc3 bc2)) in
  let a := upd a 22 (Z.lxor bc2 (bic bc4 bc3)) in
  let a := upd a 23 (Z.lxor bc3 (bic bc0 bc4)) in
  let a := upd a 24 (Z.lxor bc4 (bic bc1 bc0)) in
  a.

(* keccakf.go:46-414: for i := 0; i < 24; i += 4, body = four rounds *)
Definition quad (a : list Z) (i : nat) : list Z :=
  round4 (nth (i + 3) rc 0) (round3 (nth (i + 2) rc 0)
    (round2 (nth (i + 1) rc 0) (round1 (nth i rc 0) a))).
Definition keccakF1600 (a : list Z) : list Z :=
  fold_left quad [0; 4; 8; 12; 16; 20]%nat a.
