(* SM3 as defined by GB/T 32905-2016 / draft-shen-sm3-hash-01, written from the standard. *)
From Coq Require Import ZArith List.
From Verif Require Import Lib.
Import ListNotations.
Open Scope Z_scope.

(* "<<< k": cyclic left shift of a 32-bit word by k bits *)
Definition rol (k x : Z) : Z := Z.lor ((x * 2 ^ k) mod 2 ^ 32) (x / 2 ^ (32 - k)).

(* 4.1 initial value *)
Definition IV : list Z :=
  [0x7380166F; 0x4914B2B9; 0x172442D7; 0xDA8A0600; 0xA96F30BC; 0x163138AA; 0xE38DEE4D; 0xB0FB0E4E].
(* 4.2 constants *)
Definition T (j : nat) : Z := if (j <? 16)%nat then 0x79CC4519 else 0x7A879D8A.
(* 4.3 boolean functions *)
Definition FF (j : nat) (X Y Z' : Z) : Z :=
  if (j <? 16)%nat then Z.lxor (Z.lxor X Y) Z'
  else Z.lor (Z.lor (Z.land X Y) (Z.land X Z')) (Z.land Y Z').
Definition GG (j : nat) (X Y Z' : Z) : Z :=
  if (j <? 16)%nat then Z.lxor (Z.lxor X Y) Z'
  else Z.lor (Z.land X Y) (Z.land (Z.lnot X) Z').
(* 4.4 permutation functions *)
Definition P0 (X : Z) : Z := Z.lxor (Z.lxor X (rol 9 X)) (rol 17 X).
Definition P1 (X : Z) : Z := Z.lxor (Z.lxor X (rol 15 X)) (rol 23 X).

(* 5.2 padding: bit 1, zeros up to 448 mod 512, 64-bit bit length (here for byte messages;
   lengths of 2^61 bytes and more are outside the standard and taken modulo 2^64 bits) *)
Definition pad (m : list Z) : list Z :=
  let l := Z.of_nat (length m) in
  m ++ [0x80] ++ repeat 0 (Z.to_nat ((55 - l) mod 64)) ++ be_enc 8 (8 * l).

(* 5.3.2 message expansion: sixteen words W0..W15, then up to W67, and W'j = Wj xor Wj+4 *)
Definition next_word (W : list Z) (j : nat) : Z :=
  let w i := nth i W 0 in
  Z.lxor (Z.lxor (P1 (Z.lxor (Z.lxor (w (j - 16)%nat) (w (j - 9)%nat)) (rol 15 (w (j - 3)%nat))))
                 (rol 7 (w (j - 13)%nat)))
         (w (j - 6)%nat).
Fixpoint extend (n : nat) (W : list Z) : list Z :=
  match n with
  | O => W
  | S n' => extend n' (W ++ [next_word W (length W)])
  end.
Definition words (B : list Z) : list Z := map be_dec (chunks 4 B).
Definition expanded (B : list Z) : list Z := extend 52 (words B).
Definition Wj (B : list Z) (j : nat) : Z := nth j (expanded B) 0.
Definition W'j (B : list Z) (j : nat) : Z := Z.lxor (Wj B j) (Wj B (j + 4)).

(* 5.3.3 compression function *)
Record regs := R { rA : Z; rB : Z; rC : Z; rD : Z; rE : Z; rF : Z; rG : Z; rH : Z }.
Definition of_list (v : list Z) : regs :=
  R (nth 0 v 0) (nth 1 v 0) (nth 2 v 0) (nth 3 v 0) (nth 4 v 0) (nth 5 v 0) (nth 6 v 0) (nth 7 v 0).
Definition to_list (r : regs) : list Z := [rA r; rB r; rC r; rD r; rE r; rF r; rG r; rH r].

Definition round (B : list Z) (j : nat) (r : regs) : regs :=
  let SS1 := rol 7 ((rol 12 (rA r) + rE r + rol (Z.of_nat j mod 32) (T j)) mod 2 ^ 32) in
  let SS2 := Z.lxor SS1 (rol 12 (rA r)) in
  let TT1 := (FF j (rA r) (rB r) (rC r) + rD r + SS2 + W'j B j) mod 2 ^ 32 in
  let TT2 := (GG j (rE r) (rF r) (rG r) + rH r + SS1 + Wj B j) mod 2 ^ 32 in
  R TT1 (rA r) (rol 9 (rB r)) (rC r) (P0 TT2) (rE r) (rol 19 (rF r)) (rG r).

Fixpoint rounds (B : list Z) (n : nat) (r : regs) : regs :=
  match n with
  | O => r
  | S n' => round B n' (rounds B n' r)
  end.
Definition CF (V B : list Z) : list Z := xor_list V (to_list (rounds B 64 (of_list V))).

(* 5.3.1 iteration and 5.4 output *)
Definition iterate (V : list Z) (blocks : list (list Z)) : list Z := fold_left CF blocks V.
Definition sm3 (m : list Z) : list Z :=
  concat (map (be_enc 4) (iterate IV (chunks 64 (pad m)))).
