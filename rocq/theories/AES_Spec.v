(* FIPS-197, written from the standard.  Bytes are Z; the state is the list of 16 bytes
   in_0..in_15 of Figure 3 (entry r + 4c is row r, column c); a word is a list of 4 bytes. *)
From Coq Require Import ZArith List Bool.
From Verif Require Import Lib.
Import ListNotations.
Open Scope Z_scope.

(* 4.2.1 multiplication by x *)
Definition xtime (b : Z) : Z := if 2 * b <? 256 then 2 * b else Z.lxor (2 * b) 0x11b.
(* 4.2 multiplication in GF(2^8): sum over the bits of a of b * x^i *)
Fixpoint gmul_bits (n : nat) (a b : Z) : Z :=
  match n with
  | O => 0
  | S n' => Z.lxor (if Z.odd a then b else 0) (gmul_bits n' (Z.div2 a) (xtime b))
  end.
Definition gmul (a b : Z) : Z := gmul_bits 8 a b.

(* multiplicative inverse with 0 -> 0, as the 254th power *)
Definition ginv (x : Z) : Z :=
  let x2 := gmul x x in let x4 := gmul x2 x2 in let x8 := gmul x4 x4 in
  let x16 := gmul x8 x8 in let x32 := gmul x16 x16 in let x64 := gmul x32 x32 in
  let x128 := gmul x64 x64 in
  gmul x128 (gmul x64 (gmul x32 (gmul x16 (gmul x8 (gmul x4 x2))))).

Definition bitsum (l : list bool) : Z := fold_right (fun b acc => Z.b2z b + 2 * acc) 0 l.
Definition bit (b : Z) (i : nat) : bool := Z.testbit b (Z.of_nat (i mod 8)).
(* 5.1.1 (5.1): affine transformation with constant 63 *)
Definition affine (b : Z) : Z :=
  bitsum (map (fun i => xorb (bit b i) (xorb (bit b (i + 4)) (xorb (bit b (i + 5))
            (xorb (bit b (i + 6)) (xorb (bit b (i + 7)) (bit 0x63 i)))))) (seq 0 8)).
Definition SubByte (b : Z) : Z := affine (ginv b).
(* 5.3.2: inverse affine transformation, then inverse *)
Definition inv_affine (b : Z) : Z :=
  bitsum (map (fun i => xorb (bit b (i + 2)) (xorb (bit b (i + 5)) (xorb (bit b (i + 7)) (bit 0x05 i)))) (seq 0 8)).
Definition InvSubByte (b : Z) : Z := ginv (inv_affine b).

Definition SubBytes (s : list Z) : list Z := map SubByte s.
Definition InvSubBytes (s : list Z) : list Z := map InvSubByte s.
(* 5.1.2: s'[r,c] = s[r, (c + r) mod 4] *)
Definition ShiftRows (s : list Z) : list Z :=
  map (fun i => let r := (i mod 4)%nat in let c := (i / 4)%nat in nth (r + 4 * ((c + r) mod 4)) s 0) (seq 0 16).
(* 5.3.1: s'[r, (c + r) mod 4] = s[r, c] *)
Definition InvShiftRows (s : list Z) : list Z :=
  map (fun i => let r := (i mod 4)%nat in let c := (i / 4)%nat in nth (r + 4 * ((c + (4 - r)) mod 4)) s 0) (seq 0 16).
(* 5.1.3 and 5.3.3: one column times the circulant of (a0, a1, a2, a3) *)
Definition mixcol (a0 a1 a2 a3 : Z) (c : list Z) : list Z :=
  let s i := nth i c 0 in
  let x4 p q r t := Z.lxor p (Z.lxor q (Z.lxor r t)) in
  [x4 (gmul a0 (s 0%nat)) (gmul a1 (s 1%nat)) (gmul a2 (s 2%nat)) (gmul a3 (s 3%nat));
   x4 (gmul a3 (s 0%nat)) (gmul a0 (s 1%nat)) (gmul a1 (s 2%nat)) (gmul a2 (s 3%nat));
   x4 (gmul a2 (s 0%nat)) (gmul a3 (s 1%nat)) (gmul a0 (s 2%nat)) (gmul a1 (s 3%nat));
   x4 (gmul a1 (s 0%nat)) (gmul a2 (s 1%nat)) (gmul a3 (s 2%nat)) (gmul a0 (s 3%nat))].
Definition columns (s : list Z) : list (list Z) := chunks 4 s.
Definition MixColumns (s : list Z) : list Z := concat (map (mixcol 2 3 1 1) (columns s)).
Definition InvMixColumns (s : list Z) : list Z := concat (map (mixcol 0xe 0xb 0xd 0x9) (columns s)).

(* 5.2 key expansion *)
Definition SubWord (w : list Z) : list Z := map SubByte w.
Definition RotWord (w : list Z) : list Z := skipn 1 w ++ firstn 1 w.
Fixpoint xpow (n : nat) : Z := match n with O => 1 | S n' => xtime (xpow n') end.
Definition Rcon (i : nat) : list Z := [xpow (i - 1); 0; 0; 0].
Definition next_word (Nk : nat) (w : list (list Z)) : list Z :=
  let i := length w in
  let temp := nth (i - 1) w [] in
  let temp := if (i mod Nk =? 0)%nat then xor_list (SubWord (RotWord temp)) (Rcon (i / Nk))
              else if ((6 <? Nk) && (i mod Nk =? 4))%nat then SubWord temp else temp in
  xor_list (nth (i - Nk) w []) temp.
Fixpoint expand (Nk : nat) (n : nat) (w : list (list Z)) : list (list Z) :=
  match n with O => w | S n' => expand Nk n' (w ++ [next_word Nk w]) end.
(* Nr = Nk + 6; 4 (Nr + 1) words *)
Definition KeyExpansion (key : list Z) : list (list Z) :=
  let Nk := (length key / 4)%nat in
  expand Nk (4 * (Nk + 7) - Nk) (chunks 4 key).

Definition round_key (w : list (list Z)) (r : nat) : list Z := concat (firstn 4 (skipn (4 * r) w)).
Definition AddRoundKey (w : list (list Z)) (r : nat) (s : list Z) : list Z := xor_list s (round_key w r).

(* 5.1 Cipher *)
Definition Cipher (Nr : nat) (w : list (list Z)) (inp : list Z) : list Z :=
  let s := AddRoundKey w 0 inp in
  let s := fold_left (fun s r => AddRoundKey w r (MixColumns (ShiftRows (SubBytes s)))) (seq 1 (Nr - 1)) s in
  AddRoundKey w Nr (ShiftRows (SubBytes s)).
(* 5.3 InvCipher *)
Definition InvCipher (Nr : nat) (w : list (list Z)) (inp : list Z) : list Z :=
  let s := AddRoundKey w Nr inp in
  let s := fold_left (fun s r => InvMixColumns (AddRoundKey w r (InvSubBytes (InvShiftRows s))))
             (rev (seq 1 (Nr - 1))) s in
  AddRoundKey w 0 (InvSubBytes (InvShiftRows s)).

Definition AES_encrypt (key blk : list Z) : list Z :=
  Cipher (length key / 4 + 6) (KeyExpansion key) blk.
Definition AES_decrypt (key blk : list Z) : list Z :=
  InvCipher (length key / 4 + 6) (KeyExpansion key) blk.
Definition key_ok (key : list Z) : Prop :=
  bytes key /\ (length key = 16%nat \/ length key = 24%nat \/ length key = 32%nat).
Definition block_ok (b : list Z) : Prop := bytes b /\ length b = 16%nat.
