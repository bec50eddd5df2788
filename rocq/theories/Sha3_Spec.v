(* FIPS 202 (sponge, SHA-3, SHAKE) and SP 800-185 (cSHAKE), written from the standards.
   Messages are byte strings; padding and domain suffixes are at bit level. *)
From Coq Require Import ZArith List Bool.
From Verif Require Import Lib Keccak_Spec.
Import ListNotations.
Open Scope Z_scope.

(* FIPS 202 B.1: bytes and bit strings, least significant bit first *)
Definition bits_of_byte (b : Z) : list bool :=
  [Z.testbit b 0; Z.testbit b 1; Z.testbit b 2; Z.testbit b 3;
   Z.testbit b 4; Z.testbit b 5; Z.testbit b 6; Z.testbit b 7].
Definition bits_of_bytes (l : list Z) : list bool := flat_map bits_of_byte l.
Fixpoint bytes_of_bits (l : list bool) : list Z :=
  match l with
  | b0 :: b1 :: b2 :: b3 :: b4 :: b5 :: b6 :: b7 :: t =>
      (Z.b2z b0 + 2 * Z.b2z b1 + 4 * Z.b2z b2 + 8 * Z.b2z b3 + 16 * Z.b2z b4 + 32 * Z.b2z b5
       + 64 * Z.b2z b6 + 128 * Z.b2z b7) :: bytes_of_bits t
  | _ => []
  end.

(* 5.1 pad10*1(x, m) *)
Definition pad10star1 (x m : Z) : list bool :=
  [true] ++ repeat false (Z.to_nat ((- m - 2) mod x)) ++ [true].

(* the permutation on a 200-byte string (3.1.2: lanes are little-endian) *)
Definition lanes_of (S : list Z) : list Z := map le_dec (chunks 8 S).
Definition string_of (A : list Z) : list Z := concat (map (le_enc 8) A).
Definition perm (S : list Z) : list Z := string_of (keccak_p (lanes_of S)).

(* 4: SPONGE with rate r bytes; [N] is the message with suffix, [d] the output length in bytes *)
Definition absorb1 (r : nat) (S P : list Z) : list Z := perm (xor_list S (P ++ repeat 0 (200 - r))).
Definition absorb (r : nat) (P : list Z) : list Z :=
  fold_left (absorb1 r) (chunks r P) (repeat 0 200).
Fixpoint squeeze (r : nat) (n : nat) (S : list Z) : list Z :=   (* n blocks of r bytes *)
  match n with
  | O => []
  | S n' => firstn r S ++ squeeze r n' (perm S)
  end.
Definition padded (r : nat) (N : list bool) : list Z :=
  bytes_of_bits (N ++ pad10star1 (8 * Z.of_nat r) (Z.of_nat (length N))).
Definition sponge (r : nat) (N : list bool) (d : nat) : list Z :=
  firstn d (squeeze r (d / r + 1) (absorb r (padded r N))).

(* 6.1 and 6.2: Keccak[c] has rate 1600-c bits; suffixes 01 and 1111 *)
Definition suffix_sha3 : list bool := [false; true].
Definition suffix_shake : list bool := [true; true; true; true].
Definition sha3_224 (M : list Z) : list Z := sponge 144 (bits_of_bytes M ++ suffix_sha3) 28.
Definition sha3_256 (M : list Z) : list Z := sponge 136 (bits_of_bytes M ++ suffix_sha3) 32.
Definition sha3_384 (M : list Z) : list Z := sponge 104 (bits_of_bytes M ++ suffix_sha3) 48.
Definition sha3_512 (M : list Z) : list Z := sponge 72 (bits_of_bytes M ++ suffix_sha3) 64.
Definition shake128 (M : list Z) (d : nat) : list Z := sponge 168 (bits_of_bytes M ++ suffix_shake) d.
Definition shake256 (M : list Z) (d : nat) : list Z := sponge 136 (bits_of_bytes M ++ suffix_shake) d.

(* SP 800-185 2.3: left_encode, encode_string, bytepad (byte-oriented) *)
Definition left_encode_bytes (x : Z) : nat :=       (* smallest n >= 1 with 256^n > x *)
  Z.to_nat (if x =? 0 then 1 else Z.log2 x / 8 + 1).
Definition left_encode (x : Z) : list Z :=
  let n := left_encode_bytes x in Z.of_nat n :: be_enc n x.
Definition encode_string (S : list Z) : list Z := left_encode (8 * Z.of_nat (length S)) ++ S.
Definition bytepad (X : list Z) (w : nat) : list Z :=
  let z := left_encode (Z.of_nat w) ++ X in
  z ++ repeat 0 (Z.to_nat ((- Z.of_nat (length z)) mod Z.of_nat w)).
Definition suffix_cshake : list bool := [false; false].
Definition cshake (r : nat) (X : list Z) (d : nat) (N S : list Z) : list Z :=
  match N, S with
  | [], [] => sponge r (bits_of_bytes X ++ suffix_shake) d
  | _, _ => sponge r (bits_of_bytes (bytepad (encode_string N ++ encode_string S) r ++ X) ++ suffix_cshake) d
  end.
Definition cshake128 := cshake 168.
Definition cshake256 := cshake 136.
