(* The multi-recipient KEM of Katsumata, Kwiatkowski, Pintore and Prest ("Scalable ciphertext compression
   techniques for post-quantum KEMs and their applications", 2020) on top of a SIDH key agreement, with the
   random oracles SHAKE256(1 || .), SHAKE256(2 || .), SHAKE256(3 || .). *)
From Coq Require Import ZArith List Bool.
From Verif Require Import Lib Sha3_Spec SIDH_Consts SIDH_Field SIDH_Curve SIDH_Api SIKE_Spec.
Import ListNotations.
Open Scope Z_scope.

(* r = G1(m) mod 2^eA, the ephemeral key common to all recipients *)
Definition mkemScalar (P : sidhParams) (m : list Z) : list Z :=
  let n := Z.to_nat (SecretByteLen (pA P)) in
  le_enc n (le_dec (shake256 (1 :: m) n) mod 2 ^ SecretBitLen (pA P)).
Definition mkemEph (P : sidhParams) (m : list Z) : prvKey := mkPrv P KeyVariantSidhA (mkemScalar P m) [].
(* the common part of the ciphertext *)
Definition mkemCt0 (P : sidhParams) (m : list Z) : list Z := exported (pubOf (mkemEph P m)).
(* the part for one recipient: G2(j) xor m *)
Definition mkemCti (P : sidhParams) (m : list Z) (pub : pubKey) : list Z := pad (2 :: sharedOf (mkemEph P m) pub) m.
(* the common secret *)
Definition mkemKey (P : sidhParams) (m : list Z) : list Z := shake256 (3 :: m) (Z.to_nat (KemSize P)).
(* what a recipient decrypts *)
Definition mkemMsg (P : sidhParams) (sk : prvKey) (c0 ci : list Z) : list Z := pad (2 :: sharedOf sk (keyOf P KeyVariantSidhA c0)) ci.
(* decapsulation as in the paper: compare with the encryption of the decrypted message *)
Definition mkemDecaps (P : sidhParams) (sk : prvKey) (pub : pubKey) (c0 ci : list Z) : list Z :=
  let m := mkemMsg P sk c0 ci in
  mkemKey P (if list_eq_dec Z.eq_dec (mkemCt0 P m ++ mkemCti P m pub) (c0 ++ ci) then m else prvS sk).
