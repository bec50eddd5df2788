(* What SIKE (the SIKE submission, section 1.3) computes on top of a SIDH key agreement and SHAKE256.
   The key agreement enters only through the exported API of dh/sidh (see P_SIDH_Api for its properties). *)
From Coq Require Import ZArith List Bool.
From Verif Require Import Lib Sha3_Spec SIDH_Consts SIDH_Field SIDH_Curve SIDH_Api.
Import ListNotations.
Open Scope Z_scope.

Definition freshKey (P : sidhParams) (v : Z) : pubKey := let z := zeroFp2 (pField P) in mkPub P v (z, z, z).
Definition orNil {A : Type} (x : res (list A)) : list A := match x with Ret l => l | Panic => [] end.
(* the wire form of a public key *)
Definition exported (k : pubKey) : list Z := orNil (pubExport k (repeat 0 (Z.to_nat (PublicKeySize (pubParams k))))).
(* the shared j-invariant *)
Definition sharedOf (k : prvKey) (pub : pubKey) : list Z := orNil (DeriveSecret k (repeat 0 (Z.to_nat (SharedSecretSize (prvParams k)))) pub).
(* the public key of a private key *)
Definition pubOf (k : prvKey) : pubKey :=
  match GeneratePublicKey k (freshKey (prvParams k) (prvVariant k)) with Ret p => p | Panic => freshKey (prvParams k) (prvVariant k) end.
(* the public key with a given wire form *)
Definition keyOf (P : sidhParams) (v : Z) (b : list Z) : pubKey :=
  match pubImport (freshKey P v) b with Ret (k, _) => k | Panic => freshKey P v end.

(* r = G(m || pk) mod 2^eA *)
Definition ephScalar (P : sidhParams) (m pk : list Z) : list Z :=
  let n := Z.to_nat (SecretByteLen (pA P)) in
  le_enc n (le_dec (shake256 (m ++ pk) n) mod 2 ^ SecretBitLen (pA P)).
Definition ephKey (P : sidhParams) (m pk : list Z) : prvKey := mkPrv P KeyVariantSidhA (ephScalar P m pk) [].
(* Enc(pk, m; r) = (c0, c1) *)
Definition sikeC0 (P : sidhParams) (m pk : list Z) : list Z := exported (pubOf (ephKey P m pk)).
Definition pad (j : list Z) (m : list Z) : list Z := xor_list (shake256 j (length m)) m.
Definition sikeCt (P : sidhParams) (m : list Z) (pub : pubKey) : list Z :=
  sikeC0 P m (exported pub) ++ pad (sharedOf (ephKey P m (exported pub)) pub) m.
(* Dec(sk, (c0, c1)) *)
Definition sikeMsg (P : sidhParams) (sk : prvKey) (ct : list Z) : list Z :=
  let n := Z.to_nat (PublicKeySize P) in
  pad (sharedOf sk (keyOf P KeyVariantSidhA (firstn n ct))) (skipn n ct).
(* K = H(m || c) *)
Definition sikeKey (P : sidhParams) (m ct : list Z) : list Z := shake256 (m ++ ct) (Z.to_nat (KemSize P)).
(* Decaps: the message when the re-encryption matches c0, the secret S otherwise *)
Definition sikeDecaps (P : sidhParams) (sk : prvKey) (pub : pubKey) (ct : list Z) : list Z :=
  let m := sikeMsg P sk ct in
  sikeKey P (if list_eq_dec Z.eq_dec (sikeC0 P m (exported pub)) (firstn (Z.to_nat (PublicKeySize P)) ct) then m else prvS sk) ct.
