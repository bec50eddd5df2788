(* Model of the alternative API at the end of dh/sidh/sidh.go.  The functions GeneratePublicKey and DeriveSecret there
   (lines 317-323) call the methods of SIDH_Api.v with the same arguments.  PublicKey has no Init of its own: Key.Init is promoted. *)
From Coq Require Import ZArith List.
From Verif Require Import Lib MP Instr SIDH_Consts SIDH_Field SIDH_Curve SIDH_Api.
Import ListNotations.
Open Scope Z_scope.

(* GeneratePrivateKey, sidh.go:313-315: the error of Generate is dropped; the key and the source afterwards *)
Definition GeneratePrivateKey (k : prvKey) (rng : list Z) : res (prvKey * list Z) :=
  bind (Generate k rng) (fun '(k', rest, _) => Ret (k', rest)).
(* Key.Init of a public key, sidh.go:293-299, with the identifier of the field the key has already: the point arrays stay.
   (With another identifier the new field would see the leading words of the old arrays; not modelled.) *)
Definition pubInit (r : registry) (k : pubKey) (v : Z) : res pubKey :=
  bind (Params r (pID (pubParams k))) (fun P => Ret (mkPub P v (affine3Pt k))).
