(* The CSIDH functions and kem/mkem/csidh.go on the generator they are given there, a *drbg.CtrDrbg (csidh.go:22-25): every read is of 64 bytes
   (dh/csidh/csidh.go:44-64, 199-241), so a supply of k reads is the list of their results one after the other. *)
From Coq Require Import ZArith List Bool.
From Verif Require Import Lib DRBG_Model Sha3_Iface Sha3_Model CSIDH_Model CPKE_Spec CPKE_Model.
Import ListNotations.
Open Scope Z_scope.

(* k reads of a 64-byte buffer; None is a panic *)
Fixpoint draw (k : nat) (d : CtrDrbg) : option (CtrDrbg * list Z) :=
  match k with
  | O => Some (d, [])
  | S k => match DRBG_Model.Read d (repeat 0 64) with
           | None => None
           | Some (d, o, _) => match draw k d with None => None | Some (d, l) => Some (d, o ++ l) end
           end
  end.
(* A call that takes a source and returns what is left of it, run on the generator d: some number of reads is exactly what it takes; d' is the generator afterwards *)
Definition onDrbg {X : Type} (f : list Z -> option (X * list Z)) (d d' : CtrDrbg) (x : X) : Prop :=
  exists k l, draw k d = Some (d', l) /\ f l = Some (x, []).

(* the calls in that form; failing ones are None *)
Definition srcPriv (rng : list Z) : option (list Z * list Z) := let '(err, e, r) := generatePrivateKey rng in if (err : bool) then None else Some (e, r).
Definition srcPub (e rng : list Z) : option (list Z * list Z) := match generatePublicKey e rng with Panic => None | Ret r => Some r end.
Definition srcValid (a rng : list Z) : option (bool * list Z) := match validate a rng with Panic => None | Ret r => Some r end.
Definition srcSecret (out a e rng : list Z) : option ((bool * list Z) * list Z) := match deriveSecret out a e rng with Panic => None | Ret r => Some r end.
Definition srcEnc (g : bool) (h : state) (pk pt rng : list Z) : option ((state * (list Z * list Z)) * list Z) :=
  match pkeEnc g (Some (mkPke rng h)) pk pt with Panic => None | Ret (c, ct) => Some ((pH c, ct), pRng c) end.
Definition srcDec (g : bool) (h : state) (sk U V rng : list Z) : option ((state * list Z) * list Z) :=
  match pkeDec g (Some (mkPke rng h)) sk U V with Panic => None | Ret (c, m) => Some ((pH c, m), pRng c) end.
Definition srcEncrypt (g : bool) (h : state) (ct0 : list Z) (cts keys : list (list Z)) (pt rng : list Z) : option ((state * list Z * list (list Z)) * list Z) :=
  match mpkeEncrypt g (Some (mkMpke (mkPke rng h) ct0 cts)) keys pt with Panic => None | Ret c => Some ((pH (mP c), mCt0 c, mCts c), pRng (mP c)) end.
