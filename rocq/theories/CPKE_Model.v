(* Model of kem/mkem/csidh.go: CSIDH based public key encryption, to one and to many recipients.
   An object whose Allocate has not run is None (its methods dereference a nil pointer and panic).
   Rng is the list of bytes the generator will still deliver: every use in this file is a read of 64 bytes;
   CtrDrbg.Read itself never fails, a list that runs out makes the calls that need it panic or, in
   GeneratePrivateKey, return an error that the callers ignore.  The hash is the SHA-3 model's state object; g selects the
   generic or unaligned xorIn/copyOut.  pt, pk, sk and ct are not nil. *)
From Coq Require Import ZArith List Lia Bool.
From Verif Require Import Lib Sha3_Iface Sha3_Model CSIDH_Model CPKE_Spec.
Import ListNotations.
Open Scope Z_scope.

(* csidh.go:22-25 *)
Record pke : Type := mkPke { pRng : list Z; pH : state }.
(* csidh.go:27-33 *)
Record mpke : Type := mkMpke { mP : pke; mCt0 : list Z; mCts : list (list Z) }.

(* csidh.go:36-41 *)
Definition pkeAllocate (rng : list Z) : pke := mkPke rng NewShake128.
(* csidh.go:44-47: Ct0 keeps what it held *)
Definition mpkeAllocate (n : Z) (rng ct0 : list Z) : mpke := mkMpke (pkeAllocate rng) ct0 (repeat (repeat 0 64) (Z.to_nat n)).

(* for i := 0; i < 16; i++ { dst[i] = x[i] ^ ss[i] } *)
Definition xor16 (dst x ss : list Z) : list Z := map (fun i => Z.lxor (nth i x 0) (nth i ss 0)) (seq 0 16) ++ skipn 16 dst.
(* c.H.Write(ss[:]); c.H.Read(ss[:16]) *)
Definition hashSs (g : bool) (h : state) (ss : list Z) : state * list Z :=
  let h := fst (Write g h ss) in
  let '(h, o) := Read g h (firstn 16 ss) in
  (h, o ++ skipn 16 ss).

(* PKE.Enc, csidh.go:50-70 *)
Definition pkeEnc (g : bool) (c : option pke) (pk pt : list Z) : res (pke * (list Z * list Z)) :=
  match c with None => Panic | Some c =>
  let '(_, skA, rng) := generatePrivateKey (pRng c) in
  match deriveSecret (repeat 0 64) pk skA rng with
  | Panic => Panic
  | Ret (_, ss, rng) =>
    let h := Reset (pH c) in
    let '(h, ss) := hashSs g h ss in
    let V := xor16 (repeat 0 64) pt ss in
    match generatePublicKey skA rng with
    | Panic => Panic
    | Ret (pkA, rng) => Ret (mkPke rng h, (snd (pubExport pkA (repeat 0 64)), V))
    end
  end end.

(* PKE.Dec, csidh.go:73-88 *)
Definition pkeDec (g : bool) (c : option pke) (sk U V : list Z) : res (pke * list Z) :=
  match c with None => Panic | Some c =>
  let pk := snd (pubImport (repeat 0 8) U) in
  match deriveSecret (repeat 0 64) pk sk (pRng c) with
  | Panic => Panic
  | Ret (_, ss, rng) =>
    let h := Reset (pH c) in
    let '(h, ss) := hashSs g h ss in
    Ret (mkPke rng h, xor16 (repeat 0 16) V ss)
  end end.

(* the loop of MultiPKE.Encrypt, csidh.go:97-106 *)
Fixpoint encryptLoop (g : bool) (h : state) (ss skA rng pt : list Z) (cts : list (list Z)) (i : nat) (keys : list (list Z)) : res (state * list Z * list (list Z)) :=
  match keys with
  | [] => Ret (h, rng, cts)
  | pk :: keys =>
    match deriveSecret ss pk skA rng with
    | Panic => Panic
    | Ret (_, ss, rng) =>
      let '(h, ss) := hashSs g h ss in
      let h := Reset h in
      match nth_error cts i with
      | None => Panic
      | Some ct => encryptLoop g h ss skA rng pt (firstn i cts ++ xor16 ct pt ss :: skipn (S i) cts) (S i) keys
      end
    end
  end.
(* MultiPKE.Encrypt, csidh.go:91-111 *)
Definition mpkeEncrypt (g : bool) (c : option mpke) (keys : list (list Z)) (pt : list Z) : res mpke :=
  match c with None => Panic | Some c =>
  let '(_, skA, rng) := generatePrivateKey (pRng (mP c)) in
  match encryptLoop g (pH (mP c)) (repeat 0 64) skA rng pt (mCts c) 0 keys with
  | Panic => Panic
  | Ret (h, rng, cts) =>
    match generatePublicKey skA rng with
    | Panic => Panic
    | Ret (pkA, rng) => Ret (mkMpke (mkPke rng h) (snd (pubExport pkA (mCt0 c))) cts)
    end
  end end.

(* Enc and Dec through the embedded PKE *)
Definition mpkeEnc (g : bool) (c : mpke) (pk pt : list Z) : res (mpke * (list Z * list Z)) :=
  match pkeEnc g (Some (mP c)) pk pt with Panic => Panic | Ret (q, ct) => Ret (mkMpke q (mCt0 c) (mCts c), ct) end.
Definition mpkeDec (g : bool) (c : mpke) (sk U V : list Z) : res (mpke * list Z) :=
  match pkeDec g (Some (mP c)) sk U V with Panic => Panic | Ret (q, m) => Ret (mkMpke q (mCt0 c) (mCts c), m) end.
Fixpoint mpkeRun (g : bool) (c : mpke) (ops : list op) : list seen :=
  match ops with
  | [] => []
  | OEnc pk pt :: ops => match mpkeEnc g c pk pt with Panic => [SPanic] | Ret (c, (U, V)) => SCt U V :: mpkeRun g c ops end
  | ODec sk U V :: ops => match mpkeDec g c sk U V with Panic => [SPanic] | Ret (c, m) => SPt m :: mpkeRun g c ops end
  | OEncrypt keys pt :: ops => match mpkeEncrypt g (Some c) keys pt with Panic => [SPanic] | Ret c => SMulti (mCt0 c) (mCts c) :: mpkeRun g c ops end
  end.
