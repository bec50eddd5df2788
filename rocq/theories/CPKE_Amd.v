(* kem/mkem/csidh.go in the amd64 build: CPKE_Model.v with the CSIDH operations (CSIDH_Amd.v) and the Keccak permutation (Sha3_Amd.v) in machine code.
   generatePrivateKey and the conversions of keys have no assembly.  None is a run that is stuck. *)
From Coq Require Import ZArith List Bool.
From Verif Require Import Lib Sha3_Iface Sha3_Model Sha3_Amd CSIDH_Model CSIDH_AmdKern CSIDH_Amd CPKE_Spec CPKE_Model.
Import ListNotations.
Open Scope Z_scope.

Definition ab {X Y : Type} (x : option (res X)) (f : X -> option (res Y)) : option (res Y) :=
  match x with None => None | Some Panic => Some Panic | Some (Ret a) => f a end.

Section Amd.
Variable M : amd.
(* c.H.Write(ss[:]); c.H.Read(ss[:16]) *)
Definition hashSsA (g : bool) (h : state) (ss : list Z) : option (state * list Z) :=
  ob (WriteA g (aBP M) h ss) (fun '(h, _) =>
  ob (ReadA g (aBP M) h (firstn 16 ss)) (fun '(h, o) => Some (h, o ++ skipn 16 ss))).

(* PKE.Enc, csidh.go:50-70 *)
Definition pkeEncA (g : bool) (c : option pke) (pk pt : list Z) : option (res (pke * (list Z * list Z))) :=
  match c with None => Some Panic | Some c =>
  let '(_, skA, rng) := generatePrivateKey (pRng c) in
  ab (deriveSecretA M (repeat 0 64) pk skA rng) (fun '(_, ss, rng) =>
  let h := Reset (pH c) in
  ob (hashSsA g h ss) (fun '(h, ss) =>
  let V := xor16 (repeat 0 64) pt ss in
  ab (generatePublicKeyA M skA rng) (fun '(pkA, rng) => Some (Ret (mkPke rng h, (snd (pubExport pkA (repeat 0 64)), V))))))
  end.

(* PKE.Dec, csidh.go:73-88 *)
Definition pkeDecA (g : bool) (c : option pke) (sk U V : list Z) : option (res (pke * list Z)) :=
  match c with None => Some Panic | Some c =>
  let pk := snd (pubImport (repeat 0 8) U) in
  ab (deriveSecretA M (repeat 0 64) pk sk (pRng c)) (fun '(_, ss, rng) =>
  let h := Reset (pH c) in
  ob (hashSsA g h ss) (fun '(h, ss) => Some (Ret (mkPke rng h, xor16 (repeat 0 16) V ss))))
  end.

(* the loop of MultiPKE.Encrypt, csidh.go:97-106 *)
Fixpoint encryptLoopA (g : bool) (h : state) (ss skA rng pt : list Z) (cts : list (list Z)) (i : nat) (keys : list (list Z)) : option (res (state * list Z * list (list Z))) :=
  match keys with
  | [] => Some (Ret (h, rng, cts))
  | pk :: keys =>
    ab (deriveSecretA M ss pk skA rng) (fun '(_, ss, rng) =>
    ob (hashSsA g h ss) (fun '(h, ss) =>
    let h := Reset h in
    match nth_error cts i with
    | None => Some Panic
    | Some ct => encryptLoopA g h ss skA rng pt (firstn i cts ++ xor16 ct pt ss :: skipn (S i) cts) (S i) keys
    end))
  end.
(* MultiPKE.Encrypt, csidh.go:91-111 *)
Definition mpkeEncryptA (g : bool) (c : option mpke) (keys : list (list Z)) (pt : list Z) : option (res mpke) :=
  match c with None => Some Panic | Some c =>
  let '(_, skA, rng) := generatePrivateKey (pRng (mP c)) in
  ab (encryptLoopA g (pH (mP c)) (repeat 0 64) skA rng pt (mCts c) 0 keys) (fun '(h, rng, cts) =>
  ab (generatePublicKeyA M skA rng) (fun '(pkA, rng) => Some (Ret (mkMpke (mkPke rng h) (snd (pubExport pkA (mCt0 c))) cts))))
  end.

(* a sequence of calls on one object; what the caller sees *)
Fixpoint mpkeRunA (g : bool) (c : mpke) (ops : list op) : option (list seen) :=
  match ops with
  | [] => Some []
  | OEnc pk pt :: ops => ob (pkeEncA g (Some (mP c)) pk pt) (fun r =>
      match r with Panic => Some [SPanic] | Ret (q, (U, V)) => ob (mpkeRunA g (mkMpke q (mCt0 c) (mCts c)) ops) (fun l => Some (SCt U V :: l)) end)
  | ODec sk U V :: ops => ob (pkeDecA g (Some (mP c)) sk U V) (fun r =>
      match r with Panic => Some [SPanic] | Ret (q, m) => ob (mpkeRunA g (mkMpke q (mCt0 c) (mCts c)) ops) (fun l => Some (SPt m :: l)) end)
  | OEncrypt keys pt :: ops => ob (mpkeEncryptA g (Some c) keys pt) (fun r =>
      match r with Panic => Some [SPanic] | Ret c => ob (mpkeRunA g c ops) (fun l => Some (SMulti (mCt0 c) (mCts c) :: l)) end)
  end.
End Amd.
