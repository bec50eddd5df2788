(* CSIDH public key encryption (Algorithms 16 to 18 of Katsumata, Kwiatkowski, Pintore and Prest, 2020): the
   message is masked with H(ss), where ss is the CSIDH secret of the ephemeral key and the recipient's key and
   H is SHAKE128 with 16 bytes of output.  The second half of the file describes what the Go objects do. *)
From Coq Require Import ZArith List Bool.
From Verif Require Import Lib Sha3_Spec MP CSIDH_Model CSIDH_FieldProofs.
Import ListNotations.
Open Scope Z_scope.

Definition H128 (ss : list Z) : list Z := shake128 ss 16.
(* the 16 bytes of the same stream that come after H(ss) *)
Definition H128next (ss : list Z) : list Z := skipn 16 (shake128 ss 32).

Definition zero64 : list Z := repeat 0 64.
(* the bytes of a public key *)
Definition encodePub (a : list Z) : list Z := le_enc 64 (val a).
Definition decodePub (b : list Z) : list Z := limbs 8 (le_dec b).
(* the fixed-size arrays *)
Definition isMsg (m : list Z) : Prop := bytes m /\ length m = 16%nat.
Definition is64 (b : list Z) : Prop := bytes b /\ length b = 64%nat.

(* ---------- ideal objects ----------
   xPrev is the secret of the last Enc or Dec, if the hash object was not reset since. *)
Record ideal : Type := mkIdeal { xRng : list Z; xPrev : option (list Z); xCt0 : list Z; xCts : list (list Z) }.

(* Enc: U, V and the object afterwards *)
Definition idealEnc (x : ideal) (pk pt : list Z) : res (ideal * (list Z * list Z)) :=
  let '(_, sk, r) := generatePrivateKey (xRng x) in
  match deriveSecret zero64 pk sk r with
  | Panic => Panic
  | Ret (_, ss, r) =>
    match generatePublicKey sk r with
    | Panic => Panic
    | Ret (a, r) => Ret (mkIdeal r (Some ss) (xCt0 x) (xCts x), (encodePub a, xor_list pt (H128 ss) ++ repeat 0 48))
    end
  end.
Definition idealDec (x : ideal) (sk U V : list Z) : res (ideal * list Z) :=
  match deriveSecret zero64 (decodePub U) sk (xRng x) with
  | Panic => Panic
  | Ret (_, ss, r) => Ret (mkIdeal r (Some ss) (xCt0 x) (xCts x), xor_list (firstn 16 V) (H128 ss))
  end.
(* the entries of Cts, given the array ss before the first key and the mask of the first entry if it is not H(ss) *)
Fixpoint idealEntries (ss sk r pt : list Z) (prev : option (list Z)) (cts : list (list Z)) (keys : list (list Z)) {struct keys} : res (list Z * list (list Z)) :=
  match keys with
  | [] => Ret (r, cts)
  | pk :: keys =>
    match deriveSecret ss pk sk r with
    | Panic => Panic
    | Ret (_, ss, r) =>
      let mask := match prev with None => H128 ss | Some q => H128next q end in
      match cts with
      | [] => Panic
      | ct :: cts =>
        match idealEntries (mask ++ skipn 16 ss) sk r pt None cts keys with
        | Panic => Panic
        | Ret (r, cts) => Ret (r, (xor_list pt mask ++ skipn 16 ct) :: cts)
        end
      end
    end
  end.
Definition idealEncrypt (x : ideal) (keys : list (list Z)) (pt : list Z) : res ideal :=
  let '(_, sk, r) := generatePrivateKey (xRng x) in
  match idealEntries zero64 sk r pt (xPrev x) (xCts x) keys with
  | Panic => Panic
  | Ret (r, cts) =>
    match generatePublicKey sk r with
    | Panic => Panic
    | Ret (a, r) => Ret (mkIdeal r (match keys with [] => xPrev x | _ => None end) (encodePub a) cts)
    end
  end.

(* ---------- histories ---------- *)
Inductive op : Type :=
| OEnc (pk pt : list Z)
| ODec (sk U V : list Z)
| OEncrypt (keys : list (list Z)) (pt : list Z).
(* what the caller sees *)
Inductive seen : Type :=
| SCt (U V : list Z)
| SPt (pt : list Z)
| SMulti (ct0 : list Z) (cts : list (list Z))
| SPanic.
Definition opOk (o : op) : Prop :=
  match o with
  | OEnc pk pt => fp_ok pk /\ isMsg pt
  | ODec sk U V => bytes sk /\ is64 U /\ is64 V
  | OEncrypt keys pt => Forall fp_ok keys /\ isMsg pt
  end.
(* a panic ends the history *)
Fixpoint idealRun (x : ideal) (ops : list op) : list seen :=
  match ops with
  | [] => []
  | OEnc pk pt :: ops => match idealEnc x pk pt with Panic => [SPanic] | Ret (x, (U, V)) => SCt U V :: idealRun x ops end
  | ODec sk U V :: ops => match idealDec x sk U V with Panic => [SPanic] | Ret (x, m) => SPt m :: idealRun x ops end
  | OEncrypt keys pt :: ops => match idealEncrypt x keys pt with Panic => [SPanic] | Ret x => SMulti (xCt0 x) (xCts x) :: idealRun x ops end
  end.
