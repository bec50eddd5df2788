(* The type MultiKEM of kem/mkem/sike.go compiled for amd64 and arm64: MKEM_Model.v with the field operations (SIKE_Mach.v) and the hash (SIKE_Amd.v) in machine code. *)
From Coq Require Import ZArith List Bool.
From Verif Require Import Lib Sha3_Iface Sha3_Model Sha3_Client Sha3_Amd MP Instr SIDH_Consts SIDH_Field SIDH_Curve SIDH_AsmModel SIDH_AsmFp2 SIDH_AsmCore SIDH_Api SIKE_Model SIKE_Mach SIKE_Amd MKEM_Model.
Import ListNotations.
Open Scope Z_scope.

Section Amd.
Variables (K : arch) (bp : Z).
(* the loop of Encapsulate, sike.go:260-275: the hash, j and cts afterwards *)
Fixpoint multiLoopH (g : bool) (s : state) (skA : prvKey) (msg j : list Z) (cts : list (list Z)) (i : nat) (pub : list pubKey) : mres (state * list Z * list (list Z)) :=
  match pub with
  | [] => Ret (Some (s, j, cts))
  | pkB :: pub =>
    if negb (KeyVariantSike =? pubVariant pkB) then Panic
    else
      let n := MsgLen (prvParams skA) in
      mb (DeriveSecretM K bp skA j pkB) (fun j =>
      mb (go (sub j 0 (SharedSecretSize (prvParams skA)))) (fun b =>
      match nth_error cts i with
      | None => Panic
      | Some ct =>
        mb (shakeToH K bp g s [G2; b] ct n) (fun '(s, ct) =>
        mb (go (sub msg 0 n)) (fun p =>
        mb (go (xorInto ct p)) (fun ct => multiLoopH g s skA msg j (setAt cts i ct) (S i) pub)))
      end))
  end.

(* Encapsulate, sike.go:227-283: the object and secret afterwards; error? *)
Definition multiEncapsulateH (g : bool) (r : registry) (c : option mkem) (secret : list Z) (pub : list pubKey) : mres (mkem * list Z * bool) :=
  match c with None => Panic | Some c =>
  let k := mKem c in
  let P := kParams k in
  if Z.of_nat (length secret) <? KemSize P then Panic
  else
    let '(msg, rng, e) := readFull (kRng k) (kMsg k) in
    if e then Ret (Some (mkMulti (mkKem rng msg (kSecret k) P (kShake k)) (mCt0 c) (mCts c) (mJ c), secret, true))
    else
      mb (go (NewPublicKey r (pID P) KeyVariantSidhA)) (fun pkA =>
      mb (go (sub msg 0 (MsgLen P))) (fun p =>
      mb (stuckable (shakeRunH K bp g (kShake k) [G1; p] (kSecret k))) (fun '(s, sc) =>
      mb (go (maskA P sc)) (fun sc =>
      let skA := mkPrv P KeyVariantSidhA sc [] in
      mb (GeneratePublicKeyM K bp skA pkA) (fun pkA =>
      mb (pubExportM K bp pkA (mCt0 c)) (fun ct0 =>
      mb (multiLoopH g s skA msg (mJ c) (mCts c) 0 pub) (fun '(s, j, cts) =>
      mb (shakeToH K bp g s [G3; msg] secret (KemSize P)) (fun '(s, secret) =>
      Ret (Some (mkMulti (mkKem rng msg sc P s) ct0 cts j, secret, false))))))))))
  end.

(* Decapsulate, sike.go:289-373: the object and secret afterwards; error? *)
Definition multiDecapsulateH (g : bool) (r : registry) (c : option mkem) (secret : list Z) (prv : prvKey) (pub : pubKey) (ctext : list Z) : mres (mkem * list Z * bool) :=
  match c with None => Panic | Some c =>
  let k := mKem c in
  let P := kParams k in
  if negb (KeyVariantSike =? pubVariant pub) then Panic
  else if negb (pubVariant pub =? prvVariant prv) then Panic
  else if Z.of_nat (length secret) <? KemSize P then Panic
  else if negb (Z.of_nat (length ctext) =? KemSize P) then Panic
  else
    mb (go (NewPublicKey r (pID P) KeyVariantSidhA)) (fun pkA =>
    mb (go (sub (mCt0 c) 0 (PublicKeySize P))) (fun c0 =>
    mb (pubImportM K bp pkA c0) (fun '(pkA, err) =>
    if (err : bool) then Ret (Some (c, secret, true))
    else
      mb (DeriveSecretM K bp prv (mJ c) pkA) (fun j =>
      let n := MsgLen (prvParams prv) in
      mb (go (sub j 0 (SharedSecretSize (prvParams prv)))) (fun b =>
      mb (shakeToH K bp g (kShake k) [G2; b] (zeros MaxMsgBsz) n) (fun '(s, m) =>
      mb (go (sub ctext 0 n)) (fun x =>
      mb (go (xorInto m x)) (fun m =>
      mb (go (sub m 0 (MsgLen P))) (fun p =>
      mb (stuckable (shakeRunH K bp g s [G1; p] (kSecret k))) (fun '(s, sc) =>
      mb (go (maskA P sc)) (fun sc =>
      let skA := mkPrv P KeyVariantSidhA sc [] in
      mb (GeneratePublicKeyM K bp skA pkA) (fun pkA =>
      mb (go (sub (zeros MaxPublicKeySz) 0 (PublicKeySize P))) (fun rb =>
      mb (pubExportM K bp pkA rb) (fun rb =>
      mb (DeriveSecretM K bp skA j pub) (fun j =>
      mb (go (sub j 0 (SharedSecretSize P))) (fun b =>
      mb (shakeToH K bp g s [G2; b] (zeros MaxMsgBsz) (MsgLen P)) (fun '(s, cti) =>
      mb (go (sub (kMsg k) 0 (MsgLen P))) (fun y =>
      mb (go (xorInto cti y)) (fun cti =>
      mb (go (sub ctext 0 (MsgLen P))) (fun ct =>
      mb (go (sub cti 0 (MsgLen P))) (fun cti =>
      let mask := Z.land (ConstantTimeCompare rb c0) (ConstantTimeCompare ct cti) in
      mb (go (Cpick mask p p (prvS prv))) (fun p =>
      mb (shakeToH K bp g s [G3; p] secret (KemSize P)) (fun '(s, secret) =>
      Ret (Some (mkMulti (mkKem (kRng k) (kMsg k) sc P s) (mCt0 c) (mCts c) j, secret, false)))))))))))))))))))))))))
  end.
End Amd.
