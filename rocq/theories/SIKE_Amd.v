(* dh/sidh/sike.go compiled for amd64 and arm64 with the hash included: SIKE_Mach.v with the SHAKE calls over the amd64 permutation (Sha3_Amd.v) on amd64;
   hash/sha3 has no assembly for arm64. *)
From Coq Require Import ZArith List Bool.
From Verif Require Import Lib Sha3_Iface Sha3_Model Sha3_Client Sha3_Amd MP Instr SIDH_Consts SIDH_Field SIDH_Curve SIDH_AsmModel SIDH_AsmFp2 SIDH_AsmCore SIDH_Api SIKE_Model SIKE_Mach.
Import ListNotations.
Open Scope Z_scope.

Section Amd.
Variables (K : arch) (bp : Z).
(* shake.Write(in) for each in *)
Fixpoint writesA (g : bool) (s : state) (ins : list (list Z)) : option state :=
  match ins with [] => Some s | i :: t => ob (WriteA g bp s i) (fun '(s, _) => writesA g s t) end.
(* shake.Reset(); shake.Write(in) for each in; shake.Read(out) *)
Definition shakeRunH (g : bool) (s : state) (ins : list (list Z)) (out : list Z) : option (state * list Z) :=
  match K with
  | Amd64 _ _ _ => ob (writesA g (Reset s) ins) (fun s => ReadA g bp s out)
  | Arm64 => Some (shakeRun g s ins out)
  end.
Definition shakeToH (g : bool) (s : state) (ins : list (list Z)) (buf : list Z) (n : Z) : mres (state * list Z) :=
  mb (go (sub buf 0 n)) (fun o => mb (stuckable (shakeRunH g s ins o)) (fun '(s, o) => Ret (Some (s, o ++ skipn (Z.to_nat n) buf)))).

(* generateCiphertext, sike.go:201-216 / 402-417 *)
Definition generateCiphertextH (g : bool) (s : state) (ctext : list Z) (skA : prvKey) (pkA pkB : pubKey) (ptext : list Z) : mres (state * list Z) :=
  let n := zeros MaxMsgBsz in
  let ptextLen := MsgLen (prvParams skA) in
  mb (DeriveSecretM K bp skA (zeros MaxSharedSecretBsz) pkB) (fun j =>
  mb (go (sub j 0 (SharedSecretSize (prvParams skA)))) (fun j =>
  mb (shakeToH g s [j] n ptextLen) (fun '(s, n) =>
  mb (go (xorInto n ptext)) (fun n =>
  mb (pubExportM K bp pkA ctext) (fun ctext =>
  mb (go (sub n 0 ptextLen)) (fun n =>
  mb (go (gocopyAt ctext (pubSize pkA) n)) (fun ctext => Ret (Some (s, ctext))))))))).

(* Encapsulate, sike.go:58-106 / 102-150 *)
Definition EncapsulateH (g : bool) (r : registry) (c : option kem) (ciphertext secret : list Z) (pub : pubKey) : mres (kem * list Z * list Z * bool) :=
  match c with None => Panic | Some c =>
  let P := kParams c in
  if negb (KeyVariantSike =? pubVariant pub) then Panic
  else if Z.of_nat (length secret) <? KemSize P then Panic
  else if Z.of_nat (length ciphertext) <? CiphertextSize P then Panic
  else
    let '(msg, rng, e) := readFull (kRng c) (kMsg c) in
    if e then Ret (Some (mkKem rng msg (kSecret c) P (kShake c), ciphertext, secret, true))
    else
      mb (go (NewPublicKey r (pID P) KeyVariantSidhA)) (fun pkA =>
      mb (pubExportM K bp pub (zeros (3 * MaxSharedSecretBsz))) (fun buf =>
      mb (go (sub buf 0 (3 * SharedSecretSize P))) (fun buf =>
      mb (stuckable (shakeRunH g (kShake c) [msg; buf] (kSecret c))) (fun '(s, sc) =>
      mb (go (maskA P sc)) (fun sc =>
      let skA := mkPrv P KeyVariantSidhA sc [] in
      mb (GeneratePublicKeyM K bp skA pkA) (fun pkA =>
      mb (generateCiphertextH g s ciphertext skA pkA pub msg) (fun '(s, ciphertext) =>
      mb (shakeToH g s [msg; ciphertext] secret (KemSize P)) (fun '(s, secret) =>
      Ret (Some (mkKem rng msg sc P s, ciphertext, secret, false))))))))))
  end.

(* decrypt, sike.go:243-262 / 444-463 *)
Definition decryptH (g : bool) (r : registry) (s : state) (n : list Z) (prv : prvKey) (ctext : list Z) : mres (state * list Z * Z * bool) :=
  let pkLen := PublicKeySize (prvParams prv) in
  let c1Len := Z.of_nat (length ctext) - pkLen in
  mb (go (NewPublicKey r (pID (prvParams prv)) KeyVariantSidhA)) (fun c0 =>
  mb (go (sub ctext 0 pkLen)) (fun b =>
  mb (pubImportM K bp c0 b) (fun '(c0, err) =>
  mb (DeriveSecretM K bp prv (zeros MaxSharedSecretBsz) c0) (fun j =>
  mb (go (sub j 0 (SharedSecretSize (prvParams prv)))) (fun j =>
  mb (shakeToH g s [j] n c1Len) (fun '(s, n) =>
  mb (go (sub ctext pkLen (Z.of_nat (length ctext)))) (fun c1 =>
  mb (go (xorInto n c1)) (fun n => Ret (Some (s, n, c1Len, err)))))))))).

(* Decapsulate, sike.go:112-176 / 156-220 *)
Definition DecapsulateH (g : bool) (r : registry) (c : option kem) (secret : list Z) (prv : prvKey) (pub : pubKey) (ciphertext : list Z) : mres (kem * list Z * bool) :=
  match c with None => Panic | Some c =>
  let P := kParams c in
  if negb (KeyVariantSike =? pubVariant pub) then Panic
  else if negb (pubVariant pub =? prvVariant prv) then Panic
  else if Z.of_nat (length secret) <? KemSize P then Panic
  else if negb (Z.of_nat (length ciphertext) =? CiphertextSize P) then Panic
  else
    let nA := SecretByteLen (pA P) in
    mb (go (NewPublicKey r (pID P) KeyVariantSidhA)) (fun pkA =>
    mb (decryptH g r (kShake c) (zeros MaxMsgBsz) prv ciphertext) (fun '(s, m, c1Len, err) =>
    if (err : bool) then Ret (Some (mkKem (kRng c) (kMsg c) (kSecret c) P s, secret, true))
    else
      mb (pubExportM K bp pub (zeros (3 * MaxSharedSecretBsz))) (fun pkBytes =>
      mb (go (sub m 0 c1Len)) (fun m =>
      mb (go (sub pkBytes 0 (3 * SharedSecretSize P))) (fun b =>
      mb (shakeToH g s [m; b] (zeros MaxSidhPrivateKeyBsz) nA) (fun '(s, r) =>
      mb (go (sub r 0 nA)) (fun r =>
      mb (go (maskA P r)) (fun r =>
      mb (go (prvImport (mkPrv P KeyVariantSidhA (kSecret c) []) r)) (fun '(skA, err) =>
      if (err : bool) then Ret (Some (mkKem (kRng c) (kMsg c) (Scalar skA) P s, secret, true))
      else
        mb (GeneratePublicKeyM K bp skA pkA) (fun pkA =>
        mb (pubExportM K bp pkA pkBytes) (fun pkBytes =>
        mb (go (sub pkBytes 0 (PublicKeySize P))) (fun x =>
        mb (go (sub ciphertext 0 (PublicKeySize (pubParams pub)))) (fun y =>
        mb (go (Cpick (ConstantTimeCompare x y) m m (prvS prv))) (fun m =>
        mb (shakeToH g s [m; ciphertext] secret (KemSize P)) (fun '(s, secret) =>
        Ret (Some (mkKem (kRng c) (kMsg c) (Scalar skA) P s, secret, false)))))))))))))))))
  end.
End Amd.
