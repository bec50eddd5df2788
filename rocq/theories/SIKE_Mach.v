(* dh/sidh/sidh.go and dh/sidh/sike.go compiled for amd64 and arm64: SIDH_Api.v and SIKE_Model.v with every field operation a run of the machine code
   (SIDH_AsmFp2.v, SIDH_AsmCore.v).  Panic is a Go panic, Ret None a run of the machine code that is stuck, Ret (Some x) an end with x.
   The hash is the one of Sha3_Model.v; Sha3_Amd.v has it over the amd64 permutation. *)
From Coq Require Import ZArith List Bool.
From Verif Require Import Lib Sha3_Iface Sha3_Model Sha3_Client MP Instr SIDH_Consts SIDH_Field SIDH_Curve SIDH_AsmModel SIDH_AsmFp2 SIDH_AsmCore SIDH_Api SIKE_Model.
Import ListNotations.
Open Scope Z_scope.

Definition mres (X : Type) : Type := res (option X).
Definition mb {X Y} (x : mres X) (f : X -> mres Y) : mres Y := match x with Panic => Panic | Ret None => Ret None | Ret (Some a) => f a end.
(* Go code that calls no assembly *)
Definition go {X} (r : res X) : mres X := bind r (fun a => Ret (Some a)).
Definition stuckable {X} (o : option X) : mres X := Ret o.

(* the package selected by the switch on Params.ID *)
Definition pkgM (id : Z) : mres SIDH_AsmModel.pkg :=
  if id =? Fp434 then Ret (Some P434) else if id =? Fp503 then Ret (Some P503) else if id =? Fp751 then Ret (Some P751) else Panic.

Section Mach.
Variables (K : arch) (bp : Z).
Definition mTo (Q : SIDH_AsmModel.pkg) (x : fp2) : mres fp2 := stuckable (got (aToMont Q K 0 0 [x] bp)).
Definition mFrom (Q : SIDH_AsmModel.pkg) (x : fp2) : mres fp2 := stuckable (op1 Q bp (aFromMont Q K) (Some x)).
Fixpoint allSome {X} (l : list (option X)) : option (list X) :=
  match l with [] => Some [] | None :: _ => None | Some x :: t => match allSome t with Some l => Some (x :: l) | None => None end end.

(* PublicKey.Import, sidh.go:75-100 *)
Definition pubImportM (k : pubKey) (input : list Z) : mres (pubKey * bool) :=
  if negb (Z.of_nat (length input) =? pubSize k) then Ret (Some (k, true))
  else
    let ssSz := SharedSecretSize (pubParams k) in
    let bl := Bytelen (pubParams k) in
    let '(x0, x1, x2) := affine3Pt k in
    mb (go (sub input 0 ssSz)) (fun i0 => mb (go (BytesToFp2 x0 i0 bl)) (fun x0 =>
    mb (go (sub input ssSz (2 * ssSz))) (fun i1 => mb (go (BytesToFp2 x1 i1 bl)) (fun x1 =>
    mb (go (sub input (2 * ssSz) (3 * ssSz))) (fun i2 => mb (go (BytesToFp2 x2 i2 bl)) (fun x2 =>
    mb (pkgM (pID (pubParams k))) (fun Q =>
    mb (mTo Q x0) (fun x0 => mb (mTo Q x1) (fun x1 => mb (mTo Q x2) (fun x2 =>
    Ret (Some (mkPub (pubParams k) (pubVariant k) (x0, x1, x2), false)))))))))))).
(* PublicKey.Export, sidh.go:104-126 *)
Definition pubExportM (k : pubKey) (out : list Z) : mres (list Z) :=
  let ssSz := SharedSecretSize (pubParams k) in
  let bl := Bytelen (pubParams k) in
  let '(x0, x1, x2) := affine3Pt k in
  mb (pkgM (pID (pubParams k))) (fun Q =>
  mb (mFrom Q x0) (fun f0 => mb (mFrom Q x1) (fun f1 => mb (mFrom Q x2) (fun f2 =>
  mb (go (into out 0 ssSz (fun s => Fp2ToBytes s f0 bl))) (fun out =>
  mb (go (into out ssSz (2 * ssSz) (fun s => Fp2ToBytes s f1 bl))) (fun out =>
  go (into out (2 * ssSz) (3 * ssSz) (fun s => Fp2ToBytes s f2 bl)))))))).
(* PrivateKey.GeneratePublicKey, sidh.go:224-253 *)
Definition GeneratePublicKeyM (k : prvKey) (pub : pubKey) : mres pubKey :=
  if negb (pubVariant pub =? prvVariant k) || negb (pID (pubParams pub) =? pID (prvParams k)) then Panic
  else
    mb (pkgM (pID (prvParams k))) (fun Q =>
    mb (bind (if onA (prvVariant k) then PublicKeyGenA_a Q K bp (Scalar k) else PublicKeyGenB_a Q K bp (Scalar k)) (fun l => Ret (allSome l))) (fun l =>
    mb (go (three l)) (fun x => Ret (Some (mkPub (pubParams pub) (pubVariant pub) x))))).
(* PrivateKey.DeriveSecret, sidh.go:260-289 *)
Definition DeriveSecretM (k : prvKey) (ss : list Z) (pub : pubKey) : mres (list Z) :=
  if (pubVariant pub =? prvVariant k) || negb (pID (pubParams pub) =? pID (prvParams k)) then Panic
  else
    mb (pkgM (pID (prvParams k))) (fun Q =>
    if onA (prvVariant k) then DeriveSecretA_a Q K bp ss (Scalar k) (affine3Pt pub) else DeriveSecretB_a Q K bp ss (Scalar k) (affine3Pt pub)).

(* generateCiphertext, sike.go:201-216 / 402-417 *)
Definition generateCiphertextM (g : bool) (s : state) (ctext : list Z) (skA : prvKey) (pkA pkB : pubKey) (ptext : list Z) : mres (state * list Z) :=
  let n := zeros MaxMsgBsz in
  let ptextLen := MsgLen (prvParams skA) in
  mb (DeriveSecretM skA (zeros MaxSharedSecretBsz) pkB) (fun j =>
  mb (go (sub j 0 (SharedSecretSize (prvParams skA)))) (fun j =>
  mb (go (shakeTo g s [j] n ptextLen)) (fun '(s, n) =>
  mb (go (xorInto n ptext)) (fun n =>
  mb (pubExportM pkA ctext) (fun ctext =>
  mb (go (sub n 0 ptextLen)) (fun n =>
  mb (go (gocopyAt ctext (pubSize pkA) n)) (fun ctext => Ret (Some (s, ctext))))))))).

(* Encapsulate, sike.go:58-106 / 102-150 *)
Definition EncapsulateM (g : bool) (r : registry) (c : option kem) (ciphertext secret : list Z) (pub : pubKey) : mres (kem * list Z * list Z * bool) :=
  match c with None => Panic | Some c =>
  let P := kParams c in
  if negb (KeyVariantSike =? pubVariant pub) then Panic
  else if Z.of_nat (length secret) <? KemSize P then Panic
  else if Z.of_nat (length ciphertext) <? CiphertextSize P then Panic
  else
    let '(msg, rng, e) := readFull (kRng c) (kMsg c) in
    if e then Ret (Some (mkKem rng msg (kSecret c) P (kShake c), ciphertext, secret, true))
    else
      mb (go (NewPublicKey r (pID P) KeyVariantSidhA)) (fun pkA =>
      mb (pubExportM pub (zeros (3 * MaxSharedSecretBsz))) (fun buf =>
      mb (go (sub buf 0 (3 * SharedSecretSize P))) (fun buf =>
      let '(s, sc) := shakeRun g (kShake c) [msg; buf] (kSecret c) in
      mb (go (maskA P sc)) (fun sc =>
      let skA := mkPrv P KeyVariantSidhA sc [] in
      mb (GeneratePublicKeyM skA pkA) (fun pkA =>
      mb (generateCiphertextM g s ciphertext skA pkA pub msg) (fun '(s, ciphertext) =>
      mb (go (shakeTo g s [msg; ciphertext] secret (KemSize P))) (fun '(s, secret) =>
      Ret (Some (mkKem rng msg sc P s, ciphertext, secret, false)))))))))
  end.

(* decrypt, sike.go:243-262 / 444-463 *)
Definition decryptM (g : bool) (r : registry) (s : state) (n : list Z) (prv : prvKey) (ctext : list Z) : mres (state * list Z * Z * bool) :=
  let pkLen := PublicKeySize (prvParams prv) in
  let c1Len := Z.of_nat (length ctext) - pkLen in
  mb (go (NewPublicKey r (pID (prvParams prv)) KeyVariantSidhA)) (fun c0 =>
  mb (go (sub ctext 0 pkLen)) (fun b =>
  mb (pubImportM c0 b) (fun '(c0, err) =>
  mb (DeriveSecretM prv (zeros MaxSharedSecretBsz) c0) (fun j =>
  mb (go (sub j 0 (SharedSecretSize (prvParams prv)))) (fun j =>
  mb (go (shakeTo g s [j] n c1Len)) (fun '(s, n) =>
  mb (go (sub ctext pkLen (Z.of_nat (length ctext)))) (fun c1 =>
  mb (go (xorInto n c1)) (fun n => Ret (Some (s, n, c1Len, err)))))))))).

(* Decapsulate, sike.go:112-176 / 156-220 *)
Definition DecapsulateM (g : bool) (r : registry) (c : option kem) (secret : list Z) (prv : prvKey) (pub : pubKey) (ciphertext : list Z) : mres (kem * list Z * bool) :=
  match c with None => Panic | Some c =>
  let P := kParams c in
  if negb (KeyVariantSike =? pubVariant pub) then Panic
  else if negb (pubVariant pub =? prvVariant prv) then Panic
  else if Z.of_nat (length secret) <? KemSize P then Panic
  else if negb (Z.of_nat (length ciphertext) =? CiphertextSize P) then Panic
  else
    let nA := SecretByteLen (pA P) in
    mb (go (NewPublicKey r (pID P) KeyVariantSidhA)) (fun pkA =>
    mb (decryptM g r (kShake c) (zeros MaxMsgBsz) prv ciphertext) (fun '(s, m, c1Len, err) =>
    if (err : bool) then Ret (Some (mkKem (kRng c) (kMsg c) (kSecret c) P s, secret, true))
    else
      mb (pubExportM pub (zeros (3 * MaxSharedSecretBsz))) (fun pkBytes =>
      mb (go (sub m 0 c1Len)) (fun m =>
      mb (go (sub pkBytes 0 (3 * SharedSecretSize P))) (fun b =>
      mb (go (shakeTo g s [m; b] (zeros MaxSidhPrivateKeyBsz) nA)) (fun '(s, r) =>
      mb (go (sub r 0 nA)) (fun r =>
      mb (go (maskA P r)) (fun r =>
      mb (go (prvImport (mkPrv P KeyVariantSidhA (kSecret c) []) r)) (fun '(skA, err) =>
      if (err : bool) then Ret (Some (mkKem (kRng c) (kMsg c) (Scalar skA) P s, secret, true))
      else
        mb (GeneratePublicKeyM skA pkA) (fun pkA =>
        mb (pubExportM pkA pkBytes) (fun pkBytes =>
        mb (go (sub pkBytes 0 (PublicKeySize P))) (fun x =>
        mb (go (sub ciphertext 0 (PublicKeySize (pubParams pub)))) (fun y =>
        mb (go (Cpick (ConstantTimeCompare x y) m m (prvS prv))) (fun m =>
        mb (go (shakeTo g s [m; ciphertext] secret (KemSize P))) (fun '(s, secret) =>
        Ret (Some (mkKem (kRng c) (kMsg c) (Scalar skA) P s, secret, false)))))))))))))))))
  end.
End Mach.
