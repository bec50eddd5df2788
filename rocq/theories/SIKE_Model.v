(* Model of dh/sidh/sike.go and dh/sidh/common/utils.go:7-12.  The type KEM of kem/mkem/sike.go is the same
   text; its line numbers are given after a slash.
   A KEM whose Allocate has not run (allocated = false) is None.  The reader the object holds is the list of
   bytes it will still deliver.  Output slices do not overlap inputs, each other or the buffers of the object.
   The boolean g selects the build of hash/sha3 (see Sha3_Model). *)
From Coq Require Import ZArith List Lia Bool.
From Verif Require Import Lib Sha3_Iface Sha3_Model Sha3_Client MP Instr SIDH_Consts SIDH_Field SIDH_Curve SIDH_Api.
Import ListNotations.
Open Scope Z_scope.

(* common/types.go:6-18 *)
Definition MaxSidhPrivateKeyBsz : Z := 48.
Definition MaxMsgBsz : Z := 40.
Definition MaxSharedSecretBsz : Z := 188.
Definition MaxPublicKeySz : Z := 3 * 12 * 64.
Definition zeros (n : Z) : list Z := repeat 0 (Z.to_nat n).

(* sike.go:13-20 / 14-21 *)
Record kem : Type := mkKem { kRng : list Z; kMsg : list Z; kSecret : list Z; kParams : sidhParams; kShake : state }.

(* sike.go:45-52 / 65-72: Allocate overwrites every field *)
Definition Allocate (r : registry) (id : Z) (rng : list Z) : res kem :=
  bind (Params r id) (fun P => Ret (mkKem rng (zeros (MsgLen P)) (zeros (SecretByteLen (pA P))) P NewShake256)).
(* sike.go:23-42 / 43-62 *)
Definition NewSike434 (r : registry) (rng : list Z) : res kem := Allocate r Fp434 rng.
Definition NewSike503 (r : registry) (rng : list Z) : res kem := Allocate r Fp503 rng.
Definition NewSike751 (r : registry) (rng : list Z) : res kem := Allocate r Fp751 rng.

(* shake.Reset(); shake.Write(in) for each in; shake.Read(out) *)
Definition shakeRun (g : bool) (s : state) (ins : list (list Z)) (out : list Z) : state * list Z :=
  Read g (writes g (Reset s) ins) out.
(* the same with out = buf[:n]: the whole of buf afterwards *)
Definition shakeTo (g : bool) (s : state) (ins : list (list Z)) (buf : list Z) (n : Z) : res (state * list Z) :=
  bind (sub buf 0 n) (fun o => let '(s, o) := shakeRun g s ins o in Ret (s, o ++ skipn (Z.to_nat n) buf)).
(* for i := range p { n[i] ^= p[i] } *)
Definition xorInto (n p : list Z) : res (list Z) :=
  if (length p <=? length n)%nat then Ret (map (fun x => Z.lxor (fst x) (snd x)) (combine n p) ++ skipn (length p) n) else Panic.
(* subtle.ConstantTimeCompare *)
Definition ConstantTimeCompare (x y : list Z) : Z := if list_eq_dec Z.eq_dec x y then 1 else 0.
(* int8(x) of an int *)
Definition int8 (x : Z) : Z := let y := x mod 256 in if y <? 128 then y else y - 256.
(* Cpick, utils.go:7-12: out afterwards *)
Definition Cpick (pick : Z) (out in1 in2 : list Z) : res (list Z) :=
  let which := Z.shiftr (int8 (Z.shiftl pick 7)) 7 mod 256 in
  if ((length out <=? length in1) && (length out <=? length in2))%nat
  then Ret (map (fun x => Z.lor (Z.land (fst x) which) (Z.land (snd x) (255 - which))) (firstn (length out) (combine in1 in2)))
  else Panic.

(* generateCiphertext, sike.go:201-216 / 402-417: the hash and ctext afterwards *)
Definition generateCiphertext (g : bool) (s : state) (ctext : list Z) (skA : prvKey) (pkA pkB : pubKey) (ptext : list Z) : res (state * list Z) :=
  let n := zeros MaxMsgBsz in
  let ptextLen := MsgLen (prvParams skA) in
  bind (DeriveSecret skA (zeros MaxSharedSecretBsz) pkB) (fun j =>
  bind (sub j 0 (SharedSecretSize (prvParams skA))) (fun j =>
  bind (shakeTo g s [j] n ptextLen) (fun '(s, n) =>
  bind (xorInto n ptext) (fun n =>
  bind (pubExport pkA ctext) (fun ctext =>
  bind (sub n 0 ptextLen) (fun n =>
  bind (gocopyAt ctext (pubSize pkA) n) (fun ctext => Ret (s, ctext)))))))).

(* the last byte of s reduced to the bit length of the 2-torsion secret *)
Definition maskA (P : sidhParams) (s : list Z) : res (list Z) := onLast s (fun b => Z.land b (topMask (pA P))).

(* Encapsulate, sike.go:58-106 / 102-150: the object, ciphertext and secret afterwards; error? *)
Definition Encapsulate (g : bool) (r : registry) (c : option kem) (ciphertext secret : list Z) (pub : pubKey) : res (kem * list Z * list Z * bool) :=
  match c with None => Panic | Some c =>
  let P := kParams c in
  if negb (KeyVariantSike =? pubVariant pub) then Panic
  else if Z.of_nat (length secret) <? KemSize P then Panic
  else if Z.of_nat (length ciphertext) <? CiphertextSize P then Panic
  else
    let '(msg, rng, e) := readFull (kRng c) (kMsg c) in
    if e then Ret (mkKem rng msg (kSecret c) P (kShake c), ciphertext, secret, true)
    else
      bind (NewPublicKey r (pID P) KeyVariantSidhA) (fun pkA =>
      bind (pubExport pub (zeros (3 * MaxSharedSecretBsz))) (fun buf =>
      bind (sub buf 0 (3 * SharedSecretSize P)) (fun buf =>
      let '(s, sc) := shakeRun g (kShake c) [msg; buf] (kSecret c) in
      bind (maskA P sc) (fun sc =>
      let skA := mkPrv P KeyVariantSidhA sc [] in
      bind (GeneratePublicKey skA pkA) (fun pkA =>
      bind (generateCiphertext g s ciphertext skA pkA pub msg) (fun '(s, ciphertext) =>
      bind (shakeTo g s [msg; ciphertext] secret (KemSize P)) (fun '(s, secret) =>
      Ret (mkKem rng msg sc P s, ciphertext, secret, false))))))))
  end.

(* decrypt, sike.go:243-262 / 444-463: the hash and n afterwards, the length, error? *)
Definition decrypt (g : bool) (r : registry) (s : state) (n : list Z) (prv : prvKey) (ctext : list Z) : res (state * list Z * Z * bool) :=
  let pkLen := PublicKeySize (prvParams prv) in
  let c1Len := Z.of_nat (length ctext) - pkLen in
  bind (NewPublicKey r (pID (prvParams prv)) KeyVariantSidhA) (fun c0 =>
  bind (sub ctext 0 pkLen) (fun b =>
  bind (pubImport c0 b) (fun '(c0, err) =>
  bind (DeriveSecret prv (zeros MaxSharedSecretBsz) c0) (fun j =>
  bind (sub j 0 (SharedSecretSize (prvParams prv))) (fun j =>
  bind (shakeTo g s [j] n c1Len) (fun '(s, n) =>
  bind (sub ctext pkLen (Z.of_nat (length ctext))) (fun c1 =>
  bind (xorInto n c1) (fun n => Ret (s, n, c1Len, err))))))))).

(* encrypt, sike.go:221-238 / 422-439 (nothing calls it outside its test): the hash and ctext afterwards,
   the source afterwards, error? *)
Definition encrypt (g : bool) (r : registry) (s : state) (ctext rng : list Z) (pub : pubKey) (ptext : list Z) : res (state * list Z * list Z * bool) :=
  if negb (Z.of_nat (length ptext) =? KemSize (pubParams pub)) then Ret (s, ctext, rng, true)
  else
    bind (NewPrivateKey r (pID (pubParams pub)) KeyVariantSidhA) (fun skA =>
    bind (NewPublicKey r (pID (pubParams pub)) KeyVariantSidhA) (fun pkA =>
    bind (Generate skA rng) (fun '(skA, rng, e) =>
    if (e : bool) then Ret (s, ctext, rng, true)
    else
      bind (GeneratePublicKey skA pkA) (fun pkA =>
      bind (generateCiphertext g s ctext skA pkA pub ptext) (fun '(s, ctext) => Ret (s, ctext, rng, false)))))).

(* Decapsulate, sike.go:112-176 / 156-220: the object and secret afterwards; error?  The scalar of skA is the
   secretBytes of the object *)
Definition Decapsulate (g : bool) (r : registry) (c : option kem) (secret : list Z) (prv : prvKey) (pub : pubKey) (ciphertext : list Z) : res (kem * list Z * bool) :=
  match c with None => Panic | Some c =>
  let P := kParams c in
  if negb (KeyVariantSike =? pubVariant pub) then Panic
  else if negb (pubVariant pub =? prvVariant prv) then Panic
  else if Z.of_nat (length secret) <? KemSize P then Panic
  else if negb (Z.of_nat (length ciphertext) =? CiphertextSize P) then Panic
  else
    let nA := SecretByteLen (pA P) in
    bind (NewPublicKey r (pID P) KeyVariantSidhA) (fun pkA =>
    bind (decrypt g r (kShake c) (zeros MaxMsgBsz) prv ciphertext) (fun '(s, m, c1Len, err) =>
    if (err : bool) then Ret (mkKem (kRng c) (kMsg c) (kSecret c) P s, secret, true)
    else
      bind (pubExport pub (zeros (3 * MaxSharedSecretBsz))) (fun pkBytes =>
      bind (sub m 0 c1Len) (fun m =>
      bind (sub pkBytes 0 (3 * SharedSecretSize P)) (fun b =>
      bind (shakeTo g s [m; b] (zeros MaxSidhPrivateKeyBsz) nA) (fun '(s, r) =>
      bind (sub r 0 nA) (fun r =>
      bind (maskA P r) (fun r =>
      bind (prvImport (mkPrv P KeyVariantSidhA (kSecret c) []) r) (fun '(skA, err) =>
      if (err : bool) then Ret (mkKem (kRng c) (kMsg c) (Scalar skA) P s, secret, true)
      else
        bind (GeneratePublicKey skA pkA) (fun pkA =>
        bind (pubExport pkA pkBytes) (fun pkBytes =>
        bind (sub pkBytes 0 (PublicKeySize P)) (fun x =>
        bind (sub ciphertext 0 (PublicKeySize (pubParams pub))) (fun y =>
        bind (Cpick (ConstantTimeCompare x y) m m (prvS prv)) (fun m =>
        bind (shakeTo g s [m; ciphertext] secret (KemSize P)) (fun '(s, secret) =>
        Ret (mkKem (kRng c) (kMsg c) (Scalar skA) P s, secret, false))))))))))))))))
  end.

(* Reset, sike.go:181-189 / 378-386 *)
Definition kemReset (c : kem) : kem :=
  mkKem (kRng c) (zeros (Z.of_nat (length (kMsg c)))) (zeros (Z.of_nat (length (kSecret c)))) (kParams c) (kShake c).
