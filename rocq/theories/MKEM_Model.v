(* Model of the type MultiKEM of kem/mkem/sike.go (the type KEM of that file is in SIKE_Model).
   Conventions as in SIKE_Model: an object whose Allocate has not run is None; the reader is the list of bytes it
   will still deliver; the slices passed in do not overlap the arrays of the object, with one exception that is
   sound because ctext is only read before cts could change: ctext may be a copy of an entry of cts. *)
From Coq Require Import ZArith List Lia Bool.
From Verif Require Import Lib Sha3_Iface Sha3_Model Sha3_Client MP Instr SIDH_Consts SIDH_Field SIDH_Curve SIDH_Api SIKE_Model.
Import ListNotations.
Open Scope Z_scope.

(* sike.go:25-33 *)
Record mkem : Type := mkMulti { mKem : kem; mCt0 : list Z; mCts : list (list Z); mJ : list Z }.
(* sike.go:36-40 *)
Definition G1 : list Z := [1].
Definition G2 : list Z := [2].
Definition G3 : list Z := [3].

(* Allocate, sike.go:76-84: ct0 and j keep what they held (zero in a new variable) *)
Definition multiAllocate (r : registry) (id recipients : Z) (rng ct0 j : list Z) : res mkem :=
  bind (Params r id) (fun P =>
  Ret (mkMulti (mkKem rng (zeros (MsgLen P)) (zeros (SecretByteLen (pA P))) P NewShake256) ct0 (repeat (zeros MaxMsgBsz) (Z.to_nat recipients)) j)).
(* var c MultiKEM; c.Allocate(id, recipients, rng) *)
Definition newMulti (r : registry) (id recipients : Z) (rng : list Z) : res mkem :=
  multiAllocate r id recipients rng (zeros MaxPublicKeySz) (zeros MaxSharedSecretBsz).

(* l[i] = x *)
Definition setAt (l : list (list Z)) (i : nat) (x : list Z) : list (list Z) := firstn i l ++ x :: skipn (S i) l.
(* the loop of Encapsulate, sike.go:260-275: the hash, j and cts afterwards *)
Fixpoint multiLoop (g : bool) (s : state) (skA : prvKey) (msg j : list Z) (cts : list (list Z)) (i : nat) (pub : list pubKey) : res (state * list Z * list (list Z)) :=
  match pub with
  | [] => Ret (s, j, cts)
  | pkB :: pub =>
    if negb (KeyVariantSike =? pubVariant pkB) then Panic
    else
      let n := MsgLen (prvParams skA) in
      bind (DeriveSecret skA j pkB) (fun j =>
      bind (sub j 0 (SharedSecretSize (prvParams skA))) (fun b =>
      match nth_error cts i with
      | None => Panic
      | Some ct =>
        bind (shakeTo g s [G2; b] ct n) (fun '(s, ct) =>
        bind (sub msg 0 n) (fun p =>
        bind (xorInto ct p) (fun ct => multiLoop g s skA msg j (setAt cts i ct) (S i) pub)))
      end))
  end.

(* Encapsulate, sike.go:227-283: the object and secret afterwards; error? *)
Definition multiEncapsulate (g : bool) (r : registry) (c : option mkem) (secret : list Z) (pub : list pubKey) : res (mkem * list Z * bool) :=
  match c with None => Panic | Some c =>
  let k := mKem c in
  let P := kParams k in
  if Z.of_nat (length secret) <? KemSize P then Panic
  else
    let '(msg, rng, e) := readFull (kRng k) (kMsg k) in
    if e then Ret (mkMulti (mkKem rng msg (kSecret k) P (kShake k)) (mCt0 c) (mCts c) (mJ c), secret, true)
    else
      bind (NewPublicKey r (pID P) KeyVariantSidhA) (fun pkA =>
      bind (sub msg 0 (MsgLen P)) (fun p =>
      let '(s, sc) := shakeRun g (kShake k) [G1; p] (kSecret k) in
      bind (maskA P sc) (fun sc =>
      let skA := mkPrv P KeyVariantSidhA sc [] in
      bind (GeneratePublicKey skA pkA) (fun pkA =>
      bind (pubExport pkA (mCt0 c)) (fun ct0 =>
      bind (multiLoop g s skA msg (mJ c) (mCts c) 0 pub) (fun '(s, j, cts) =>
      bind (shakeTo g s [G3; msg] secret (KemSize P)) (fun '(s, secret) =>
      Ret (mkMulti (mkKem rng msg sc P s) ct0 cts j, secret, false))))))))
  end.

(* Decapsulate, sike.go:289-373: the object and secret afterwards; error? *)
Definition multiDecapsulate (g : bool) (r : registry) (c : option mkem) (secret : list Z) (prv : prvKey) (pub : pubKey) (ctext : list Z) : res (mkem * list Z * bool) :=
  match c with None => Panic | Some c =>
  let k := mKem c in
  let P := kParams k in
  if negb (KeyVariantSike =? pubVariant pub) then Panic
  else if negb (pubVariant pub =? prvVariant prv) then Panic
  else if Z.of_nat (length secret) <? KemSize P then Panic
  else if negb (Z.of_nat (length ctext) =? KemSize P) then Panic
  else
    bind (NewPublicKey r (pID P) KeyVariantSidhA) (fun pkA =>
    bind (sub (mCt0 c) 0 (PublicKeySize P)) (fun c0 =>
    bind (pubImport pkA c0) (fun '(pkA, err) =>
    if (err : bool) then Ret (c, secret, true)
    else
      bind (DeriveSecret prv (mJ c) pkA) (fun j =>
      let n := MsgLen (prvParams prv) in
      bind (sub j 0 (SharedSecretSize (prvParams prv))) (fun b =>
      bind (shakeTo g (kShake k) [G2; b] (zeros MaxMsgBsz) n) (fun '(s, m) =>
      bind (sub ctext 0 n) (fun x =>
      bind (xorInto m x) (fun m =>
      bind (sub m 0 (MsgLen P)) (fun p =>
      let '(s, sc) := shakeRun g s [G1; p] (kSecret k) in
      bind (maskA P sc) (fun sc =>
      let skA := mkPrv P KeyVariantSidhA sc [] in
      bind (GeneratePublicKey skA pkA) (fun pkA =>
      bind (sub (zeros MaxPublicKeySz) 0 (PublicKeySize P)) (fun rb =>
      bind (pubExport pkA rb) (fun rb =>
      bind (DeriveSecret skA j pub) (fun j =>
      bind (sub j 0 (SharedSecretSize P)) (fun b =>
      bind (shakeTo g s [G2; b] (zeros MaxMsgBsz) (MsgLen P)) (fun '(s, cti) =>
      bind (sub (kMsg k) 0 (MsgLen P)) (fun y =>
      bind (xorInto cti y) (fun cti =>
      bind (sub ctext 0 (MsgLen P)) (fun ct =>
      bind (sub cti 0 (MsgLen P)) (fun cti =>
      let mask := Z.land (ConstantTimeCompare rb c0) (ConstantTimeCompare ct cti) in
      bind (Cpick mask p p (prvS prv)) (fun p =>
      bind (shakeTo g s [G3; p] secret (KemSize P)) (fun '(s, secret) =>
      Ret (mkMulti (mkKem (kRng k) (kMsg k) sc P s) (mCt0 c) (mCts c) j, secret, false)))))))))))))))))))))))
  end.

(* Reset, sike.go:378-386, promoted from the embedded KEM *)
Definition multiReset (c : mkem) : mkem := mkMulti (kemReset (mKem c)) (mCt0 c) (mCts c) (mJ c).
