(* Model of dh/sidh/sidh.go (keys and the key agreement API) and dh/sidh/common/params.go (registry).
   A key holds its Params by value (the Go pointer is never shared between two keys made by the
   constructors: Params returns a fresh copy).  Slices have no spare capacity, so x[lo:hi] panics when
   hi exceeds the length.  A reader is the finite list of bytes it will deliver; it then fails. *)
From Coq Require Import ZArith List Lia Bool.
From Verif Require Import Lib MP Instr SIDH_Consts SIDH_Field SIDH_Curve.
Import ListNotations.
Open Scope Z_scope.

(* common/types.go: identifiers of the fields *)
Definition Fp503 : Z := 0.
Definition Fp751 : Z := 1.
Definition Fp434 : Z := 2.
(* sidh.go:49-60 *)
Definition KeyVariantSidhA : Z := 1.
Definition KeyVariantSidhB : Z := 2.
Definition KeyVariantSike : Z := 6.

(* ---------- common/params.go ---------- *)
Definition registry : Type := list (Z * sidhParams).
Fixpoint lookup (r : registry) (id : Z) : option sidhParams :=
  match r with [] => None | (i, p) :: t => if i =? id then Some p else lookup t id end.
(* Params, params.go:10-15 *)
Definition Params (r : registry) (id : Z) : res sidhParams :=
  match lookup r id with Some p => Ret p | None => Panic end.
(* Register, params.go:18-24: the registry afterwards *)
Definition Register (r : registry) (id : Z) (p : sidhParams) : res registry :=
  match lookup r id with Some _ => Panic | None => Ret ((id, p) :: r) end.
(* the three init functions: p434/params.go:196, p503/params.go:202, p751/params.go:248 *)
Definition initRegistry : res registry :=
  bind (Register [] Fp434 params434) (fun r => bind (Register r Fp503 params503) (fun r => Register r Fp751 params751)).

(* x[lo:hi] *)
Definition sub (l : list Z) (lo hi : Z) : res (list Z) :=
  if (0 <=? lo) && (lo <=? hi) && (hi <=? Z.of_nat (length l))
  then Ret (firstn (Z.to_nat (hi - lo)) (skipn (Z.to_nat lo) l)) else Panic.
(* a call that overwrites x[lo:hi] through the sub-slice *)
Definition into (l : list Z) (lo hi : Z) (f : list Z -> res (list Z)) : res (list Z) :=
  bind (sub l lo hi) (fun s => bind (f s) (fun s' => Ret (firstn (Z.to_nat lo) l ++ s' ++ skipn (Z.to_nat hi) l))).
(* copy(dst, src) *)
Definition gocopy (dst src : list Z) : list Z := firstn (length dst) src ++ skipn (length src) dst.
(* copy(dst[n:], src) *)
Definition gocopyAt (dst : list Z) (n : Z) (src : list Z) : res (list Z) :=
  into dst n (Z.of_nat (length dst)) (fun s => Ret (gocopy s src)).
(* io.ReadFull: (buffer afterwards, source afterwards, failed?).  A short read leaves the bytes it got. *)
Definition readFull (rng buf : list Z) : list Z * list Z * bool :=
  if (length rng <? length buf)%nat then (rng ++ skipn (length rng) buf, [], true)
  else (firstn (length buf) rng, skipn (length buf) rng, false).

(* ---------- keys ---------- *)
Definition pts : Type := (fp2 * fp2 * fp2)%type.
Record pubKey : Type := mkPub { pubParams : sidhParams; pubVariant : Z; affine3Pt : pts }.
Record prvKey : Type := mkPrv { prvParams : sidhParams; prvVariant : Z; Scalar : list Z; prvS : list Z }.
(* the package selected by the switch on Params.ID *)
Definition pkg (id : Z) : res sidhParams :=
  if id =? Fp434 then Ret params434 else if id =? Fp503 then Ret params503 else if id =? Fp751 then Ret params751 else Panic.
Definition onA (v : Z) : bool := Z.land v KeyVariantSidhA =? KeyVariantSidhA.
Definition zeroFp2 (F : fieldParams) : fp2 := (zeroFp F, zeroFp F).
Definition map3 {A B : Type} (f : A -> B) (x : A * A * A) : B * B * B := let '(a, b, c) := x in (f a, f b, f c).

(* NewPublicKey, sidh.go:68-70 *)
Definition NewPublicKey (r : registry) (id v : Z) : res pubKey :=
  bind (Params r id) (fun P => let z := zeroFp2 (pField P) in Ret (mkPub P v (z, z, z))).
Definition pubSize (k : pubKey) : Z := PublicKeySize (pubParams k).   (* sidh.go:129-131 *)
(* PublicKey.Import, sidh.go:75-100: the key afterwards and whether an error is returned *)
Definition pubImport (k : pubKey) (input : list Z) : res (pubKey * bool) :=
  if negb (Z.of_nat (length input) =? pubSize k) then Ret (k, true)
  else
    let ssSz := SharedSecretSize (pubParams k) in
    let bl := Bytelen (pubParams k) in
    let '(x0, x1, x2) := affine3Pt k in
    bind (sub input 0 ssSz) (fun i0 => bind (BytesToFp2 x0 i0 bl) (fun x0 =>
    bind (sub input ssSz (2 * ssSz)) (fun i1 => bind (BytesToFp2 x1 i1 bl) (fun x1 =>
    bind (sub input (2 * ssSz) (3 * ssSz)) (fun i2 => bind (BytesToFp2 x2 i2 bl) (fun x2 =>
    bind (pkg (pID (pubParams k))) (fun Q =>
    Ret (mkPub (pubParams k) (pubVariant k) (map3 (ToMontgomery (pField Q)) (x0, x1, x2)), false)))))))).
(* PublicKey.Export, sidh.go:104-126: the content of out afterwards *)
Definition pubExport (k : pubKey) (out : list Z) : res (list Z) :=
  let ssSz := SharedSecretSize (pubParams k) in
  let bl := Bytelen (pubParams k) in
  bind (pkg (pID (pubParams k))) (fun Q =>
  let '(f0, f1, f2) := map3 (FromMontgomery (pField Q)) (affine3Pt k) in
  bind (into out 0 ssSz (fun s => Fp2ToBytes s f0 bl)) (fun out =>
  bind (into out ssSz (2 * ssSz) (fun s => Fp2ToBytes s f1 bl)) (fun out =>
  into out (2 * ssSz) (3 * ssSz) (fun s => Fp2ToBytes s f2 bl)))).

(* NewPrivateKey, sidh.go:135-146 *)
Definition NewPrivateKey (r : registry) (id v : Z) : res prvKey :=
  bind (Params r id) (fun P =>
  let n := if onA v then SecretByteLen (pA P) else SecretByteLen (pB P) in
  Ret (mkPrv P v (repeat 0 (Z.to_nat n)) (if v =? KeyVariantSike then repeat 0 (Z.to_nat (MsgLen P)) else []))).
(* PrivateKey.Export, sidh.go:150-153 *)
Definition prvExport (k : prvKey) (out : list Z) : res (list Z) :=
  gocopyAt (gocopy out (prvS k)) (Z.of_nat (length (prvS k))) (Scalar k).
(* PrivateKey.Size, sidh.go:156-162 *)
Definition prvSize (k : prvKey) : Z :=
  let tmp := Z.of_nat (length (Scalar k)) in
  if prvVariant k =? KeyVariantSike then tmp + MsgLen (prvParams k) else tmp.
(* PrivateKey.Import, sidh.go:173-180 *)
Definition prvImport (k : prvKey) (input : list Z) : res (prvKey * bool) :=
  if negb (Z.of_nat (length input) =? prvSize k) then Ret (k, true)
  else
    bind (sub input 0 (Z.of_nat (length (prvS k)))) (fun i0 =>
    bind (sub input (Z.of_nat (length (prvS k))) (Z.of_nat (length input))) (fun i1 =>
    Ret (mkPrv (prvParams k) (prvVariant k) (gocopy (Scalar k) i1) (gocopy (prvS k) i0), false))).
(* 1 << n in a byte, n an unsigned int: 0 when n is 8 or more (n wraps at 2^64) *)
Definition shl1 (n : Z) : Z := let n := n mod 2 ^ 64 in if 8 <=? n then 0 else Z.shiftl 1 n.
(* s[len(s)-1] = f(s[len(s)-1]); panics on an empty slice *)
Definition onLast (s : list Z) (f : Z -> Z) : res (list Z) :=
  match s with [] => Panic | _ => Ret (upd s (length s - 1) (f (nth (length s - 1) s 0))) end.
(* the byte mask (1 << (SecretBitLen % 8)) - 1 *)
Definition topMask (d : domainParams) : Z := (shl1 (SecretBitLen d mod 8) - 1) mod 256.
(* PrivateKey.Generate, sidh.go:188-221: the key, the source afterwards, failed? *)
Definition Generate (k : prvKey) (rng : list Z) : res (prvKey * list Z * bool) :=
  let dp := if onA (prvVariant k) then pA (prvParams k) else pB (prvParams k) in
  let '(s, rng, e) := if prvVariant k =? KeyVariantSike then readFull rng (prvS k) else (prvS k, rng, false) in
  let k := mkPrv (prvParams k) (prvVariant k) (Scalar k) s in
  if e then Ret (k, rng, true)
  else
    let '(sc, rng, e) := readFull rng (Scalar k) in
    if e then Ret (mkPrv (prvParams k) (prvVariant k) sc s, rng, true)
    else
      bind (onLast sc (fun b => Z.land b (topMask dp))) (fun sc =>
      bind (onLast sc (fun b => Z.lor b (shl1 (SecretBitLen dp mod 8 - 1)))) (fun sc =>
      Ret (mkPrv (prvParams k) (prvVariant k) sc s, rng, false))).

Definition three (l : list fp2) : res pts := match l with [a; b; c] => Ret (a, b, c) | _ => Panic end.
(* PrivateKey.GeneratePublicKey, sidh.go:224-253: pub afterwards *)
Definition GeneratePublicKey (k : prvKey) (pub : pubKey) : res pubKey :=
  if negb (pubVariant pub =? prvVariant k) || negb (pID (pubParams pub) =? pID (prvParams k)) then Panic
  else
    bind (pkg (pID (prvParams k))) (fun Q =>
    bind (if onA (prvVariant k) then PublicKeyGenA_l Q (Scalar k) else PublicKeyGenB_l Q (Scalar k)) (fun l =>
    bind (three l) (fun x => Ret (mkPub (pubParams pub) (pubVariant pub) x)))).
(* PrivateKey.DeriveSecret, sidh.go:260-289: ss afterwards *)
Definition DeriveSecret (k : prvKey) (ss : list Z) (pub : pubKey) : res (list Z) :=
  if (pubVariant pub =? prvVariant k) || negb (pID (pubParams pub) =? pID (prvParams k)) then Panic
  else
    bind (pkg (pID (prvParams k))) (fun Q =>
    if onA (prvVariant k) then DeriveSecretA_l Q ss (Scalar k) (affine3Pt pub) else DeriveSecretB_l Q ss (Scalar k) (affine3Pt pub)).
(* PrivateKey.Init, sidh.go:301-311 (through Key.Init, 293-299): an S from an earlier use is kept unless v is Sike *)
Definition prvInit (r : registry) (k : prvKey) (id v : Z) : res prvKey :=
  bind (Params r id) (fun P =>
  let n := if onA v then SecretByteLen (pA P) else SecretByteLen (pB P) in
  Ret (mkPrv P v (repeat 0 (Z.to_nat n)) (if v =? KeyVariantSike then repeat 0 (Z.to_nat (MsgLen P)) else prvS k))).
