(* Model of the portable field arithmetic of dh/sidh/internal/{p434,p503,p751}: arith_generic.go and
   fp2.go.  The three packages are generated from one template: their arith_generic.go, curve.go and
   core.go are the same text up to the prime's name, fp2.go differs only in the strategy literals of
   p34; the model is therefore written once, over the package's constants F : fieldParams
   (SIDH_Consts.v).  Line numbers are those of internal/p434.

   common.Fp ([12]uint64) is the list of its FpWords used words, common.FpX2 ([24]uint64) the list of
   its 2*FpWords used words, common.Fp2 the pair (A, B).  The words above FpWords are never written
   by any function of the packages, and are read only by FromMontgomery's copy (lines 186 and 192), where
   they are zero.  Functions return the new value of their destination. *)
From Coq Require Import ZArith List Lia Bool.
From Verif Require Import Lib MP Instr SIDH_Consts.
Import ListNotations.
Open Scope Z_scope.

Section Field.
Variable F : fieldParams.
Notation n := (FpWords F).

(* x[i] & mask for all words, mask = 0 - b for a carry or borrow b *)
Definition masked (x : list Z) (b : Z) : list Z := map (fun w => Z.land w (sub64w 0 b)) x.

(* addP434, arith_generic.go lines 15-35 *)
Definition addP (x y : list Z) : list Z :=
  let '(z, _) := addc x y 0 in
  let '(z, carry) := subb z (fPx2 F) 0 in
  let '(z, _) := addc z (masked (fPx2 F) carry) 0 in z.

(* subP434, lines 38-51 *)
Definition subP (x y : list Z) : list Z :=
  let '(z, borrow) := subb x y 0 in
  let '(z, _) := addc z (masked (fPx2 F) borrow) 0 in z.

(* cswapP434, lines 58-67; mask is a uint8 *)
Fixpoint cswap_words (m : Z) (x y : list Z) : list Z * list Z :=
  match x, y with
  | a :: x', b :: y' =>
      let tmp := Z.land m (Z.lxor a b) in
      let '(x'', y'') := cswap_words m x' y' in (Z.lxor tmp a :: x'', Z.lxor tmp b :: y'')
  | _, _ => ([], [])
  end.
Definition cswapP (x y : list Z) (mask : Z) : list Z * list Z := cswap_words (sub64w 0 mask) x y.

(* the accumulator (v, u, t) of mulP434 and rdcP434:
     hi, lo = bits.Mul64(a, b); v, carry = bits.Add64(lo, v, 0)
     u, carry = bits.Add64(hi, u, carry); t += carry *)
Definition mac (s : Z * Z * Z) (a b : Z) : Z * Z * Z :=
  let '(v, u, t) := s in
  let '(hi, lo) := Mul64 a b in
  let '(v, carry) := Add64 lo v 0 in
  let '(u, carry) := Add64 hi u carry in
  (v, u, add64w t carry).
(*   v, carry = bits.Add64(v, w, 0); u, carry = bits.Add64(u, 0, carry); t += carry *)
Definition accw (s : Z * Z * Z) (w : Z) : Z * Z * Z :=
  let '(v, u, t) := s in
  let '(v, carry) := Add64 v w 0 in
  let '(u, carry) := Add64 u 0 carry in
  (v, u, add64w t carry).

(* one column of the inner loops: for j in js { if cond j { mac x[j] y[i-j] } } *)
Definition col (cond : nat -> bool) (x y : list Z) (i : nat) (js : list nat) (s : Z * Z * Z) : Z * Z * Z :=
  fold_left (fun s j => if cond j then mac s x.[j] y.[i - j] else s) js s.

(* rdcP434, lines 71-120.  z is updated in place; the initial content of z is dead. *)
(* lines 78-95: body for one i < FpWords *)
Definition rdc_step1 (x : list Z) (st : list Z * (Z * Z * Z)) (i : nat) : list Z * (Z * Z * Z) :=
  let '(z, s) := st in
  let s := col (fun j => Z.of_nat j <? Z.of_nat i - fp1Zeros F + 1) z (fPp1 F) i (seq 0 i) s in
  let '(v, u, t) := accw s x.[i] in
  (upd z i v, (u, t, 0)).
(* lines 97-116: body for one i >= FpWords; count is decremented while positive *)
Definition rdc_step2 (x : list Z) (st : list Z * (Z * Z * Z) * Z) (i : nat) : list Z * (Z * Z * Z) * Z :=
  let '(z, s, count) := st in
  let count := if 0 <? count then count - 1 else count in
  let s := col (fun j => Z.of_nat j <? Z.of_nat n - count) z (fPp1 F) i (seq (i - n + 1) (n - (i - n + 1))) s in
  let '(v, u, t) := accw s x.[i] in
  (upd z (i - n) v, (u, t, 0), count).
Definition rdcP (z0 x : list Z) : list Z :=
  let '(z, s) := fold_left (rdc_step1 x) (seq 0 n) (z0, (0, 0, 0)) in
  let '(z, s, _) := fold_left (rdc_step2 x) (seq n (n - 1)) (z, s, fp1Zeros F) in
  let '(v, u, t) := s in
  let '(v, _) := Add64 v x.[2 * n - 1] 0 in
  upd z (n - 1) v.

(* mulP434, lines 123-154.  The words of z are assigned in order. *)
Definition mul_step (lo hi : nat -> nat) (x y : list Z) (st : list Z * (Z * Z * Z)) (i : nat) : list Z * (Z * Z * Z) :=
  let '(z, s) := st in
  let '(v, u, t) := col (fun _ => true) x y i (seq (lo i) (hi i - lo i)) s in
  (z ++ [v], (u, t, 0)).
Definition mulPx (x y : list Z) : list Z :=
  let st := fold_left (mul_step (fun _ => 0%nat) (fun i => i + 1)%nat x y) (seq 0 n) ([], (0, 0, 0)) in
  let '(z, (v, u, t)) := fold_left (mul_step (fun i => i - n + 1)%nat (fun _ => n) x y) (seq n (n - 1)) st in
  z ++ [v].

(* adlP434, lines 157-162 *)
Definition adlP (x y : list Z) : list Z := fst (addc x y 0).

(* modP434, lines 165-177 *)
Definition modP (x : list Z) : list Z :=
  let '(x, borrow) := subb x (fP F) 0 in
  fst (addc x (masked (fP F) borrow) 0).

(* sulP434, lines 180-192: the modulus is added to the upper half *)
Definition sulP (x y : list Z) : list Z :=
  let '(z, borrow) := subb x y 0 in
  firstn n z ++ fst (addc (skipn n z) (masked (fP F) borrow) 0).

(* ---------- fp2.go ---------- *)
Definition zeroFp : list Z := repeat 0 n.
(* rdc into a fresh or dead destination *)
Definition rdc (x : list Z) : list Z := rdcP zeroFp x.
(* mulP, lines 12-16 *)
Definition mulP (x y : list Z) : list Z := rdc (mulPx x y).

(* p34, lines 26-55 *)
Fixpoint sqrs (k : nat) (d : list Z) : list Z := match k with O => d | S k => sqrs k (mulP d d) end.
Definition lookup34 (x : list Z) : list (list Z) :=
  let xx := mulP x x in
  fold_left (fun t _ => t ++ [mulP (last t []) xx]) (seq 1 15) [x].
Definition p34_step (lookup : list (list Z)) (d : list Z) (pm : Z * Z) : list Z :=
  let '(pw, ml) := pm in
  let d := mulP d d in
  (* for j := uint8(1); j < powStrategy[i]; j++ *)
  let d := sqrs (Z.to_nat (pw - 1)) d in
  mulP d (nth (Z.to_nat ml) lookup []).
Definition p34 (x : list Z) : list Z :=
  let lookup := lookup34 x in
  (* for i := uint8(0); i < uint8(len(powStrategy)); i++ *)
  let len := (length (powStrategy F) mod 256)%nat in
  fold_left (p34_step lookup) (firstn len (combine (powStrategy F) (mulStrategy F)))
            (nth (initialMul F) lookup []).

Definition fp2 : Type := (list Z * list Z)%type.
(* add, lines 57-60 *)
Definition fp2add (x y : fp2) : fp2 := (addP (fst x) (fst y), addP (snd x) (snd y)).
(* sub, lines 62-65 *)
Definition fp2sub (x y : fp2) : fp2 := (subP (fst x) (fst y), subP (snd x) (snd y)).
(* mul, lines 67-92 *)
Definition fp2mul (lhs rhs : fp2) : fp2 :=
  let ac := mulPx (fst lhs) (fst rhs) in
  let bd := mulPx (snd lhs) (snd rhs) in
  let bMinA := subP (snd lhs) (fst lhs) in
  let cMinD := subP (fst rhs) (snd rhs) in
  let adPlusBc := mulPx bMinA cMinD in
  let adPlusBc := adlP adPlusBc ac in
  let adPlusBc := adlP adPlusBc bd in
  let destB := rdc adPlusBc in
  let acMinBd := sulP ac bd in
  let destA := rdc acMinBd in
  (destA, destB).
(* inv, lines 99-130 *)
Definition fp2inv (x : fp2) : fp2 :=
  let e1 := mulPx (fst x) (fst x) in
  let e2 := mulPx (snd x) (snd x) in
  let e1 := adlP e1 e2 in
  let f1 := rdc e1 in
  let f2 := mulP f1 f1 in
  let f2 := p34 f2 in
  let f2 := mulP f2 f2 in
  let f2 := mulP f2 f1 in
  let e1 := mulPx (fst x) f2 in
  let destA := rdc e1 in
  let f1 := subP zeroFp (snd x) in
  let e1 := mulPx f1 f2 in
  let destB := rdc e1 in
  (destA, destB).
(* sqr, lines 132-147 *)
Definition fp2sqr (x : fp2) : fp2 :=
  let a := fst x in
  let b := snd x in
  let a2 := addP a a in
  let aPlusB := addP a b in
  let aMinusB := subP a b in
  let a2MinB2 := mulPx aPlusB aMinusB in
  let ab2 := mulPx a2 b in
  (rdc a2MinB2, rdc ab2).
(* cswap, lines 153-158, on one pair of coordinates *)
Definition fp2cswap (x y : fp2) (choice : Z) : fp2 * fp2 :=
  let '(xa, ya) := cswapP (fst x) (fst y) choice in
  let '(xb, yb) := cswapP (snd x) (snd y) choice in
  ((xa, xb), (ya, yb)).
(* ToMontgomery, lines 165-174 *)
Definition ToMontgomery (x : fp2) : fp2 :=
  (rdc (mulPx (fst x) (fR2 F)), rdc (mulPx (snd x) (fR2 F))).
(* FromMontgomery, lines 182-195 *)
Definition FromMontgomery (x : fp2) : fp2 :=
  (modP (rdc (fst x ++ repeat 0 n)), modP (rdc (snd x ++ repeat 0 n))).

(* the instruction set of the curve layer (no power instruction occurs in its programs) *)
Fixpoint fp2powp (x : fp2) (k : positive) : fp2 :=
  match k with
  | xH => x
  | xO k => let y := fp2powp x k in fp2mul y y
  | xI k => let y := fp2powp x k in fp2mul x (fp2mul y y)
  end.
Definition sidhOps (one : fp2) : fops :=
  mkFops fp2 fp2add fp2sub fp2mul fp2sqr fp2inv
    (fun x k => match k with Z0 => one | Zpos k => fp2powp x k | Zneg _ => (zeroFp, zeroFp) end).
End Field.
