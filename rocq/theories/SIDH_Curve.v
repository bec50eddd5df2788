(* Model of dh/sidh/internal/{p434,p503,p751}/curve.go and core.go; the text of the three packages is
   identical up to the name of the prime.  Line numbers are those of p434.  A curve.go function is the
   list of its field calls on locations (Instr.v); a call of it runs the list on a frame holding the
   arguments (locals start as zero, as in Go) and reads off the results.  No two pointer arguments of
   these functions are ever equal in core.go, so frames with distinct locations are exact. *)
From Coq Require Import ZArith List Lia Bool.
From Verif Require Import Lib MP Instr SIDH_Consts SIDH_Field.
Import ListNotations.
Open Scope Z_scope.

(* Jinvariant, curve.go:27-46; A, C are the curve parameters, j the output *)
Definition Jinvariant_code : list instr :=
  let A := 0%nat in let C := 1%nat in let j := 2%nat in let t0 := 3%nat in let t1 := 4%nat in
    [ISqr j A;
     ISqr t1 C;
     IAdd t0 t1 t1;
     ISub t0 j t0;
     ISub t0 t0 t1;
     ISub j t0 t1;
     ISqr t1 t1;
     IMul j j t1;
     IAdd t0 t0 t0;
     IAdd t0 t0 t0;
     ISqr t1 t0;
     IMul t0 t0 t1;
     IAdd t0 t0 t0;
     IAdd t0 t0 t0;
     IInv j j;
     IMul j t0 j].

(* RecoverCoordinateA, curve.go:50-66; writes curve.A only *)
Definition RecoverCoordinateA_code : list instr :=
  let xp := 0%nat in let xq := 1%nat in let xr := 2%nat in let One := 3%nat in let A := 4%nat in let t0 := 5%nat in let t1 := 6%nat in
    [IAdd t1 xp xq;
     IMul t0 xp xq;
     IMul A xr t1;
     IAdd A A t0;
     IMul t0 t0 xr;
     ISub A A One;
     IAdd t0 t0 t0;
     IAdd t1 t1 xr;
     IAdd t0 t0 t0;
     ISqr A A;
     IInv t0 t0;
     IMul A A t0;
     ISub A A t1].

(* CalcCurveParamsEquiv3, curve.go:69-79 *)
Definition Equiv3_code : list instr :=
  let A := 0%nat in let C := 1%nat in let eA := 2%nat in let eC := 3%nat in let c2 := 4%nat in
    [IAdd c2 C C;
     IAdd eA A c2;
     ISub eC A c2].

(* CalcCurveParamsEquiv4, curve.go:82-91 *)
Definition Equiv4_code : list instr :=
  let A := 0%nat in let C := 1%nat in let eA := 2%nat in let eC := 3%nat in
    [IAdd eC C C;
     IAdd eA A eC;
     IAdd eC eC eC].

(* CalcAplus2Over4, curve.go:94-107 *)
Definition Aplus2Over4_code : list instr :=
  let A := 0%nat in let C := 1%nat in let ret := 2%nat in let tmp := 3%nat in
    [IAdd tmp C C;
     IAdd ret A tmp;
     IAdd tmp tmp tmp;
     IInv tmp tmp;
     IMul ret ret tmp].

(* RecoverCurveCoefficients3, curve.go:110-117 *)
Definition Recover3_code : list instr :=
  let eA := 0%nat in let eC := 1%nat in let A := 2%nat in let C := 3%nat in
    [IAdd A eA eC;
     IAdd A A A;
     ISub C eA eC].

(* RecoverCurveCoefficients4, curve.go:120-127 *)
Definition Recover4_code : list instr :=
  let eA := 0%nat in let eC := 1%nat in let Half := 2%nat in let A := 3%nat in let C := 4%nat in
    [IMul C eC Half;
     ISub A eA C;
     IMul C C Half].

(* xDbladd, curve.go:132-161; outputs are the fresh return values *)
Definition xDbladd_code : list instr :=
  let xP := 0%nat in let zP := 1%nat in let xQ := 2%nat in let zQ := 3%nat in let xQmP := 4%nat in let zQmP := 5%nat in let a24 := 6%nat in let x2P := 7%nat in let z2P := 8%nat in let xPaQ := 9%nat in let zPaQ := 10%nat in let t0 := 11%nat in let t1 := 12%nat in let t2 := 13%nat in
    [IAdd t0 xP zP;
     ISub t1 xP zP;
     ISqr x2P t0;
     ISub t2 xQ zQ;
     IAdd xPaQ xQ zQ;
     IMul t0 t0 t2;
     IMul z2P t1 t1;
     IMul t1 t1 xPaQ;
     ISub t2 x2P z2P;
     IMul x2P x2P z2P;
     IMul xPaQ a24 t2;
     ISub zPaQ t0 t1;
     IAdd z2P xPaQ z2P;
     IAdd xPaQ t0 t1;
     IMul z2P z2P t2;
     ISqr zPaQ zPaQ;
     ISqr xPaQ xPaQ;
     IMul zPaQ xQmP zPaQ;
     IMul xPaQ zQmP xPaQ].

(* Pow2k, curve.go:165-181: one round of the loop; x, z are updated in place *)
Definition Pow2k_code : list instr :=
  let x := 0%nat in let z := 1%nat in let A24p := 2%nat in let C24 := 3%nat in let t0 := 4%nat in let t1 := 5%nat in
    [ISub t0 x z;
     IAdd t1 x z;
     ISqr t0 t0;
     ISqr t1 t1;
     IMul z C24 t0;
     IMul x z t1;
     ISub t1 t1 t0;
     IMul t0 A24p t1;
     IAdd z z t0;
     IMul z z t1].

(* Pow3k, curve.go:186-214: one round of the loop; x, z are updated in place *)
Definition Pow3k_code : list instr :=
  let x := 0%nat in let z := 1%nat in let A24p := 2%nat in let A24m := 3%nat in let t0 := 4%nat in let t1 := 5%nat in let t2 := 6%nat in let t3 := 7%nat in let t4 := 8%nat in let t5 := 9%nat in let t6 := 10%nat in
    [ISub t0 x z;
     ISqr t2 t0;
     IAdd t1 x z;
     ISqr t3 t1;
     IAdd t4 t1 t0;
     ISub t0 t1 t0;
     ISqr t1 t4;
     ISub t1 t1 t3;
     ISub t1 t1 t2;
     IMul t5 t3 A24p;
     IMul t3 t3 t5;
     IMul t6 t2 A24m;
     IMul t2 t2 t6;
     ISub t3 t2 t3;
     ISub t2 t5 t6;
     IMul t1 t2 t1;
     IAdd t2 t3 t1;
     ISqr t2 t2;
     IMul x t2 t4;
     ISub t1 t3 t1;
     ISqr t1 t1;
     IMul z t1 t0].

(* Fp2Batch3Inv, curve.go:219-230 *)
Definition Batch3Inv_code : list instr :=
  let x1 := 0%nat in let x2 := 1%nat in let x3 := 2%nat in let y1 := 3%nat in let y2 := 4%nat in let y3 := 5%nat in let x1x2 := 6%nat in let t := 7%nat in
    [IMul x1x2 x1 x2;
     IMul t x1x2 x3;
     IInv t t;
     IMul y1 t x2;
     IMul y1 y1 x3;
     IMul y2 t x1;
     IMul y2 y2 x3;
     IMul y3 t x1x2].

(* isogeny3.GenerateCurve, curve.go:261-287 *)
Definition gen3_code : list instr :=
  let pX := 0%nat in let pZ := 1%nat in let K1 := 2%nat in let K2 := 3%nat in let eA := 4%nat in let eC := 5%nat in let t0 := 6%nat in let t1 := 7%nat in let t2 := 8%nat in let t3 := 9%nat in let t4 := 10%nat in
    [ISub K1 pX pZ;
     ISqr t0 K1;
     IAdd K2 pX pZ;
     ISqr t1 K2;
     IAdd t2 t0 t1;
     IAdd t3 K1 K2;
     ISqr t3 t3;
     ISub t3 t3 t2;
     IAdd t2 t1 t3;
     IAdd t3 t3 t0;
     IAdd t4 t3 t0;
     IAdd t4 t4 t4;
     IAdd t4 t1 t4;
     IMul eC t2 t4;
     IAdd t4 t1 t2;
     IAdd t4 t4 t4;
     IAdd t4 t0 t4;
     IMul t4 t3 t4;
     ISub t0 t4 eC;
     IAdd eA eC t0].

(* isogeny3.EvaluatePoint, curve.go:294-311 *)
Definition eval3_code : list instr :=
  let K1 := 0%nat in let K2 := 1%nat in let px := 2%nat in let pz := 3%nat in let qX := 4%nat in let qZ := 5%nat in let t0 := 6%nat in let t1 := 7%nat in let t2 := 8%nat in
    [IAdd t0 px pz;
     ISub t1 px pz;
     IMul t0 K1 t0;
     IMul t1 K2 t1;
     IAdd t2 t0 t1;
     ISub t0 t1 t0;
     ISqr t2 t2;
     ISqr t0 t0;
     IMul qX px t2;
     IMul qZ pz t0].

(* isogeny4.GenerateCurve, curve.go:319-334 *)
Definition gen4_code : list instr :=
  let xp4 := 0%nat in let zp4 := 1%nat in let K1 := 2%nat in let K2 := 3%nat in let K3 := 4%nat in let eA := 5%nat in let eC := 6%nat in
    [ISub K2 xp4 zp4;
     IAdd K3 xp4 zp4;
     ISqr K1 zp4;
     IAdd K1 K1 K1;
     ISqr eC K1;
     IAdd K1 K1 K1;
     ISqr eA xp4;
     IAdd eA eA eA;
     ISqr eA eA].

(* isogeny4.EvaluatePoint, curve.go:341-362; q is a copy of p *)
Definition eval4_code : list instr :=
  let K1 := 0%nat in let K2 := 1%nat in let K3 := 2%nat in let xq := 3%nat in let zq := 4%nat in let t0 := 5%nat in let t1 := 6%nat in
    [IAdd t0 xq zq;
     ISub t1 xq zq;
     IMul xq t0 K2;
     IMul zq t1 K3;
     IMul t0 t0 t1;
     IMul t0 t0 K1;
     IAdd t1 xq zq;
     ISub zq xq zq;
     ISqr t1 t1;
     ISqr zq zq;
     IAdd xq t0 t1;
     ISub t0 zq t0;
     IMul xq xq t1;
     IMul zq zq t0].

(* what the curve code needs besides the arithmetic of Instr.v *)
Record sops : Type := mkSops {
  so : fops;
  s0 : car so;                 (* the zero value of Fp2 *)
  sOne : car so;               (* params.OneFp2 *)
  sHalf : car so;              (* params.HalfFp2 *)
  sCA : car so;                (* params.InitCurve.A *)
  sCC : car so;                (* params.InitCurve.C *)
  scswap : car so -> car so -> Z -> car so * car so   (* one half of cswap, fp2.go:153-158 *)
}.
Inductive res (A : Type) : Type := Ret (a : A) | Panic.
Arguments Ret {A} a. Arguments Panic {A}.
Definition bind {A B : Type} (x : res A) (f : A -> res B) : res B := match x with Ret a => f a | Panic => Panic end.

(* params.A / params.B of one package, with points of the field at hand *)
Record dom (T : Type) : Type := mkDom { dP : T; dQ : T; dR : T; dBits : Z; dStrat : list Z }.
Arguments mkDom {T}. Arguments dP {T}. Arguments dQ {T}. Arguments dR {T}. Arguments dBits {T}. Arguments dStrat {T}.

Section Code.
Variable V : sops.
Let op := so V.
Let fe := car op.
Definition point : Type := (fe * fe)%type.      (* ProjectivePoint (X, Z) *)
Definition curve : Type := (fe * fe)%type.      (* ProjectiveCurveParameters / CurveCoefficientsEquiv (A, C) *)
Definition call (c : list instr) (l : list fe) : nat -> fe := run op c (args op (s0 V) l).

Definition Jinvariant (c : curve) : fe := call Jinvariant_code [fst c; snd c] 2%nat.
Definition RecoverCoordinateA (c : curve) (xp xq xr : fe) : curve :=
  (call RecoverCoordinateA_code [xp; xq; xr; sOne V] 4%nat, snd c).
Definition CalcCurveParamsEquiv3 (c : curve) : curve := let m := call Equiv3_code [fst c; snd c] in (m 2%nat, m 3%nat).
Definition CalcCurveParamsEquiv4 (c : curve) : curve := let m := call Equiv4_code [fst c; snd c] in (m 2%nat, m 3%nat).
Definition CalcAplus2Over4 (c : curve) : fe := call Aplus2Over4_code [fst c; snd c] 2%nat.
Definition RecoverCurveCoefficients3 (e : curve) : curve := let m := call Recover3_code [fst e; snd e] in (m 2%nat, m 3%nat).
Definition RecoverCurveCoefficients4 (e : curve) : curve := let m := call Recover4_code [fst e; snd e; sHalf V] in (m 3%nat, m 4%nat).
Definition xDbladd (P Q QmP : point) (a24 : fe) : point * point :=
  let m := call xDbladd_code [fst P; snd P; fst Q; snd Q; fst QmP; snd QmP; a24] in ((m 7%nat, m 8%nat), (m 9%nat, m 10%nat)).
Definition Pow2k (xP : point) (e : curve) (k : Z) : point :=
  let m := call (concat (repeat Pow2k_code (Z.to_nat k))) [fst xP; snd xP; fst e; snd e] in (m 0%nat, m 1%nat).
Definition Pow3k (xP : point) (e : curve) (k : Z) : point :=
  let m := call (concat (repeat Pow3k_code (Z.to_nat k))) [fst xP; snd xP; fst e; snd e] in (m 0%nat, m 1%nat).
Definition Fp2Batch3Inv (x1 x2 x3 : fe) : fe * fe * fe :=
  let m := call Batch3Inv_code [x1; x2; x3] in (m 3%nat, m 4%nat, m 5%nat).
(* the isogeny's constants (K1, K2) / (K1, K2, K3) and the coefficients of the image curve *)
Definition phi3 : Type := (fe * fe)%type.
Definition phi4 : Type := (fe * fe * fe)%type.
Definition GenerateCurve3 (p : point) : curve * phi3 :=
  let m := call gen3_code [fst p; snd p] in ((m 4%nat, m 5%nat), (m 2%nat, m 3%nat)).
Definition EvaluatePoint3 (phi : phi3) (p : point) : point :=
  let m := call eval3_code [fst phi; snd phi; fst p; snd p] in (m 4%nat, m 5%nat).
Definition GenerateCurve4 (p : point) : curve * phi4 :=
  let m := call gen4_code [fst p; snd p] in ((m 5%nat, m 6%nat), (m 2%nat, m 3%nat, m 4%nat)).
Definition EvaluatePoint4 (phi : phi4) (p : point) : point :=
  let '(K1, K2, K3) := phi in
  let m := call eval4_code [K1; K2; K3; fst p; snd p] in (m 3%nat, m 4%nat).

(* cswap(&R1.X, &R1.Z, &R2.X, &R2.Z, swap), fp2.go:153-158 *)
Definition cswapPt (P Q : point) (choice : Z) : point * point :=
  let '(x1, x2) := scswap V (fst P) (fst Q) choice in
  let '(z1, z2) := scswap V (snd P) (snd Q) choice in ((x1, z1), (x2, z2)).
(* ScalarMul3Pt, curve.go:235-253; scalar[i>>3] panics when out of range *)
Definition scalarBit (scalar : list Z) (i : nat) : res Z :=
  match nth_error scalar (i / 8)%nat with
  | Some b => Ret (Z.land (Z.shiftr b (Z.land (Z.of_nat i) 7)) 1)
  | None => Panic
  end.
Definition ladder_step (a24 : fe) (scalar : list Z) (st : res (point * point * point * Z)) (i : nat) : res (point * point * point * Z) :=
  bind st (fun '(R0, R1, R2, prevBit) =>
  bind (scalarBit scalar i) (fun bit =>
  let swap := Z.lxor prevBit bit in
  let '(R1, R2) := cswapPt R1 R2 swap in
  let '(R0, R2) := xDbladd R0 R2 R1 a24 in
  Ret (R0, R1, R2, bit))).
Definition ScalarMul3Pt (c : curve) (P Q PmQ : point) (nbits : Z) (scalar : list Z) : res point :=
  let a24 := CalcAplus2Over4 c in
  bind (fold_left (ladder_step a24 scalar) (seq 0 (Z.to_nat nbits)) (Ret (Q, P, PmQ, 0))) (fun '(R0, R1, R2, prevBit) =>
  let '(R1, R2) := cswapPt R1 R2 prevBit in Ret R1).

(* ---------- core.go ---------- *)
(* the four traverseTree functions (core.go:20-53, 57-87, 91-125, 129-159) have one text, with Pow2k/2*k or
   Pow3k/k, isogeny4 or isogeny3, and with or without the three points phiP, phiQ, phiR (here: list ps) *)
Section Traverse.
  Context {PHI : Type}.
  Variable pow : point -> curve -> Z -> point.
  Variable genc : point -> curve * PHI.
  Variable evalp : PHI -> point -> point.
  Variable strat : list Z.
  Let stratSz := Z.of_nat (length strat).
  (* for i <= stratSz-j { ... }: the stacks points and indices have their top at the head *)
  Fixpoint trav_inner (fuel : nat) (j : Z) (cp : curve) (xR : point) (points : list point) (indices : list Z) (i : Z) (sIdx : nat)
    : res (point * list point * list Z * Z * nat) :=
    match fuel with
    | O => Panic
    | S fuel =>
      if i <=? stratSz - j then
        match nth_error strat sIdx with
        | None => Panic
        | Some k => trav_inner fuel j cp (pow xR cp k) (xR :: points) (i :: indices) (i + k) (S sIdx)
        end
      else Ret (xR, points, indices, i, sIdx)
    end.
  (* one round of for j := 1; j <= stratSz; j++ *)
  Definition trav_state : Type := (curve * point * list point * list Z * Z * nat * list point)%type.
  Definition trav_step (st : res trav_state) (j : nat) : res trav_state :=
    bind st (fun '(cp, xR, points, indices, i, sIdx, ps) =>
    bind (trav_inner (length strat + 2) (Z.of_nat j) cp xR points indices i sIdx) (fun '(xR, points, indices, i, sIdx) =>
    let '(cp, phi) := genc xR in
    let points := map (evalp phi) points in
    let ps := map (evalp phi) ps in
    match points, indices with
    | xR :: points, i :: indices => Ret (cp, xR, points, indices, i, sIdx, ps)
    | _, _ => Panic
    end)).
  Definition traverse (cp : curve) (xR : point) (ps : list point) : res (point * list point) :=
    bind (fold_left trav_step (seq 1 (length strat)) (Ret (cp, xR, [], [], 0, 0%nat, ps))) (fun '(cp, xR, points, indices, i, sIdx, ps) =>
    Ret (xR, ps)).
End Traverse.

(* Pow2k(xR, &cparam, 2*k) with k uint32 *)
Definition pow4 (p : point) (e : curve) (k : Z) : point := Pow2k p e ((2 * k) mod 2 ^ 32).
Variables DA DB : dom fe.     (* params.A, params.B *)
Definition traverseTreePublicKeyA (c : curve) (xR P Q R : point) : res (point * list point) :=
  traverse pow4 GenerateCurve4 EvaluatePoint4 (dStrat DA) (CalcCurveParamsEquiv4 c) xR [P; Q; R].
Definition traverseTreeSharedKeyA (c : curve) (xR : point) : res (point * list point) :=
  traverse pow4 GenerateCurve4 EvaluatePoint4 (dStrat DA) (CalcCurveParamsEquiv4 c) xR [].
Definition traverseTreePublicKeyB (c : curve) (xR P Q R : point) : res (point * list point) :=
  traverse Pow3k GenerateCurve3 EvaluatePoint3 (dStrat DB) (CalcCurveParamsEquiv3 c) xR [P; Q; R].
Definition traverseTreeSharedKeyB (c : curve) (xR : point) : res (point * list point) :=
  traverse Pow3k GenerateCurve3 EvaluatePoint3 (dStrat DB) (CalcCurveParamsEquiv3 c) xR [].

Definition InitCurve : curve := (sCA V, sCC V).
Definition affPt (x : fe) : point := (x, sOne V).
(* lines 185-192 / 218-225: evaluate, invert the three Z, multiply *)
Definition pub3 (P Q R : point) : list fe :=
  let '(iP, iQ, iR) := Fp2Batch3Inv (snd P) (snd Q) (snd R) in
  [fmul op (fst P) iP; fmul op (fst Q) iQ; fmul op (fst R) iR].
(* PublicKeyGenA, core.go:163-193; returns pub3Pt *)
Definition PublicKeyGenA (prv : list Z) : res (list fe) :=
  bind (ScalarMul3Pt InitCurve (affPt (dP DA)) (affPt (dQ DA)) (affPt (dR DA)) (dBits DA) prv) (fun xR =>
  bind (traverseTreePublicKeyA InitCurve xR (affPt (dP DB)) (affPt (dQ DB)) (affPt (dR DB))) (fun '(xR, ps) =>
  match ps with
  | [xPB; xQB; xRB] => let '(_, phi) := GenerateCurve4 xR in
      Ret (pub3 (EvaluatePoint4 phi xPB) (EvaluatePoint4 phi xQB) (EvaluatePoint4 phi xRB))
  | _ => Panic
  end)).
(* PublicKeyGenB, core.go:197-226 *)
Definition PublicKeyGenB (prv : list Z) : res (list fe) :=
  bind (ScalarMul3Pt InitCurve (affPt (dP DB)) (affPt (dQ DB)) (affPt (dR DB)) (dBits DB) prv) (fun xR =>
  bind (traverseTreePublicKeyB InitCurve xR (affPt (dP DA)) (affPt (dQ DA)) (affPt (dR DA))) (fun '(xR, ps) =>
  match ps with
  | [xPA; xQA; xRA] => let '(_, phi) := GenerateCurve3 xR in
      Ret (pub3 (EvaluatePoint3 phi xPA) (EvaluatePoint3 phi xQA) (EvaluatePoint3 phi xRA))
  | _ => Panic
  end)).
(* DeriveSecretA, core.go:233-258, up to the j-invariant *)
Definition DeriveJA (prv : list Z) (pub3Pt : fe * fe * fe) : res fe :=
  let '(x0, x1, x2) := pub3Pt in
  let cparam := RecoverCoordinateA InitCurve x0 x1 x2 in
  bind (ScalarMul3Pt cparam (affPt x0) (affPt x1) (affPt x2) (dBits DA) prv) (fun xR =>
  bind (traverseTreeSharedKeyA cparam xR) (fun '(xR, _) =>
  let '(c, _) := GenerateCurve4 xR in
  Ret (Jinvariant (RecoverCurveCoefficients4 c)))).
(* DeriveSecretB, core.go:261-286, up to the j-invariant *)
Definition DeriveJB (prv : list Z) (pub3Pt : fe * fe * fe) : res fe :=
  let '(x0, x1, x2) := pub3Pt in
  let cparam := RecoverCoordinateA InitCurve x0 x1 x2 in
  bind (ScalarMul3Pt cparam (affPt x0) (affPt x1) (affPt x2) (dBits DB) prv) (fun xR =>
  bind (traverseTreeSharedKeyB cparam xR) (fun '(xR, _) =>
  let '(c, _) := GenerateCurve3 xR in
  Ret (Jinvariant (RecoverCurveCoefficients3 c)))).
End Code.

(* ---------- the code on limb vectors ---------- *)
(* BytesToFp2, common/utils.go:17-28: ORs into the words already there *)
Definition orByte (l : list Z) (i : nat) (b : Z) : list Z := upd l (i / 8) (Z.lor (nth (i / 8) l 0) (Z.shiftl b (8 * Z.of_nat (i mod 8)) mod 2 ^ 64)).
Definition BytesToFp2 (x : fp2) (input : list Z) (bytelen : Z) : res fp2 :=
  if Z.of_nat (length input) <? 2 * bytelen then Panic
  else Ret (fold_left (fun '(a, b) i => (orByte a i (nth i input 0), orByte b i (nth (i + Z.to_nat bytelen) input 0)))
              (seq 0 (Z.to_nat bytelen)) x).
(* Fp2ToBytes, common/utils.go:33-46, the first 2*bytelen bytes of output *)
Definition fpByte (a : list Z) (i : nat) : Z := Z.shiftr (nth (i / 8) a 0) (8 * Z.of_nat (i mod 8)) mod 256.
Definition fpToBytes (a : list Z) (bytelen : Z) : list Z := map (fpByte a) (seq 0 (Z.to_nat bytelen)).
Definition Fp2ToBytes (output : list Z) (x : fp2) (bytelen : Z) : res (list Z) :=
  if Z.of_nat (length output) <? 2 * bytelen then Panic
  else Ret (fpToBytes (fst x) bytelen ++ fpToBytes (snd x) bytelen ++ skipn (Z.to_nat (2 * bytelen)) output).

Section Limbs.
  Variable P : sidhParams.
  Let F := pField P.
  Definition limbOps : sops := mkSops (sidhOps F (OneFp2 P)) (zeroFp F, zeroFp F) (OneFp2 P) (HalfFp2 P) (InitA P) (InitC P) fp2cswap.
  Definition limbDom (d : domainParams) : dom fp2 := mkDom (AffineP d) (AffineQ d) (AffineR d) (SecretBitLen d) (IsogenyStrategy d).
  Definition PublicKeyGenA_l (prv : list Z) : res (list fp2) := PublicKeyGenA limbOps (limbDom (pA P)) (limbDom (pB P)) prv.
  Definition PublicKeyGenB_l (prv : list Z) : res (list fp2) := PublicKeyGenB limbOps (limbDom (pA P)) (limbDom (pB P)) prv.
  (* DeriveSecretA / DeriveSecretB: the new content of ss *)
  Definition DeriveSecretA_l (ss prv : list Z) (pub : fp2 * fp2 * fp2) : res (list Z) :=
    bind (DeriveJA limbOps (limbDom (pA P)) prv pub) (fun j => Fp2ToBytes ss (FromMontgomery F j) (Bytelen P)).
  Definition DeriveSecretB_l (ss prv : list Z) (pub : fp2 * fp2 * fp2) : res (list Z) :=
    bind (DeriveJB limbOps (limbDom (pB P)) prv pub) (fun j => Fp2ToBytes ss (FromMontgomery F j) (Bytelen P)).
End Limbs.
