(* dh/csidh in the amd64 build: curve.go and csidh.go over the machine code of the field.  The text follows CSIDH_Model.v with every
   call of mulRdc, mul512, cswap512, modExpRdc512, modExpRdc64 and isNonQuadRes replaced by that of CSIDH_AmdKern; addRdc, subRdc,
   isLess, isZero, equal are the same Go code in both builds.  None is a run that is stuck. *)
From Coq Require Import ZArith List Bool.
From Verif Require Import Lib MP Instr CSIDH_Field CSIDH_Curve CSIDH_Model CSIDH_AmdKern.
Import ListNotations.
Open Scope Z_scope.

(* one field call of curve.go, with the pointers as they are *)
Definition stepA (M : amd) (m : nat -> list Z) (i : instr) : option (nat -> list Z) :=
  match i with
  | IAdd d a b => Some (mset m d (addRdc (m a) (m b)))
  | ISub d a b => Some (mset m d (subRdc (m a) (m b)))
  | IMul d a b => ob (mulRdcA M d a b m) (fun r => Some (mset m d r))
  | ISqr d a => ob (mulRdcA M d a a m) (fun r => Some (mset m d r))
  | IInv d a => ob (modExp512A M (m a) pMin1) (fun r => Some (mset m d r))
  | ICopy d a => Some (mset m d (m a))
  | ISwap a b c => if (a =? b)%nat then None else ob (cswap512A M (m a) (m b) (if c then 1 else 0)) (fun '(x, y) => Some (mset (mset m a x) b y))
  | IPow d a k => ob (modExp64A M (m a) k) (fun r => Some (mset m d r))
  end.
Fixpoint runA (M : amd) (p : list instr) (m : nat -> list Z) : option (nat -> list Z) :=
  match p with [] => Some m | i :: p => ob (stepA M m i) (runA M p) end.

Definition frameF : list (list Z) -> nat -> list Z := frame fpOps fpZero one four.
Definition fpt : Type := (list Z * list Z)%type.
Definition getF (m : nat -> list Z) (q : ploc) : fpt := (m q.(px), m q.(pz)).
(* curve.go called from csidh.go *)
Definition xDblA (M : amd) (P A : fpt) : option fpt :=
  ob (runA M (xDbl_code (mkpl 0 1) (mkpl 0 1) (mkpl 2 3)) (frameF [fst P; snd P; fst A; snd A])) (fun m => Some (getF m (mkpl 0 1))).
Definition xMulA (M : amd) (P co : fpt) (k : list Z) : option fpt :=
  ob (runA M (xMul_code (mkpl 4 5) (mkpl 0 1) (mkpl 2 3) k) (frameF [fst P; snd P; fst co; snd co])) (fun m => Some (getF m (mkpl 4 5))).
Definition xMulA_ip (M : amd) (P co : fpt) (k : list Z) : option fpt :=
  ob (runA M (xMul_code (mkpl 0 1) (mkpl 0 1) (mkpl 2 3) k) (frameF [fst P; snd P; fst co; snd co])) (fun m => Some (getF m (mkpl 0 1))).
Definition xIsoA (M : amd) (img co kern : fpt) (order : Z) : option (fpt * fpt) :=
  ob (runA M (xIso_code (mkpl 0 1) (mkpl 2 3) (mkpl 4 5) order) (frameF [fst img; snd img; fst co; snd co; fst kern; snd kern]))
     (fun m => Some (getF m (mkpl 0 1), getF m (mkpl 2 3))).
Definition montEvalA (M : amd) (A x : list Z) : option (list Z) :=
  ob (runA M (montEval_code 2 0 1) (frameF [A; x])) (fun m => Some (m 2%nat)).

(* for i in is: if sel(i) then mul512(&k, &k, primes[i]) *)
Fixpoint mulsA (M : amd) (sel : nat -> bool) (is : list nat) (k : list Z) : option (list Z) :=
  match is with
  | [] => Some k
  | i :: is => if sel i then ob (mul512A M k (nth i primes 0)) (mulsA M sel is) else mulsA M sel is k
  end.
(* cofactorMul, csidh.go:74-116 *)
Fixpoint cofactorMulA (M : amd) (fuel : nat) (P a : fpt) (halfL halfR : nat) (order : list Z) : option ((bool * bool) * list Z) :=
  match fuel with
  | O => Some ((false, false), order)
  | S f =>
      if (halfR - halfL =? 1)%nat then
        if negb (isZero (snd P)) then
          ob (xMulA_ip M P a (small (nth halfL primes 0))) (fun P =>
          if negb (isZero (snd P)) then Some ((true, false), order)
          else
            ob (mul512A M order (nth halfL primes 0)) (fun order =>
            if isLess fourSqrtP order then Some ((true, true), order) else Some ((false, false), order)))
        else Some ((false, false), order)
      else
        let mid := (halfL + (halfR - halfL + 1) / 2)%nat in
        ob (mulsA M (fun _ => true) (seq halfL (mid - halfL)) (small 1)) (fun mulR =>
        ob (mulsA M (fun _ => true) (seq mid (halfR - mid)) (small 1)) (fun mulL =>
        ob (xMulA M P a mulR) (fun Q => ob (xMulA_ip M P a mulL) (fun P =>
        ob (cofactorMulA M f Q a mid halfR order) (fun '((d1, r1), order) =>
        ob (cofactorMulA M f P a halfL mid order) (fun '((d2, r2), order) =>
        Some ((orb d1 d2, orb r1 r2), order)))))))
  end.

(* groupAction, csidh.go:121-195 *)
Definition initKA (M : amd) (e : list Z) (sign : bool) : option (list Z) :=
  mulsA M (fun i => let t := expOf e i in if 0 <? t then sign else if t <? 0 then negb sign else true) (seq 0 primeCount) (small 4).
Definition passStepA (M : amd) (st : pass fpOps) (i : nat) : option (pass fpOps) :=
  let v := nth i primes 0 in
  let fin (st : pass fpOps) := Some (mkpass fpOps (pP _ st) (pA _ st) (pe _ st) (pk _ st) (andb (pdone _ st) (nth i (pe _ st) 0 =? 0)) (plog _ st)) in
  if negb (nth i (pe _ st) 0 =? 0) then
    ob (mulsA M (fun j => negb (nth j (pe _ st) 0 =? 0)) (seq (S i) (primeCount - S i)) (small 1)) (fun cof =>
    ob (xMulA M (pP _ st) (pA _ st) cof) (fun K =>
    if negb (isZero (snd K)) then
      ob (xIsoA M (pP _ st) (pA _ st) K v) (fun '(P', A') =>
      let ei := wrap8 (nth i (pe _ st) 0 - 1) in
      ob (if ei =? 0 then mul512A M (pk _ st) v else Some (pk _ st)) (fun k =>
      fin (mkpass fpOps P' A' (setE (pe _ st) i ei) k (pdone _ st) (plog _ st ++ [i]))))
    else fin st))
  else fin st.
Fixpoint passA (M : amd) (is : list nat) (st : pass fpOps) : option (pass fpOps) :=
  match is with [] => Some st | i :: is => ob (passStepA M st i) (passA M is) end.
Definition gaRoundA (M : amd) (st : gaState fpOps) (sign : bool) (x : list Z) : option (gaState fpOps) :=
  let A := (gA _ st, one) in
  ob (xMulA_ip M (x, one) A (gK _ st sign)) (fun P =>
  ob (passA M (seq 0 primeCount) (mkpass fpOps P A (gE _ st sign) (gK _ st sign) true [])) (fun r =>
  ob (modExp512A M (snd (pA _ r)) pMin1) (fun c =>
  ob (mulL M 0 0 1 [fst (pA _ r); c]) (fun a =>
  Some (mkga fpOps (setB (gE _ st) sign (pe _ r)) (setB (gK _ st) sign (pk _ r)) (setB (gDone _ st) sign (pdone _ r)) a
             (gLog _ st ++ map (fun i => (sign, i)) (plog _ r))))))).
(* Some None: randFp panicked *)
Fixpoint gaLoopA (M : amd) (fuel : nat) (st : gaState fpOps) (rng : list Z) : option (option (gaState fpOps * list Z)) :=
  match fuel with
  | O => Some None
  | S f =>
      match randFp rng with
      | None => Some None
      | Some (x, rng') =>
          ob (montEvalA M (gA _ st) x) (fun rhs => ob (isNonQuadResA M rhs) (fun q =>
          let sign := negb (q =? 0) in
          if gDone _ st sign then gaLoopA M f st rng'
          else
            ob (gaRoundA M st sign x) (fun st' =>
            if andb (gDone _ st' false) (gDone _ st' true) then Some (Some (st', rng')) else gaLoopA M f st' rng')))
      end
  end.
Definition groupActionA (M : amd) (a e rng : list Z) : option (option (list Z * list Z)) :=
  ob (initKA M e false) (fun k0 => ob (initKA M e true) (fun k1 =>
  ob (gaLoopA M (S (length rng)) (mkga fpOps (initE e) (fun s : bool => if s then k1 else k0) (fun _ => false) a []) rng) (fun r =>
  Some (match r with None => None | Some (st, rng') => Some (gA _ st, rng') end)))).

(* Validate, GeneratePublicKey, DeriveSecret, csidh.go:271-332 *)
Fixpoint validLoopA (M : amd) (fuel : nat) (a : list Z) (rng : list Z) : option (option (bool * list Z)) :=
  match fuel with
  | O => Some None
  | S f =>
      match randFp rng with
      | None => Some None
      | Some (x, rng') =>
          let A := (a, one) in
          ob (xDblA M (x, one) A) (fun P => ob (xDblA M P A) (fun P =>
          ob (cofactorMulA M 75 P A 0 primeCount (small 1)) (fun '((done, res), _) =>
          if (done : bool) then Some (Some (res, rng')) else validLoopA M f a rng')))
      end
  end.
Definition orPanic {T : Type} (o : option T) : res T := match o with None => Panic | Some r => Ret r end.
Definition generatePublicKeyA (M : amd) (e rng : list Z) : option (res (list Z * list Z)) :=
  ob (groupActionA M (repeat 0 numWords) e rng) (fun r => Some (orPanic r)).
Definition validateA (M : amd) (a rng : list Z) : option (res (bool * list Z)) :=
  if negb (isLess a p) then Some (Ret (false, rng))
  else if orb (equal a two) (equal a twoNeg) then Some (Ret (false, rng))
  else ob (validLoopA M (S (length rng)) a rng) (fun r => Some (orPanic r)).
Definition deriveSecretA (M : amd) (out a e rng : list Z) : option (res (bool * list Z * list Z)) :=
  ob (validateA M a rng) (fun v =>
  match v with
  | Panic => Some Panic
  | Ret (false, rng') => Some (Ret (false, out, rng'))
  | Ret (true, rng') =>
      ob (groupActionA M a e rng') (fun r =>
      Some (match r with None => Panic | Some (s, rng'') => Ret (true, snd (pubExport s out), rng'') end))
  end).
