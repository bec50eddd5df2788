(* Model of dh/csidh/csidh.go.
   Bytes are Z in [0,256); an int8 is stored as its byte, with signed reading s8.
   The random source (io.Reader) is the finite list of bytes it will still deliver; after the
   last byte it fails.  io.ReadFull(rng, buf) for a buffer of n bytes delivers the next n bytes, or
   fails if fewer are left.  Every terminating run reads finitely many bytes, so every terminating
   run is covered; all reads of this package are of 64-byte buffers.  The working buffer wbuf is
   overwritten before each use and never exported; it is not part of the modelled key state. *)
From Coq Require Import ZArith List Lia Bool.
From Verif Require Import Lib MP Instr CSIDH_Field CSIDH_Curve.
Import ListNotations.
Open Scope Z_scope.

(* uint8(x) *)
Definition wrap8 (x : Z) : Z := x mod 256.
(* int8(b) as an integer *)
Definition s8 (b : Z) : Z := if b <? 128 then b else b - 256.

(* io.ReadFull on a 64-byte buffer: the bytes and the remaining source, or an error *)
Definition readFull64 (rng : list Z) : option (list Z * list Z) :=
  if (length rng <? 64)%nat then None else Some (firstn 64 rng, skipn 64 rng).

(* ---------- fpRngGen.randFp, csidh.go:44-64 ---------- *)
(* v[j] |= uint64(b[i]) << (8*k), csidh.go:53-57 and 250-254: OR the bytes into the limbs *)
Definition orBytes (v : list Z) (b : list Z) : list Z :=
  fold_left (fun v i => let j := (i / limbByteSize)%nat in
               firstn j v ++ [Z.lor (nth j v 0) (shl64 (nth i b 0) (8 * Z.of_nat (i mod 8)))] ++ skipn (S j) v)
            (seq 0 (length b)) v.
(* mask = 1<<(pbits%limbBitSize) - 1 *)
Definition fpMask : Z := sub64w (shl64 1 (pbits mod limbBitSize)) 1.
Definition randFp_cand (b : list Z) : list Z :=
  let v := orBytes (repeat 0 numWords) b in
  firstn 7 v ++ [Z.land (nth 7 v 0) fpMask].
(* the loop; every round reads 64 bytes, so the length of the source bounds the rounds.
   None is the panic "Can't read random number" *)
Fixpoint randFp_loop (fuel : nat) (rng : list Z) : option (list Z * list Z) :=
  match fuel with
  | O => None
  | S f =>
      match readFull64 rng with
      | None => None
      | Some (b, rng') =>
          let v := randFp_cand b in
          if isLess v p then Some (v, rng') else randFp_loop f rng'
      end
  end.
Definition randFp (rng : list Z) : option (list Z * list Z) := randFp_loop (S (length rng)) rng.

(* ---------- the curve layer over a field implementation ---------- *)
Section Curve.
  Variable Fo : fops.
  Variables (fzero fone ffour : car Fo).
  Variable fisZero : car Fo -> bool.        (* fp.isZero *)
  Variable fnonQR : car Fo -> Z.            (* fp.isNonQuadRes *)
  Definition pt : Type := (car Fo * car Fo)%type.

  (* a fresh memory holding the arguments from location 0 and the package constants *)
  Definition frame (l : list (car Fo)) : nat -> car Fo :=
    mset (mset (args Fo fzero l) four_l ffour) one_l fone.
  Definition get (m : nat -> car Fo) (q : ploc) : pt := (m q.(px), m q.(pz)).

  (* xDbl(&Q, &P, &A) with Q = P, csidh.go:306-307 *)
  Definition xDbl (P A : pt) : pt :=
    get (run Fo (xDbl_code (mkpl 0 1) (mkpl 0 1) (mkpl 2 3)) (frame [fst P; snd P; fst A; snd A])) (mkpl 0 1).
  (* xMul(&Q, &P, &co, &k) *)
  Definition xMul (P co : pt) (k : list Z) : pt :=
    get (run Fo (xMul_code (mkpl 4 5) (mkpl 0 1) (mkpl 2 3) k) (frame [fst P; snd P; fst co; snd co])) (mkpl 4 5).
  (* xMul(&P, &P, &co, &k): in place *)
  Definition xMul_ip (P co : pt) (k : list Z) : pt :=
    get (run Fo (xMul_code (mkpl 0 1) (mkpl 0 1) (mkpl 2 3) k) (frame [fst P; snd P; fst co; snd co])) (mkpl 0 1).
  (* xIso(&img, &co, &kern, order): the new img and co *)
  Definition xIso (img co kern : pt) (order : Z) : pt * pt :=
    let m := run Fo (xIso_code (mkpl 0 1) (mkpl 2 3) (mkpl 4 5) order)
                 (frame [fst img; snd img; fst co; snd co; fst kern; snd kern]) in
    (get m (mkpl 0 1), get m (mkpl 2 3)).
  (* montEval(&res, &A, &x) *)
  Definition montEval (A x : car Fo) : car Fo :=
    run Fo (montEval_code 2 0 1) (frame [A; x]) 2%nat.

  (* ---------- cofactorMul, csidh.go:74-116 ---------- *)
  (* fp{x} *)
  Definition small (x : Z) : list Z := [x; 0; 0; 0; 0; 0; 0; 0].
  (* the products of primes[lo..hi), csidh.go:99-107 *)
  Definition mulRange (lo hi : nat) : list Z :=
    fold_left (fun m i => mul512 m (nth i primes 0)) (seq lo (hi - lo)) (small 1).
  (* result (done, res) and the updated order *)
  Fixpoint cofactorMul (fuel : nat) (P a : pt) (halfL halfR : nat) (order : list Z) : (bool * bool) * list Z :=
    match fuel with
    | O => ((false, false), order)
    | S f =>
        if (halfR - halfL =? 1)%nat then
          if negb (fisZero (snd P)) then
            let P := xMul_ip P a (small (nth halfL primes 0)) in
            if negb (fisZero (snd P)) then ((true, false), order)
            else
              let order := mul512 order (nth halfL primes 0) in
              if isLess fourSqrtP order then ((true, true), order) else ((false, false), order)
          else ((false, false), order)
        else
          let mid := (halfL + (halfR - halfL + 1) / 2)%nat in
          let mulR := mulRange halfL mid in
          let mulL := mulRange mid halfR in
          let Q := xMul P a mulR in
          let P := xMul_ip P a mulL in
          let '((d1, r1), order) := cofactorMul f Q a mid halfR order in
          let '((d2, r2), order) := cofactorMul f P a halfL mid order in
          ((orb d1 d2, orb r1 r2), order)
    end.

  (* ---------- groupAction, csidh.go:121-195 ---------- *)
  (* (prv.e[i>>1] << ((i%2)*4)) >> 4 on int8 *)
  Definition expOf (e : list Z) (i : nat) : Z :=
    Z.shiftr (s8 (wrap8 (Z.shiftl (nth (i / 2) e 0) (Z.of_nat (i mod 2) * 4)))) 4.
  (* csidh.go:127-146: e[sign][i] and k[sign], sign 0 for positive exponents *)
  Definition initE (e : list Z) (sign : bool) : list Z :=
    map (fun i => let t := expOf e i in
           if 0 <? t then (if sign then 0 else wrap8 t)
           else if t <? 0 then (if sign then wrap8 (- t) else 0) else 0) (seq 0 primeCount).
  Definition initK (e : list Z) (sign : bool) : list Z :=
    fold_left (fun k i => let t := expOf e i in let v := nth i primes 0 in
                 if 0 <? t then (if sign then mul512 k v else k)
                 else if t <? 0 then (if sign then k else mul512 k v)
                 else mul512 k v) (seq 0 primeCount) (small 4).

  (* the state of one pass over the primes, csidh.go:163-184; log records the isogenies *)
  Record pass : Type := mkpass {
    pP : pt; pA : pt; pe : list Z; pk : list Z; pdone : bool; plog : list nat }.
  Definition setE (e : list Z) (i : nat) (v : Z) : list Z := firstn i e ++ [v] ++ skipn (S i) e.
  (* csidh.go:165-172 *)
  Definition cofactor (e : list Z) (i : nat) : list Z :=
    fold_left (fun c j => if negb (nth j e 0 =? 0) then mul512 c (nth j primes 0) else c)
              (seq (S i) (primeCount - S i)) (small 1).
  Definition passStep (st : pass) (i : nat) : pass :=
    let v := nth i primes 0 in
    let st :=
      if negb (nth i st.(pe) 0 =? 0) then
        let K := xMul st.(pP) st.(pA) (cofactor st.(pe) i) in
        if negb (fisZero (snd K)) then
          let '(P', A') := xIso st.(pP) st.(pA) K v in
          let ei := wrap8 (nth i st.(pe) 0 - 1) in
          mkpass P' A' (setE st.(pe) i ei) (if ei =? 0 then mul512 st.(pk) v else st.(pk)) st.(pdone) (st.(plog) ++ [i])
        else st
      else st in
    mkpass st.(pP) st.(pA) st.(pe) st.(pk) (andb st.(pdone) (nth i st.(pe) 0 =? 0)) st.(plog).

  (* state across passes: e, k, done for both signs, A.a (A.c = one), and the log of isogenies
     (sign, index) *)
  Record gaState : Type := mkga {
    gE : bool -> list Z; gK : bool -> list Z; gDone : bool -> bool; gA : car Fo; gLog : list (bool * nat) }.
  Definition setB {T : Type} (f : bool -> T) (s : bool) (v : T) : bool -> T :=
    fun b => if Bool.eqb b s then v else f b.

  (* a random field element supplied by randFp enters the curve layer through inject *)
  Variable inject : list Z -> car Fo.

  (* one round, csidh.go:149-188, given the random x *)
  Definition gaRound (st : gaState) (x : car Fo) : gaState :=
    let rhs := montEval st.(gA) x in
    let sign := negb (fnonQR rhs =? 0) in
    if gDone st sign then st
    else
      let A := (st.(gA), fone) in
      let P := xMul_ip (x, fone) A (gK st sign) in
      let r := fold_left passStep (seq 0 primeCount) (mkpass P A (gE st sign) (gK st sign) true []) in
      let c := finv Fo (snd r.(pA)) in
      mkga (setB (gE st) sign r.(pe)) (setB (gK st) sign r.(pk)) (setB (gDone st) sign r.(pdone))
           (fmul Fo (fst r.(pA)) c)
           (gLog st ++ map (fun i => (sign, i)) r.(plog)).
  (* the outer loop; note that the continue at csidh.go:157 skips the exit test *)
  Fixpoint gaLoop (fuel : nat) (st : gaState) (rng : list Z) : option (gaState * list Z) :=
    match fuel with
    | O => None
    | S f =>
        match randFp rng with
        | None => None
        | Some (x, rng') =>
            let sign := negb (fnonQR (montEval st.(gA) (inject x)) =? 0) in
            if gDone st sign then gaLoop f st rng'
            else
              let st' := gaRound st (inject x) in
              if andb (gDone st' false) (gDone st' true) then Some (st', rng')
              else gaLoop f st' rng'
        end
    end.
  Definition gaInit (a : car Fo) (e : list Z) : gaState :=
    mkga (initE e) (initK e) (fun _ => false) a [].
  Definition groupAction_st (a : car Fo) (e : list Z) (rng : list Z) : option (gaState * list Z) :=
    gaLoop (S (length rng)) (gaInit a e) rng.
  Definition groupAction (a : car Fo) (e : list Z) (rng : list Z) : option (car Fo * list Z) :=
    match groupAction_st a e rng with
    | None => None
    | Some (st, rng') => Some (gA st, rng')
    end.

  (* the search loop of Validate, csidh.go:295-313 *)
  Fixpoint validLoop (fuel : nat) (a : car Fo) (rng : list Z) : option (bool * list Z) :=
    match fuel with
    | O => None
    | S f =>
        match randFp rng with
        | None => None
        | Some (x, rng') =>
            let A := (a, fone) in
            let P := xDbl (xDbl (inject x, fone) A) A in
            let '((done, res), _) := cofactorMul 75 P A 0 primeCount (small 1) in
            if done then Some (res, rng') else validLoop f a rng'
        end
    end.
End Curve.

(* ---------- the limb implementation ---------- *)
(* dh/csidh field calls: addRdc, subRdc, mulRdc, modExpRdc64; inversion is
   modExpRdc512(.., &pMin1), csidh.go:186 *)
Definition fpOps : fops :=
  mkFops (list Z) addRdc subRdc mulRdc (fun x => mulRdc x x) (fun x => modExpRdc512 x pMin1) modExpRdc64.
Definition fpZero : list Z := repeat 0 8.

Definition groupActionFp : list Z -> list Z -> list Z -> option (list Z * list Z) :=
  groupAction fpOps fpZero one four isZero isNonQuadRes (fun x => x).
Definition validLoopFp : nat -> list Z -> list Z -> option (bool * list Z) :=
  validLoop fpOps fpZero one four isZero (fun x => x).

(* ---------- PrivateKey, csidh.go:199-241: the key is its 37 exponent bytes ---------- *)
(* result of a call that may panic *)
Inductive res (T : Type) : Type := Ret (v : T) | Panic.
Arguments Ret {T} v.
Arguments Panic {T}.

(* PrivateKey.Import: the returned boolean and the new key.  Keys longer than 37 bytes write
   past the array and panic (index out of range). *)
Definition prvImport (e : list Z) (key : list Z) : res (bool * list Z) :=
  if (length key <? length e)%nat then Ret (false, e)
  else if (length e <? length key)%nat then Panic
  else Ret (true, key).
(* PrivateKey.Export: the returned boolean and the new contents of out *)
Definition prvExport (e : list Z) (out : list Z) : bool * list Z :=
  if (length out <? length e)%nat then (false, out) else (true, e ++ skipn (length e) out).

(* GeneratePrivateKey, csidh.go:219-241 *)
Definition accept (b : Z) : bool := andb (s8 b <=? expMax) (- expMax <=? s8 b).
(* key.e[i>>1] |= int8((b & 0xF) << ((i%2)*4)) *)
Definition orNibble (e : list Z) (i : nat) (b : Z) : list Z :=
  let j := (i / 2)%nat in
  firstn j e ++ [Z.lor (nth j e 0) (wrap8 (Z.shiftl (Z.land b 15) (Z.of_nat (i mod 2) * 4)))] ++ skipn (S j) e.
(* the inner loop over the buffer: stops as soon as all primes have an exponent *)
Fixpoint genBuf (buf : list Z) (i : nat) (e : list Z) : nat * list Z :=
  match buf with
  | [] => (i, e)
  | b :: buf' =>
      if accept b then
        let e := orNibble e i b in
        if (S i =? primeCount)%nat then (S i, e) else genBuf buf' (S i) e
      else genBuf buf' i e
  end.
(* the outer loop: (error?, key, remaining source) *)
Fixpoint genLoop (fuel : nat) (i : nat) (e : list Z) (rng : list Z) : bool * list Z * list Z :=
  match fuel with
  | O => (true, e, rng)
  | S f =>
      if (i <? primeCount)%nat then
        match readFull64 rng with
        | None => (true, e, [])
        | Some (buf, rng') => let '(i', e') := genBuf buf i e in genLoop f i' e' rng'
        end
      else (false, e, rng)
  end.
Definition generatePrivateKey (rng : list Z) : bool * list Z * list Z :=
  genLoop (S (S (length rng))) 0 (repeat 0 PrivateKeySize) rng.

(* ---------- PublicKey, csidh.go:246-276: the key is its coefficient a ---------- *)
Definition pubImport (a : list Z) (key : list Z) : bool * list Z :=
  if negb (length key =? numWords * limbByteSize)%nat then (false, a) else (true, orBytes a key).
Definition pubExport (a : list Z) (out : list Z) : bool * list Z :=
  if negb (length out =? numWords * limbByteSize)%nat then (false, out)
  else (true, map (fun i => wrap8 (Z.shiftr (nth (i / limbByteSize) a 0) (8 * Z.of_nat (i mod 8)))) (seq 0 (length out))).

(* GeneratePublicKey, csidh.go:271-276 *)
Definition generatePublicKey (e : list Z) (rng : list Z) : res (list Z * list Z) :=
  match groupActionFp (repeat 0 numWords) e rng with None => Panic | Some r => Ret r end.

(* Validate, csidh.go:283-314 *)
Definition validate (a : list Z) (rng : list Z) : res (bool * list Z) :=
  if negb (isLess a p) then Ret (false, rng)
  else if orb (equal a two) (equal a twoNeg) then Ret (false, rng)
  else match validLoopFp (S (length rng)) a rng with None => Panic | Some r => Ret r end.

(* DeriveSecret, csidh.go:321-332: (ok, out, remaining source) *)
Definition deriveSecret (out : list Z) (a e : list Z) (rng : list Z) : res (bool * list Z * list Z) :=
  match validate a rng with
  | Panic => Panic
  | Ret (false, rng') => Ret (false, out, rng')
  | Ret (true, rng') =>
      match groupActionFp a e rng' with
      | None => Panic
      | Some (s, rng'') => Ret (true, snd (pubExport s out), rng'')
      end
  end.
