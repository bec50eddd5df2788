(* The field functions of dh/csidh in the amd64 build (fp511_amd64.go, fp511.go) as calls of the machine code of CSIDH_Asm.
   A machine is its two CPU features and the content of BP, which no routine of the package changes (C60).
   None is a run that is stuck. *)
From Coq Require Import ZArith List Bool.
From Verif Require Import Lib MP CSIDH_Field X86 X86_Call CSIDH_Asm CSIDH_AsmProofs.
Import ListNotations.
Open Scope Z_scope.

Record amd : Type := mkAmd { aBMI2 : bool; aADX : bool; aBP : Z }.
(* fp511.go:15-17 *)
Definition fast (M : amd) : bool := aBMI2 M && aADX M.
Definition first1 (r : option (list (list Z) * Z)) : option (list Z) := match r with Some (x :: _, _) => Some x | _ => None end.
Definition first2 (r : option (list (list Z) * Z)) : option (list Z * list Z) := match r with Some ([x; y], _) => Some (x, y) | _ => None end.
Definition ob {A C : Type} (o : option A) (f : A -> option C) : option C := match o with Some x => f x | None => None end.

(* mul512(&k, &k, c), the only way it is called *)
Definition mul512A (M : amd) (k : list Z) (c : Z) : option (list Z) :=
  first1 (call 0 mul512Asm [Pt 1 0; Pt 1 0; @Wd zdom c] [k] (csGlob (aBMI2 M)) (aBP M)).
(* mul576(&t, b, c) *)
Definition mul576A (M : amd) (t b : list Z) (c : Z) : option (list Z) :=
  first1 (call 0 mul576Asm [Pt 1 0; Pt 2 0; @Wd zdom c] [t; b] (csGlob (aBMI2 M)) (aBP M)).
(* cswap512(x, y, choice) for different x and y *)
Definition cswap512A (M : amd) (x y : list Z) (choice : Z) : option (list Z * list Z) :=
  first2 (call 0 cswap512Asm [Pt 1 0; Pt 2 0; @Wd zdom choice] [x; y] (csGlob (aBMI2 M)) (aBP M)).

(* the additions of mulGeneric, fp511.go:50-68 (carry 0) and 76-94: t1 afterwards, the sum, the carry left *)
Definition sumsA (t1 t2 s : list Z) (c : Z) : list Z * list Z * Z :=
  let '(u0, c) := Add64 t1.[0] t2.[0] c in
  let '(u1, c) := Add64 t1.[1] t2.[1] c in
  let '(u2, c) := Add64 t1.[2] t2.[2] c in
  let '(u3, c) := Add64 t1.[3] t2.[3] c in
  let '(u4, c) := Add64 t1.[4] t2.[4] c in
  let '(u5, c) := Add64 t1.[5] t2.[5] c in
  let '(u6, c) := Add64 t1.[6] t2.[6] c in
  let '(u7, c) := Add64 t1.[7] t2.[7] c in
  let '(u8, d) := Add64 t1.[8] t2.[8] c in
  let '(d, c) := Add64 u0 s.[0] 0 in
  let '(v0, c) := Add64 u1 s.[1] c in
  let '(v1, c) := Add64 u2 s.[2] c in
  let '(v2, c) := Add64 u3 s.[3] c in
  let '(v3, c) := Add64 u4 s.[4] c in
  let '(v4, c) := Add64 u5 s.[5] c in
  let '(v5, c) := Add64 u6 s.[6] c in
  let '(v6, c) := Add64 u7 s.[7] c in
  let '(v7, d) := Add64 u8 0 c in
  ([u0; u1; u2; u3; u4; u5; u6; u7; u8], [v0; v1; v2; v3; v4; v5; v6; v7], c).
(* one iteration, fp511.go:44-68 and 72-94: t1, t2, s and the carry afterwards *)
Definition iterA (M : amd) (y : list Z) (xi : Z) (t1 t2 s : list Z) (c : Z) : option (list Z * list Z * list Z * Z) :=
  let q := mul64w (add64w (mul64w xi y.[0]) s.[0]) pNegInv.[0] in
  ob (mul576A M t1 p q) (fun t1 => ob (mul576A M t2 y xi) (fun t2 =>
  let '(u, v, c) := sumsA t1 t2 s c in Some (u, t2, v, c))).
Fixpoint itersA (M : amd) (x y : list Z) (is : list nat) (st : list Z * list Z * list Z * Z) : option (list Z * list Z * list Z * Z) :=
  match is with
  | [] => Some st
  | i :: is => let '(t1, t2, s, _) := st in ob (iterA M y (nth i x 0) t1 t2 s 0) (itersA M x y is)
  end.
(* mulGeneric, fp511.go:38-95; r is written after the last use of x and y *)
Definition mulGenericA (M : amd) (x y : list Z) : option (list Z) :=
  ob (itersA M x y (seq 0 (numWords - 1)) (repeat 0 9, repeat 0 9, repeat 0 8, 0)) (fun '(t1, t2, s, c) =>
  ob (iterA M y (nth (numWords - 1) x 0) t1 t2 s c) (fun '(_, _, r, _) => Some r)).

(* which of the pointers d, a, b coincide: their arrays *)
Definition pat (d a b : nat) (m : nat -> list Z) : nat * nat * nat * list (list Z) :=
  if (a =? d)%nat then if (b =? d)%nat then (0, 0, 0, [m d])%nat else (0, 0, 1, [m d; m b])%nat
  else if (b =? d)%nat then (0, 1, 0, [m d; m a])%nat
  else if (a =? b)%nat then (0, 1, 1, [m d; m a])%nat else (0, 1, 2, [m d; m a; m b])%nat.
(* mulRdc(d, a, b), fp511_amd64.go:21-55: what d holds afterwards *)
Definition mulRdcA (M : amd) (d a b : nat) (m : nat -> list Z) : option (list Z) :=
  if fast M
  then let '(i, j, k, bl) := pat d a b m in
       ob (first1 (call 1 mulBmiAsm [Pt (S i) 0; Pt (S j) 0; Pt (S k) 0] bl (csGlob (aBMI2 M)) (aBP M))) (fun r => Some (reduceOnce r))
  else ob (mulGenericA M (m a) (m b)) (fun r => Some (reduceOnce r)).
(* the same on variables listed *)
Definition mulL (M : amd) (d a b : nat) (l : list (list Z)) : option (list Z) := mulRdcA M d a b (fun i => nth i l []).

(* modExpRdcCommon, fp511.go:190-236 *)
Fixpoint precompA (M : amd) (b : list Z) (n : nat) (tab : list (list Z)) : option (list (list Z)) :=
  match n with
  | O => Some tab
  | S n' =>
      let i := length tab in
      ob (mulL M 0 1 1 [repeat 0 8; nth (i / 2) tab []]) (fun sq =>
      ob (mulL M 0 1 2 [repeat 0 8; sq; b]) (fun pr => precompA M b n' (tab ++ [sq; pr])))
  end.
Definition sqrA (M : amd) (r : list Z) : option (list Z) := mulL M 0 0 0 [r].
Fixpoint modexpA (M : amd) (tab : list (list Z)) (e : list Z) (i : nat) (r : list Z) : option (list Z) :=
  match i with
  | O => Some r
  | S i' =>
      ob (sqrA M r) (fun r => ob (sqrA M r) (fun r => ob (sqrA M r) (fun r => ob (sqrA M r) (fun r =>
      let idx := Z.land (Z.shiftr (nth (i' / 16) e 0) (Z.of_nat (i' mod 16) * 4)) 15 in
      ob (mulL M 0 0 1 [r; nth (Z.to_nat idx) tab []]) (modexpA M tab e i')))))
  end.
Definition modExpA (M : amd) (b e : list Z) (fpBitLen : nat) : option (list Z) :=
  ob (precompA M b 7 [one; b]) (fun tab => ob (modexpA M tab e (fpBitLen / 4) one) (fun r => Some (reduceOnce r))).
Definition modExp512A (M : amd) (b e : list Z) : option (list Z) := modExpA M b e 512.
Definition modExp64A (M : amd) (b : list Z) (e : Z) : option (list Z) := modExpA M b [e; 0; 0; 0; 0; 0; 0; 0] 64.
(* isNonQuadRes, fp511.go:259-269 *)
Definition isNonQuadResA (M : amd) (v : list Z) : option Z :=
  ob (modExp512A M v pMin1By2) (fun res =>
  Some (ctIsNonZero64 (fold_left (fun b i => Z.lor b (Z.lxor (nth i res 0) (nth i one 0))) (seq 0 8) 0))).
