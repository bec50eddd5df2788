(* dh/sidh/internal/{p434,p503,p751}/fp2.go on amd64 and arm64: the same functions as in SIDH_Field.v, but on a memory of Fp2 variables reached by
   pointers, and calling the machine code of arith_amd64.s or arith_arm64.s.  Line numbers are those of internal/p434/fp2.go. *)
From Coq Require Import ZArith List Bool.
From Verif Require Import Lib MP SIDH_Consts SIDH_Field X86 SIDH_AsmModel SIDH_AsmProofs SIDH_ArmModel.
Import ListNotations.
Open Scope Z_scope.

(* Memory: the Fp2 variables the caller knows; a *common.Fp2 is an index.  Distinct variables do not overlap, and A and B of one variable are
   distinct arrays.  Local variables are values: no other pointer reaches them. *)
Notation fpmem := (list fp2).
Definition rd (m : fpmem) (i : nat) : fp2 := nth i m ([], []).
Definition setA (m : fpmem) (i : nat) (a : list Z) : fpmem := setl m i (a, snd (rd m i)).
Definition setB (m : fpmem) (i : nat) (b : list Z) : fpmem := setl m i (fst (rd m i), b).
Definition eqW (x y : list Z) : bool := if list_eq_dec Z.eq_dec x y then true else false.

(* The machine: amd64 with its CPU features and the address of the multiplication's frame, or arm64 *)
Inductive arch : Type := Amd64 (bmi2 adx : bool) (fp : Z) | Arm64.
Inductive kop : Type := KAdd | KSub | KAdl | KSul | KMod.
Definition asmOf (o : kop) : pkg -> list instr := match o with KAdd => addAsm | KSub => subAsm | KAdl => adlAsm | KSul => sulAsm | KMod => modAsm end.
Definition armOf (o : kop) : apkg -> list instr := match o with KAdd => addArm | KSub => subArm | KAdl => adlArm | KSul => sulArm | KMod => modArm end.
(* p434 has no arithmetic in assembly for arm64; arith_generic.go is built there *)
Definition armPkg (P : pkg) : option apkg := match P with P434 => None | P503 => Some Q503 | P751 => Some Q751 end.
Definition portable (P : pkg) (o : kop) (x y : list Z) : list Z :=
  match o with KAdd => addP (fieldOf P) x y | KSub => subP (fieldOf P) x y | KAdl => adlP x y | KSul => sulP (fieldOf P) x y | KMod => modP (fieldOf P) x end.
Definition withBP {X} (bp : Z) (r : option X) : option (X * Z) := match r with Some x => Some (x, bp) | None => None end.

Section Kernels.
Variables (P : pkg) (K : arch).
Notation F := (fieldOf P).
Notation n := (nOf P).
Definition zero1 : list Z := repeat 0 n.
Definition zero2 : list Z := repeat 0 (2 * n).

(* Calls with pointers ps (destination first) to the arrays of the given numbers.  BP is handed from call to call; on arm64 it stands for nothing. *)
Definition opCall (o : kop) (ps : list nat) (blocks : list (list Z)) (bp : Z) : option (list (list Z) * Z) :=
  match K, armPkg P with
  | Amd64 bmi2 adx _, _ => ptrCall (asmOf o) P bmi2 adx ps blocks bp
  | Arm64, Some Q => withBP bp (armCall (armOf o) Q ps blocks)
  | Arm64, None => Some (setl blocks (nth 0 ps 0%nat) (portable P o (nth (nth 1 ps 0%nat) blocks []) (nth (nth 2 ps 0%nat) blocks [])), bp)
  end.
Definition mulK (x y : nat) (blocks : list (list Z)) (bp : Z) : option (list (list Z) * Z) :=
  match K, armPkg P with
  | Amd64 bmi2 adx fp, _ => mulCall P bmi2 adx 0 x y fp blocks bp
  | Arm64, Some Q => withBP bp (armCall mulArm Q [0%nat; x; y] blocks)
  | Arm64, None => Some (setl blocks 0 (mulPx F (nth x blocks []) (nth y blocks [])), bp)
  end.
Definition rdcK (z x : list Z) (bp : Z) : option (list (list Z) * Z) :=
  match K, armPkg P with
  | Amd64 bmi2 adx _, _ => rdcCall P bmi2 adx 0 1 [z; x] bp
  | Arm64, Some Q => withBP bp (armCall rdcArm Q [0; 1]%nat [z; x])
  | Arm64, None => Some ([rdcP F z x; x], bp)
  end.
(* x and y are arrays 0 and b *)
Definition cswapK (b : nat) (w : Z) (blocks : list (list Z)) (bp : Z) : option (list (list Z) * Z) :=
  match K, armPkg P with
  | Amd64 bmi2 adx _, _ => cswapCall P bmi2 adx 0 b w blocks bp
  | Arm64, Some Q => withBP bp (armCswap Q 0 b w blocks)
  | Arm64, None => let t := cswapP (nth 0 blocks []) (nth b blocks []) (w mod 256) in
                   Some (if (b =? 0)%nat then [snd t] else [fst t; snd t], bp)
  end.

(* A call whose operands come back changed has no meaning here (None), except that rdc may overwrite its operand, whose new content is returned. *)
(* code(z, x, y): dx, dy, xy say which of the three pointers are equal *)
Definition kBin (o : kop) (bp : Z) (dx dy xy : bool) (z x y : list Z) : option (list Z * Z) :=
  match dx, dy, xy with
  | false, false, false => match opCall o [0; 1; 2]%nat [z; x; y] bp with Some ([r; x'; y'], bp) => if eqW x' x && eqW y' y then Some (r, bp) else None | _ => None end
  | true, false, false => match opCall o [0; 0; 1]%nat [x; y] bp with Some ([r; y'], bp) => if eqW y' y then Some (r, bp) else None | _ => None end
  | false, true, false => match opCall o [0; 1; 0]%nat [y; x] bp with Some ([r; x'], bp) => if eqW x' x then Some (r, bp) else None | _ => None end
  | false, false, true => match opCall o [0; 1; 1]%nat [z; x] bp with Some ([r; x'], bp) => if eqW x' x then Some (r, bp) else None | _ => None end
  | true, true, true => match opCall o [0; 0; 0]%nat [x] bp with Some ([r], bp) => Some (r, bp) | _ => None end
  | _, _, _ => None
  end.
Definition kMul (bp : Z) (xy : bool) (z x y : list Z) : option (list Z * Z) :=
  if xy then match mulK 1 1 [z; x] bp with Some ([r; x'], bp) => if eqW x' x then Some (r, bp) else None | _ => None end
  else match mulK 1 2 [z; x; y] bp with Some ([r; x'; y'], bp) => if eqW x' x && eqW y' y then Some (r, bp) else None | _ => None end.
Definition kRdc (bp : Z) (z x : list Z) : option (list Z * list Z * Z) :=
  match rdcK z x bp with Some ([r; x'], bp) => Some (r, x', bp) | _ => None end.
Definition kMod (bp : Z) (x : list Z) : option (list Z * Z) :=
  match opCall KMod [0%nat] [x] bp with Some ([r], bp) => Some (r, bp) | _ => None end.
Definition kSwap (bp w : Z) (xy : bool) (x y : list Z) : option (list Z * list Z * Z) :=
  if xy then match cswapK 0 w [x] bp with Some ([r], bp) => Some (r, r, bp) | _ => None end
  else match cswapK 1 w [x; y] bp with Some ([r; s], bp) => Some (r, s, bp) | _ => None end.

Notation "'let!' p := e 'in' k" := (match e with Some p => k | None => None end) (at level 200, p pattern, e at level 200, k at level 200).

(* mulP, lines 12-16, into a variable that holds z *)
Definition amulP (bp : Z) (xy : bool) (z x y : list Z) : option (list Z * Z) :=
  let! (ab, bp) := kMul bp xy zero2 x y in
  let! (r, _, bp) := kRdc bp z ab in
  Some (r, bp).
(* p34, lines 26-55; dest and x may be the same variable: dest is written only after the table is complete *)
Fixpoint asqrs (k : nat) (bp : Z) (d : list Z) : option (list Z * Z) :=
  match k with
  | O => Some (d, bp)
  | S k => let! (d, bp) := amulP bp true d d d in asqrs k bp d
  end.
Fixpoint alookup (k : nat) (bp : Z) (xx : list Z) (t : list (list Z)) : option (list (list Z) * Z) :=
  match k with
  | O => Some (t, bp)
  | S k => let! (r, bp) := amulP bp false zero1 (last t []) xx in alookup k bp xx (t ++ [r])
  end.
Fixpoint awindows (l : list (Z * Z)) (lookup : list (list Z)) (bp : Z) (d : list Z) : option (list Z * Z) :=
  match l with
  | [] => Some (d, bp)
  | (pw, ml) :: l =>
      let! (d, bp) := amulP bp true d d d in
      let! (d, bp) := asqrs (Z.to_nat (pw - 1)) bp d in
      let! (d, bp) := amulP bp false d d (nth (Z.to_nat ml) lookup []) in
      awindows l lookup bp d
  end.
Definition ap34 (bp : Z) (x : list Z) : option (list Z * Z) :=
  let! (xx, bp) := amulP bp true zero1 x x in
  let! (lookup, bp) := alookup 15 bp xx [x] in
  awindows (firstn (length (powStrategy F) mod 256) (combine (powStrategy F) (mulStrategy F))) lookup bp (nth (initialMul F) lookup []).

(* add and sub, lines 57-65 *)
Definition abin (o : kop) (d l r : nat) (m : fpmem) (bp : Z) : option (fpmem * Z) :=
  let! (v, bp) := kBin o bp (d =? l)%nat (d =? r)%nat (l =? r)%nat (fst (rd m d)) (fst (rd m l)) (fst (rd m r)) in
  let m := setA m d v in
  let! (v, bp) := kBin o bp (d =? l)%nat (d =? r)%nat (l =? r)%nat (snd (rd m d)) (snd (rd m l)) (snd (rd m r)) in
  Some (setB m d v, bp).
Definition aadd := abin KAdd.
Definition asub := abin KSub.
(* mul, lines 67-92 *)
Definition amul (d l r : nat) (m : fpmem) (bp : Z) : option (fpmem * Z) :=
  let! (ac, bp) := kMul bp (l =? r)%nat zero2 (fst (rd m l)) (fst (rd m r)) in
  let! (bd, bp) := kMul bp (l =? r)%nat zero2 (snd (rd m l)) (snd (rd m r)) in
  let! (bMinA, bp) := kBin KSub bp false false false zero1 (snd (rd m l)) (fst (rd m l)) in
  let! (cMinD, bp) := kBin KSub bp false false false zero1 (fst (rd m r)) (snd (rd m r)) in
  let! (adPlusBc, bp) := kMul bp false zero2 bMinA cMinD in
  let! (adPlusBc, bp) := kBin KAdl bp true false false adPlusBc adPlusBc ac in
  let! (adPlusBc, bp) := kBin KAdl bp true false false adPlusBc adPlusBc bd in
  let! (v, _, bp) := kRdc bp (snd (rd m d)) adPlusBc in
  let m := setB m d v in
  let! (acMinBd, bp) := kBin KSul bp false false false zero2 ac bd in
  let! (v, _, bp) := kRdc bp (fst (rd m d)) acMinBd in
  Some (setA m d v, bp).
(* inv, lines 99-130 *)
Definition ainv (d x : nat) (m : fpmem) (bp : Z) : option (fpmem * Z) :=
  let! (e1, bp) := kMul bp true zero2 (fst (rd m x)) (fst (rd m x)) in
  let! (e2, bp) := kMul bp true zero2 (snd (rd m x)) (snd (rd m x)) in
  let! (e1, bp) := kBin KAdl bp true false false e1 e1 e2 in
  let! (f1, e1, bp) := kRdc bp zero1 e1 in
  let! (f2, bp) := amulP bp true zero1 f1 f1 in
  let! (f2, bp) := ap34 bp f2 in
  let! (f2, bp) := amulP bp true f2 f2 f2 in
  let! (f2, bp) := amulP bp false f2 f2 f1 in
  let! (e1, bp) := kMul bp false e1 (fst (rd m x)) f2 in
  let! (v, e1, bp) := kRdc bp (fst (rd m d)) e1 in
  let m := setA m d v in
  let! (f1, bp) := kBin KSub bp false false false f1 zero1 (snd (rd m x)) in
  let! (e1, bp) := kMul bp false e1 f1 f2 in
  let! (v, _, bp) := kRdc bp (snd (rd m d)) e1 in
  Some (setB m d v, bp).
(* sqr, lines 132-147 *)
Definition asqr (d x : nat) (m : fpmem) (bp : Z) : option (fpmem * Z) :=
  let! (a2, bp) := kBin KAdd bp false false true zero1 (fst (rd m x)) (fst (rd m x)) in
  let! (aPlusB, bp) := kBin KAdd bp false false false zero1 (fst (rd m x)) (snd (rd m x)) in
  let! (aMinusB, bp) := kBin KSub bp false false false zero1 (fst (rd m x)) (snd (rd m x)) in
  let! (a2MinB2, bp) := kMul bp false zero2 aPlusB aMinusB in
  let! (ab2, bp) := kMul bp false zero2 a2 (snd (rd m x)) in
  let! (v, _, bp) := kRdc bp (fst (rd m d)) a2MinB2 in
  let m := setA m d v in
  let! (v, _, bp) := kRdc bp (snd (rd m d)) ab2 in
  Some (setB m d v, bp).
(* cswap, lines 153-158, one pair of pointers *)
Definition acswap1 (x y : nat) (w : Z) (m : fpmem) (bp : Z) : option (fpmem * Z) :=
  let! (a, b, bp) := kSwap bp w (x =? y)%nat (fst (rd m x)) (fst (rd m y)) in
  let m := setA (setA m x a) y b in
  let! (a, b, bp) := kSwap bp w (x =? y)%nat (snd (rd m x)) (snd (rd m y)) in
  Some (setB (setB m x a) y b, bp).
Definition acswap (xPx xPz xQx xQz : nat) (w : Z) (m : fpmem) (bp : Z) : option (fpmem * Z) :=
  let! (m, bp) := acswap1 xPx xQx w m bp in acswap1 xPz xQz w m bp.
(* ToMontgomery, lines 165-174; P434R2 is a package variable nobody else points to *)
Definition aToMont (d x : nat) (m : fpmem) (bp : Z) : option (fpmem * Z) :=
  let! (aRR, bp) := kMul bp false zero2 (fst (rd m x)) (fR2 F) in
  let! (v, aRR, bp) := kRdc bp (fst (rd m d)) aRR in
  let m := setA m d v in
  let! (aRR, bp) := kMul bp false aRR (snd (rd m x)) (fR2 F) in
  let! (v, _, bp) := kRdc bp (snd (rd m d)) aRR in
  Some (setB m d v, bp).
(* FromMontgomery, lines 182-196: aR is cleared before its second use *)
Definition aFromMont (d x : nat) (m : fpmem) (bp : Z) : option (fpmem * Z) :=
  let! (v, aR, bp) := kRdc bp (fst (rd m d)) (fst (rd m x) ++ repeat 0 n) in
  let! (v, bp) := kMod bp v in
  let m := setA m d v in
  let aR := map (fun _ => 0) aR in
  let! (v, _, bp) := kRdc bp (snd (rd m d)) (snd (rd m x) ++ skipn n aR) in
  let! (v, bp) := kMod bp v in
  Some (setB m d v, bp).
End Kernels.
