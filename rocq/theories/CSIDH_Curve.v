(* Model of dh/csidh/curve.go: x-only arithmetic, ladder, isogeny.  Each Go function is the list
   of its field calls (Instr.v) on locations; pointer parameters are locations, local variables
   are fixed locations above 30 (distinct per function, as Go locals are). *)
From Coq Require Import ZArith List Lia Bool.
From Verif Require Import Lib MP Instr.
Import ListNotations.
Open Scope Z_scope.

(* type point / coeff, csidh.go:11-20: two locations *)
Record ploc : Type := mkpl { px : nat; pz : nat }.

(* package constants four and one (consts.go:44-73) *)
Definition four_l : nat := 30.
Definition one_l : nat := 31.

(* xAdd, curve.go:8-22 *)
Definition xAdd_code (PaQ P Q PdQ : ploc) : list instr :=
  let t0 := 40%nat in let t1 := 41%nat in let t2 := 42%nat in let t3 := 43%nat in
    [IAdd t0 P.(px) P.(pz);
     ISub t1 P.(px) P.(pz);
     IAdd t2 Q.(px) Q.(pz);
     ISub t3 Q.(px) Q.(pz);
     IMul t0 t0 t3;
     IMul t1 t1 t2;
     IAdd t2 t0 t1;
     ISub t3 t0 t1;
     IMul t2 t2 t2;
     IMul t3 t3 t3;
     IMul PaQ.(px) PdQ.(pz) t2;
     IMul PaQ.(pz) PdQ.(px) t3].

(* xDbl, curve.go:28-43 *)
Definition xDbl_code (Q P A : ploc) : list instr :=
  let t0 := 50%nat in let t1 := 51%nat in let t2 := 52%nat in let four := four_l in
    [IAdd t0 P.(px) P.(pz);
     IMul t0 t0 t0;
     ISub t1 P.(px) P.(pz);
     IMul t1 t1 t1;
     ISub t2 t0 t1;
     IMul t1 four t1;
     IMul t1 t1 A.(pz);
     IMul Q.(px) t0 t1;
     IAdd t0 A.(pz) A.(pz);
     IAdd t0 t0 A.(px);
     IMul t0 t0 t2;
     IAdd t0 t0 t1;
     IMul Q.(pz) t0 t2].

(* xDblAdd, curve.go:50-73 *)
Definition xDblAdd_code (PaP PaQ P Q PdQ A24 : ploc) : list instr :=
  let t0 := 60%nat in let t1 := 61%nat in let t2 := 62%nat in
    [IAdd t0 P.(px) P.(pz);
     ISub t1 P.(px) P.(pz);
     IMul PaP.(px) t0 t0;
     ISub t2 Q.(px) Q.(pz);
     IAdd PaQ.(px) Q.(px) Q.(pz);
     IMul t0 t0 t2;
     IMul PaP.(pz) t1 t1;
     IMul t1 t1 PaQ.(px);
     ISub t2 PaP.(px) PaP.(pz);
     IMul PaP.(pz) PaP.(pz) A24.(pz);
     IMul PaP.(px) PaP.(px) PaP.(pz);
     IMul PaQ.(px) A24.(px) t2;
     ISub PaQ.(pz) t0 t1;
     IAdd PaP.(pz) PaP.(pz) PaQ.(px);
     IAdd PaQ.(px) t0 t1;
     IMul PaP.(pz) PaP.(pz) t2;
     IMul PaQ.(pz) PaQ.(pz) PaQ.(pz);
     IMul PaQ.(px) PaQ.(px) PaQ.(px);
     IMul PaQ.(pz) PaQ.(pz) PdQ.(px);
     IMul PaQ.(px) PaQ.(px) PdQ.(pz)].

(* cswappoint, curve.go:78-81; cswap512 with a choice in 0,1 is a conditional swap (C26) *)
Definition cswappoint_code (P1 P2 : ploc) (choice : bool) : list instr :=
  [ISwap P1.(px) P2.(px) choice; ISwap P1.(pz) P2.(pz) choice].

(* k[i>>6]>>(i&63)&1, curve.go:105,114 *)
Definition kbit (k : list Z) (i : nat) : bool :=
  negb (Z.land (Z.shiftr (nth (i / 64) k 0) (Z.of_nat (i mod 64))) 1 =? 0).

(* skip initial zero bits, curve.go:102-108: the j at which the loop stops *)
Fixpoint skip (k : list Z) (j : nat) : nat :=
  match j with
  | O => O
  | S j' => if kbit k (S j') then S j' else skip k j'
  end.

(* local variables of xMul *)
Definition mA24 : ploc := mkpl 70 71.
Definition mQ : ploc := mkpl 72 73.
Definition mR : ploc := mkpl 74 75.
Definition mA : ploc := mkpl 76 77.

(* main loop of xMul, curve.go:112-118 *)
Fixpoint ladder_code (P : ploc) (k : list Z) (i : nat) (prevBit : bool) : list instr :=
  match i with
  | O => []
  | S i' =>
      let bit := kbit k i' in
      cswappoint_code mQ mR (xorb prevBit bit) ++
      xDblAdd_code mQ mR mQ mR P mA24 ++
      ladder_code P k i' bit
  end.

(* xMul, curve.go:87-119 *)
Definition xMul_code (kP P co : ploc) (k : list Z) : list instr :=
  let A24 := mA24 in let four := four_l in
  [ICopy mA.(px) co.(px); ICopy mA.(pz) co.(pz); ICopy mR.(px) P.(px); ICopy mR.(pz) P.(pz)] ++
  [IAdd A24.(px) co.(pz) co.(pz);
   IAdd A24.(px) A24.(px) co.(px);
   IMul A24.(pz) co.(pz) four] ++
  xDbl_code mQ P mA ++
  ladder_code P k (skip k 511) true ++
  cswappoint_code mQ mR (kbit k 0) ++
  [ICopy kP.(px) mQ.(px); ICopy kP.(pz) mQ.(pz)].

(* local variables of xIso; M is an array of three points *)
Definition iM (i : nat) : ploc := mkpl (80 + 2 * (i mod 3)) (81 + 2 * (i mod 3)).
Definition iQ : ploc := mkpl 86 87.
Definition iprod : ploc := mkpl 88 89.
Definition icoEd : ploc := mkpl 90 91.

(* xIso up to the loop, curve.go:130-156 *)
Definition xIso_pre (img co kern : ploc) : list instr :=
  let t0 := 92%nat in let t1 := 93%nat in let S := 95%nat in let D := 96%nat in
  let coEd := icoEd in let prod := iprod in let Q := iQ in
  [ICopy (iM 0).(px) kern.(px); ICopy (iM 0).(pz) kern.(pz)] ++
  [IAdd coEd.(pz) co.(pz) co.(pz);
   IAdd coEd.(px) co.(px) coEd.(pz);
   ISub coEd.(pz) co.(px) coEd.(pz);
   IAdd S img.(px) img.(pz);
   ISub D img.(px) img.(pz);
   ISub prod.(px) kern.(px) kern.(pz);
   IAdd prod.(pz) kern.(px) kern.(pz);
   IMul t1 prod.(px) S;
   IMul t0 prod.(pz) D;
   IAdd Q.(px) t0 t1;
   ISub Q.(pz) t0 t1] ++
  xDbl_code (iM 1) kern co.

(* body of the loop of xIso, curve.go:160-173 *)
Definition xIso_body (kern : ploc) (i : nat) : list instr :=
  let t0 := 92%nat in let t1 := 93%nat in let t2 := 94%nat in let S := 95%nat in let D := 96%nat in
  let prod := iprod in let Q := iQ in let M := iM in
  (if (2 <=? i)%nat then xAdd_code (iM i) (iM (i - 1)) kern (iM (i - 2)) else []) ++
  [ISub t1 (M i).(px) (M i).(pz);
   IAdd t0 (M i).(px) (M i).(pz);
   IMul prod.(px) prod.(px) t1;
   IMul prod.(pz) prod.(pz) t0;
   IMul t1 t1 S;
   IMul t0 t0 D;
   IAdd t2 t0 t1;
   IMul Q.(px) Q.(px) t2;
   ISub t2 t0 t1;
   IMul Q.(pz) Q.(pz) t2].

(* xIso after the loop, curve.go:175-199 *)
Definition xIso_post (img co : ploc) (kernOrder : Z) : list instr :=
  let coEd := icoEd in let prod := iprod in let Q := iQ in
  [IMul Q.(px) Q.(px) Q.(px);
   IMul Q.(pz) Q.(pz) Q.(pz);
   IMul img.(px) img.(px) Q.(px);
   IMul img.(pz) img.(pz) Q.(pz);
   IPow coEd.(px) coEd.(px) kernOrder;
   IPow coEd.(pz) coEd.(pz) kernOrder;
   IMul prod.(px) prod.(px) prod.(px);
   IMul prod.(px) prod.(px) prod.(px);
   IMul prod.(px) prod.(px) prod.(px);
   IMul prod.(pz) prod.(pz) prod.(pz);
   IMul prod.(pz) prod.(pz) prod.(pz);
   IMul prod.(pz) prod.(pz) prod.(pz);
   IMul coEd.(pz) coEd.(pz) prod.(px);
   IMul coEd.(px) coEd.(px) prod.(pz);
   IAdd co.(px) coEd.(px) coEd.(pz);
   ISub co.(pz) coEd.(px) coEd.(pz);
   IAdd co.(px) co.(px) co.(px)].

(* xIso, curve.go:129-200: for i := 1; i < kernOrder>>1 *)
Definition xIso_code (img co kern : ploc) (kernOrder : Z) : list instr :=
  xIso_pre img co kern ++
  flat_map (xIso_body kern) (seq 1 (Z.to_nat (Z.shiftr kernOrder 1) - 1)) ++
  xIso_post img co kernOrder.

(* montEval, curve.go:203-212 *)
Definition montEval_code (res A x : nat) : list instr :=
  let t := 100%nat in let one := one_l in
  [ICopy res x] ++
  [IMul res res res;
   IMul t A x;
   IAdd res res t;
   IAdd res res one;
   IMul res res x].
