(* Model of the CSIDH-512 field layer: dh/csidh/consts.go, dh/csidh/fp511.go and
   dh/csidh/fp511_generic.go (the portable build, tags noasm/arm64).
   type fp [8]uint64 is a list of 8 limbs (Z in [0,2^64)).  Go's r[i], c = bits.Add64(..) is
   transcribed line by line with local names r0..r7; pointers are passed by value (in-place
   calls such as mulRdc(r, r, r) are justified by the limb-store versions in CSIDH_Alias.v). *)
From Coq Require Import ZArith List.
From Verif Require Import Lib MP.
Import ListNotations.
Open Scope Z_scope.

(* ---------- consts.go ---------- *)
(* consts.go:5 *)
Definition pbits : Z := 511.
(* consts.go:7 *)
Definition primeCount : nat := 74.
(* consts.go:9 *)
Definition expMax : Z := 5.
(* consts.go:11,13 *)
Definition limbBitSize : Z := 64.
Definition limbByteSize : nat := 8.
(* consts.go:15 *)
Definition numWords : nat := 8.
(* consts.go:17,19,21 *)
Definition PrivateKeySize : nat := 37.
Definition PublicKeySize : nat := 64.
Definition SharedSecretSize : nat := 64.
(* consts.go:27-34 *)
Definition primes : list Z :=
  [ 3; 5; 7; 11; 13; 17; 19; 23; 29; 31; 37; 41;
    43; 47; 53; 59; 61; 67; 71; 73; 79; 83; 89; 97;
    101; 103; 107; 109; 113; 127; 131; 137; 139; 149; 151; 157;
    163; 167; 173; 179; 181; 191; 193; 197; 199; 211; 223; 227;
    229; 233; 239; 241; 251; 257; 263; 269; 271; 277; 281; 283;
    293; 307; 311; 313; 317; 331; 337; 347; 349; 353; 359; 367;
    373; 587 ].
(* consts.go:36-41 *)
Definition p : list Z :=
  [ 0x1B81B90533C6C87B; 0xC2721BF457ACA835;
    0x516730CC1F0B4F25; 0xA7AAC6C567F35507;
    0x5AFBFCC69322C9CD; 0xB42D083AEDC88C42;
    0xFC8AB0D15E3E4C4A; 0x65B48E8F740F89BF ].
(* consts.go:44-49 *)
Definition one : list Z :=
  [ 0xC8FC8DF598726F0A; 0x7B1BC81750A6AF95;
    0x5D319E67C1E961B4; 0xB0AA7275301955F1;
    0x4A080672D9BA6C64; 0x97A5EF8A246EE77B;
    0x06EA9E5D4383676A; 0x3496E2E117E0EC80 ].
(* consts.go:52-57 *)
Definition two : list Z :=
  [ 0x767762E5FD1E1599; 0x33C5743A49A0B6F6;
    0x68FC0C0364C77443; 0xB9AA1E24F83F56DB;
    0x3914101F20520EFB; 0x7B1ED6D95B1542B4;
    0x114A8BE928C8828A; 0x03793732BBB24F40 ].
(* consts.go:60-65 *)
Definition twoNeg : list Z :=
  [ 0xA50A561F36A8B2E2; 0x8EACA7BA0E0BF13E;
    0xE86B24C8BA43DAE2; 0xEE00A8A06FB3FE2B;
    0x21E7ECA772D0BAD1; 0x390E316192B3498E;
    0xEB4024E83575C9C0; 0x623B575CB85D3A7F ].
(* consts.go:68-73 *)
Definition four : list Z :=
  [ 0xECEEC5CBFA3C2B32; 0x678AE87493416DEC;
    0xD1F81806C98EE886; 0x73543C49F07EADB6;
    0x7228203E40A41DF7; 0xF63DADB2B62A8568;
    0x229517D251910514; 0x06F26E6577649E80 ].
(* consts.go:76-80 *)
Definition fourSqrtP : list Z :=
  [ 0x17895E71E1A20B3F; 0x38D0CD95F8636A56;
    0x142B9541E59682CD; 0x856F1399D91D6592;
    0x0000000000000002; 0x0;
    0x0; 0x0 ].
(* consts.go:83-85 *)
Definition pNegInv : list Z :=
  [ 0x66c1301f632e294d; 0x0;
    0x0; 0x0;
    0x0; 0x0;
    0x0; 0x0 ].
(* consts.go:89-94 *)
Definition pMin1By2 : list Z :=
  [ 0x8DC0DC8299E3643D; 0xE1390DFA2BD6541A;
    0xA8B398660F85A792; 0xD3D56362B3F9AA83;
    0x2D7DFE63499164E6; 0x5A16841D76E44621;
    0xFE455868AF1F2625; 0x32DA4747BA07C4DF ].
(* consts.go:98-103 *)
Definition pMin1 : list Z :=
  [ 0x1B81B90533C6C879; 0xC2721BF457ACA835;
    0x516730CC1F0B4F25; 0xA7AAC6C567F35507;
    0x5AFBFCC69322C9CD; 0xB42D083AEDC88C42;
    0xFC8AB0D15E3E4C4A; 0x65B48E8F740F89BF ].

(* ---------- fp511.go ---------- *)
(* ctPick64, fp511.go:24-26 *)
Definition ctPick64 (which in1 in2 : Z) : Z :=
  Z.lor (Z.land in1 which) (Z.land in2 (not64 which)).

(* ctIsNonZero64, fp511.go:30-36 *)
Definition ctIsNonZero64 (i : Z) : Z :=
  Z.shiftr (Z.lor i (not64 (sub64w i 1))) 63.

(* mul512, fp511_generic.go:10-41 *)
Definition mul512 (m1 : list Z) (m2 : Z) : list Z :=
  let '(c, r0) := Mul64 m2 m1.[0] in
  let '(h, l) := Mul64 m2 m1.[1] in
  let '(r1, c) := Add64 l c 0 in
  let c := add64w h c in
  let '(h, l) := Mul64 m2 m1.[2] in
  let '(r2, c) := Add64 l c 0 in
  let c := add64w h c in
  let '(h, l) := Mul64 m2 m1.[3] in
  let '(r3, c) := Add64 l c 0 in
  let c := add64w h c in
  let '(h, l) := Mul64 m2 m1.[4] in
  let '(r4, c) := Add64 l c 0 in
  let c := add64w h c in
  let '(h, l) := Mul64 m2 m1.[5] in
  let '(r5, c) := Add64 l c 0 in
  let c := add64w h c in
  let '(h, l) := Mul64 m2 m1.[6] in
  let '(r6, c) := Add64 l c 0 in
  let c := add64w h c in
  let '(h, l) := Mul64 m2 m1.[7] in
  let '(r7, c) := Add64 l c 0 in
  [r0; r1; r2; r3; r4; r5; r6; r7].

(* mul576, fp511_generic.go:47-80 *)
Definition mul576 (m1 : list Z) (m2 : Z) : list Z :=
  let '(c, r0) := Mul64 m2 m1.[0] in
  let '(h, l) := Mul64 m2 m1.[1] in
  let '(r1, c) := Add64 l c 0 in
  let c := add64w h c in
  let '(h, l) := Mul64 m2 m1.[2] in
  let '(r2, c) := Add64 l c 0 in
  let c := add64w h c in
  let '(h, l) := Mul64 m2 m1.[3] in
  let '(r3, c) := Add64 l c 0 in
  let c := add64w h c in
  let '(h, l) := Mul64 m2 m1.[4] in
  let '(r4, c) := Add64 l c 0 in
  let c := add64w h c in
  let '(h, l) := Mul64 m2 m1.[5] in
  let '(r5, c) := Add64 l c 0 in
  let c := add64w h c in
  let '(h, l) := Mul64 m2 m1.[6] in
  let '(r6, c) := Add64 l c 0 in
  let c := add64w h c in
  let '(h, l) := Mul64 m2 m1.[7] in
  let '(r7, c) := Add64 l c 0 in
  let '(r8, c) := Add64 h c 0 in
  let r8 := add64w r8 c in
  [r0; r1; r2; r3; r4; r5; r6; r7; r8].

(* cswap512, fp511_generic.go:85-94; choice is a uint8 *)
Definition cswap512 (x y : list Z) (choice : Z) : list Z * list Z :=
  let mask64 := sub64w 0 choice in
  let tmp := map (fun xy => Z.land mask64 (Z.lxor (fst xy) (snd xy))) (combine x y) in
  (map (fun tx => Z.lxor (fst tx) (snd tx)) (combine tmp x),
   map (fun ty => Z.lxor (fst ty) (snd ty)) (combine tmp y)).

(* mulGeneric, loop body, fp511.go:44-68.  The carry c entering the body is not read before it
   is assigned; the body returns the new s and the value left in c. *)
Definition mul_body (y s : list Z) (xi : Z) : list Z * Z :=
  let q := mul64w (add64w (mul64w xi y.[0]) s.[0]) pNegInv.[0] in
  let t1 := mul576 p q in
  let t2 := mul576 y xi in
  let '(u0, c) := Add64 t1.[0] t2.[0] 0 in
  let '(u1, c) := Add64 t1.[1] t2.[1] c in
  let '(u2, c) := Add64 t1.[2] t2.[2] c in
  let '(u3, c) := Add64 t1.[3] t2.[3] c in
  let '(u4, c) := Add64 t1.[4] t2.[4] c in
  let '(u5, c) := Add64 t1.[5] t2.[5] c in
  let '(u6, c) := Add64 t1.[6] t2.[6] c in
  let '(u7, c) := Add64 t1.[7] t2.[7] c in
  let '(u8, d) := Add64 t1.[8] t2.[8] c in
  let '(d, c) := Add64 u0 s.[0] 0 in
  let '(v0, c) := Add64 u1 s.[1] c in
  let '(v1, c) := Add64 u2 s.[2] c in
  let '(v2, c) := Add64 u3 s.[3] c in
  let '(v3, c) := Add64 u4 s.[4] c in
  let '(v4, c) := Add64 u5 s.[5] c in
  let '(v5, c) := Add64 u6 s.[6] c in
  let '(v6, c) := Add64 u7 s.[7] c in
  let '(v7, d) := Add64 u8 0 c in
  ([v0; v1; v2; v3; v4; v5; v6; v7], c).

(* mulGeneric, last iteration, fp511.go:72-94; c is the stale carry of the loop *)
Definition mul_last (y s : list Z) (xi c : Z) : list Z :=
  let q := mul64w (add64w (mul64w xi y.[0]) s.[0]) pNegInv.[0] in
  let t1 := mul576 p q in
  let t2 := mul576 y xi in
  let '(u0, c) := Add64 t1.[0] t2.[0] c in
  let '(u1, c) := Add64 t1.[1] t2.[1] c in
  let '(u2, c) := Add64 t1.[2] t2.[2] c in
  let '(u3, c) := Add64 t1.[3] t2.[3] c in
  let '(u4, c) := Add64 t1.[4] t2.[4] c in
  let '(u5, c) := Add64 t1.[5] t2.[5] c in
  let '(u6, c) := Add64 t1.[6] t2.[6] c in
  let '(u7, c) := Add64 t1.[7] t2.[7] c in
  let '(u8, d) := Add64 t1.[8] t2.[8] c in
  let '(d, c) := Add64 u0 s.[0] 0 in
  let '(r0, c) := Add64 u1 s.[1] c in
  let '(r1, c) := Add64 u2 s.[2] c in
  let '(r2, c) := Add64 u3 s.[3] c in
  let '(r3, c) := Add64 u4 s.[4] c in
  let '(r4, c) := Add64 u5 s.[5] c in
  let '(r5, c) := Add64 u6 s.[6] c in
  let '(r6, c) := Add64 u7 s.[7] c in
  let '(r7, d) := Add64 u8 0 c in
  [r0; r1; r2; r3; r4; r5; r6; r7].

(* mulGeneric, fp511.go:38-95 *)
Definition mulGeneric (x y : list Z) : list Z :=
  let '(s, c) := fold_left (fun sc i => mul_body y (fst sc) (nth i x 0))
                           (seq 0 (numWords - 1)) (repeat 0 8, 0) in
  mul_last y s (nth (numWords - 1) x 0) c.

(* the final conditional subtraction shared by mulRdc (fp511_generic.go:104-122), addRdc
   (fp511.go:125-142) and modExpRdcCommon (fp511.go:217-235) -- the three texts are identical *)
Definition reduceOnce (r : list Z) : list Z :=
  let '(t0, c) := Sub64 r.[0] p.[0] 0 in
  let '(t1, c) := Sub64 r.[1] p.[1] c in
  let '(t2, c) := Sub64 r.[2] p.[2] c in
  let '(t3, c) := Sub64 r.[3] p.[3] c in
  let '(t4, c) := Sub64 r.[4] p.[4] c in
  let '(t5, c) := Sub64 r.[5] p.[5] c in
  let '(t6, c) := Sub64 r.[6] p.[6] c in
  let '(t7, c) := Sub64 r.[7] p.[7] c in
  let w := sub64w 0 c in
  let z0 := ctPick64 w r.[0] t0 in
  let z1 := ctPick64 w r.[1] t1 in
  let z2 := ctPick64 w r.[2] t2 in
  let z3 := ctPick64 w r.[3] t3 in
  let z4 := ctPick64 w r.[4] t4 in
  let z5 := ctPick64 w r.[5] t5 in
  let z6 := ctPick64 w r.[6] t6 in
  let z7 := ctPick64 w r.[7] t7 in
  [z0; z1; z2; z3; z4; z5; z6; z7].

(* mulRdc, fp511_generic.go:98-123 *)
Definition mulRdc (x y : list Z) : list Z := reduceOnce (mulGeneric x y).

(* isLess, fp511.go:98-110 *)
Fixpoint isLess_loop (x y : list Z) (i : nat) : bool :=
  match i with
  | O => false
  | S i' =>
      let '(v, c) := Sub64 (nth i' y 0) (nth i' x 0) 0 in
      if negb (c =? 0) then false
      else if negb (v =? 0) then true
      else isLess_loop x y i'
  end.
Definition isLess (x y : list Z) : bool := isLess_loop x y numWords.

(* addRdc, fp511.go:113-143 *)
Definition addRdc (x y : list Z) : list Z :=
  let '(r0, c) := Add64 x.[0] y.[0] 0 in
  let '(r1, c) := Add64 x.[1] y.[1] c in
  let '(r2, c) := Add64 x.[2] y.[2] c in
  let '(r3, c) := Add64 x.[3] y.[3] c in
  let '(r4, c) := Add64 x.[4] y.[4] c in
  let '(r5, c) := Add64 x.[5] y.[5] c in
  let '(r6, c) := Add64 x.[6] y.[6] c in
  let '(r7, c) := Add64 x.[7] y.[7] c in
  reduceOnce [r0; r1; r2; r3; r4; r5; r6; r7].

(* sub512, fp511.go:146-157: difference and borrow *)
Definition sub512 (x y : list Z) : list Z * Z :=
  let '(r0, c) := Sub64 x.[0] y.[0] 0 in
  let '(r1, c) := Sub64 x.[1] y.[1] c in
  let '(r2, c) := Sub64 x.[2] y.[2] c in
  let '(r3, c) := Sub64 x.[3] y.[3] c in
  let '(r4, c) := Sub64 x.[4] y.[4] c in
  let '(r5, c) := Sub64 x.[5] y.[5] c in
  let '(r6, c) := Sub64 x.[6] y.[6] c in
  let '(r7, c) := Sub64 x.[7] y.[7] c in
  ([r0; r1; r2; r3; r4; r5; r6; r7], c).

(* subRdc, fp511.go:160-184 *)
Definition subRdc (x y : list Z) : list Z :=
  let '(r0, c) := Sub64 x.[0] y.[0] 0 in
  let '(r1, c) := Sub64 x.[1] y.[1] c in
  let '(r2, c) := Sub64 x.[2] y.[2] c in
  let '(r3, c) := Sub64 x.[3] y.[3] c in
  let '(r4, c) := Sub64 x.[4] y.[4] c in
  let '(r5, c) := Sub64 x.[5] y.[5] c in
  let '(r6, c) := Sub64 x.[6] y.[6] c in
  let '(r7, c) := Sub64 x.[7] y.[7] c in
  let w := sub64w 0 c in
  let '(z0, c) := Add64 r0 (ctPick64 w p.[0] 0) 0 in
  let '(z1, c) := Add64 r1 (ctPick64 w p.[1] 0) c in
  let '(z2, c) := Add64 r2 (ctPick64 w p.[2] 0) c in
  let '(z3, c) := Add64 r3 (ctPick64 w p.[3] 0) c in
  let '(z4, c) := Add64 r4 (ctPick64 w p.[4] 0) c in
  let '(z5, c) := Add64 r5 (ctPick64 w p.[5] 0) c in
  let '(z6, c) := Add64 r6 (ctPick64 w p.[6] 0) c in
  let '(z7, c) := Add64 r7 (ctPick64 w p.[7] 0) c in
  [z0; z1; z2; z3; z4; z5; z6; z7].

(* modExpRdcCommon, precomputation, fp511.go:198-205 *)
Fixpoint precomp_loop (b : list Z) (n : nat) (tab : list (list Z)) : list (list Z) :=
  match n with
  | O => tab
  | S n' =>
      let i := length tab in
      let sq := mulRdc (nth (i / 2) tab []) (nth (i / 2) tab []) in
      precomp_loop b n' (tab ++ [sq; mulRdc sq b])
  end.
Definition precomp (b : list Z) : list (list Z) := precomp_loop b 7 [one; b].

(* modExpRdcCommon, main loop, fp511.go:207-215 *)
Fixpoint modexp_loop (tab : list (list Z)) (e : list Z) (i : nat) (r : list Z) : list Z :=
  match i with
  | O => r
  | S i' =>
      let r := mulRdc r r in
      let r := mulRdc r r in
      let r := mulRdc r r in
      let r := mulRdc r r in
      let idx := Z.land (Z.shiftr (nth (i' / 16) e 0) (Z.of_nat (i' mod 16) * 4)) 15 in
      modexp_loop tab e i' (mulRdc r (nth (Z.to_nat idx) tab []))
  end.

(* modExpRdcCommon, fp511.go:190-236 *)
Definition modExpRdcCommon (b e : list Z) (fpBitLen : nat) : list Z :=
  reduceOnce (modexp_loop (precomp b) e (fpBitLen / 4) one).

(* modExpRdc512, fp511.go:240-242 *)
Definition modExpRdc512 (b e : list Z) : list Z := modExpRdcCommon b e 512.

(* modExpRdc64, fp511.go:246-248 *)
Definition modExpRdc64 (b : list Z) (e : Z) : list Z :=
  modExpRdcCommon b [e; 0; 0; 0; 0; 0; 0; 0] 64.

(* isNonQuadRes, fp511.go:259-269 *)
Definition isNonQuadRes (v : list Z) : Z :=
  let res := modExpRdc512 v pMin1By2 in
  let b := fold_left (fun b i => Z.lor b (Z.lxor (nth i res 0) (nth i one 0))) (seq 0 8) 0 in
  ctIsNonZero64 b.

(* isZero, fp511.go:273-279 *)
Definition isZero (v : list Z) : bool :=
  let r := fold_left (fun r i => Z.lor r (nth i v 0)) (seq 0 numWords) 0 in
  ctIsNonZero64 r =? 0.

(* equal, fp511.go:282-288 *)
Definition equal (v inp : list Z) : bool :=
  let r := fold_left (fun r i => Z.lor r (Z.lxor (nth i v 0) (nth i inp 0))) (seq 0 8) 0 in
  ctIsNonZero64 r =? 0.
