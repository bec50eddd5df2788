(* The symbolic runs of the arm64 kernels of dh/sidh. *)
From Coq Require Import ZArith List Bool.
From Verif Require Import Lib MP SIDH_Consts X86 X86_Sym X86_Call X86_Lin X86_Mul SIDH_AsmModel SIDH_AsmChk SIDH_AsmRuns SIDH_Arm503 SIDH_Arm751 SIDH_ArmModel SIDH_ArmChk.
Import ListNotations.
Open Scope Z_scope.

Definition nA (Q : apkg) : nat := nOf (pk Q).
Definition FA (Q : apkg) : fieldParams := fieldOf (pk Q).
Lemma arm_add_check Q a b c m : In (a, b, c, m) aliasings ->
  symOk 0 (addArm Q) [AP (S a); AP (S b); AP (S c)] 0 (repeat (nA Q) m) (armGlob Q)
    (addChk (repeat (nA Q) m) a b c (nA Q) (val (fPx2 (FA Q))) (val (fPx2 (FA Q)))) = true.
Proof. intro H. pick H; destruct Q; vm_cast_no_check (eq_refl true). Qed.
Lemma arm_sub_check Q a b c m : In (a, b, c, m) aliasings ->
  symOk 0 (subArm Q) [AP (S a); AP (S b); AP (S c)] 0 (repeat (nA Q) m) (armGlob Q)
    (subChk (repeat (nA Q) m) a (nA Q) (pvOf 0 (repeat (nA Q) m) b) (pvOf 0 (repeat (nA Q) m) c) (val (fPx2 (FA Q)))) = true.
Proof. intro H. pick H; destruct Q; vm_cast_no_check (eq_refl true). Qed.
Lemma arm_sul_check Q a b c m : In (a, b, c, m) aliasings ->
  symOk 0 (sulArm Q) [AP (S a); AP (S b); AP (S c)] 0 (repeat (2 * nA Q) m)%nat (armGlob Q)
    (subChk (repeat (2 * nA Q) m)%nat a (2 * nA Q)%nat (pvOf 0 (repeat (2 * nA Q) m)%nat b) (pvOf 0 (repeat (2 * nA Q) m)%nat c)
      (val (fP (FA Q)) * B ^ Z.of_nat (nA Q))) = true.
Proof. intro H. pick H; destruct Q; vm_cast_no_check (eq_refl true). Qed.
Lemma arm_adl_check Q a b c m : In (a, b, c, m) aliasings ->
  symOk 0 (adlArm Q) [AP (S a); AP (S b); AP (S c)] 0 (repeat (2 * nA Q) m)%nat (armGlob Q) (sumChk (repeat (2 * nA Q) m)%nat a b c (2 * nA Q)%nat) = true.
Proof. intro H. pick H; destruct Q; vm_cast_no_check (eq_refl true). Qed.
Lemma arm_mod_check Q :
  symOk 0 (modArm Q) [AP 1] 0 [nA Q] (armGlob Q) (subChk [nA Q] 0 (nA Q) (pvOf 0 [nA Q] 0) (cstP (val (fP (FA Q)))) (val (fP (FA Q)))) = true.
Proof. destruct Q; vm_cast_no_check (eq_refl true). Qed.

(* the words of q among the words of z, those of x, and the words computed *)
Definition armRdcIdx (Q : apkg) : list nat :=
  match Q with Q503 => [8; 9; 10; 57; 58; 103; 104; 147] | Q751 => [12; 13; 14; 15; 16; 37; 46; 61; 80; 103; 130; 161] end%nat.
Lemma arm_rdc_check Q :
  symOkB 0 (rdcArm Q) [AP 1; AP 2] 0 [full (nA Q); full (2 * nA Q)] (armGlob Q)
    (fun outs bpp facts => outAt 0 [nA Q; 2 * nA Q]%nat 0 outs &&
      rdcChk (val (fPp1 (FA Q))) [nA Q; 2 * nA Q]%nat 0 1 (nA Q) true (armRdcIdx Q) outs bpp facts) = true.
Proof. destruct Q; vm_cast_no_check (eq_refl true). Qed.

(* mulP503: the words of z, x, y (x) and those computed *)
Definition steps503 : list item := [
  ([57; 66; 69; 70], [([49; 50], [52; 53])], []);
  ([72; 80; 83; 84], [([32; 33], [37; 38])], []);
  ([85; 96; 99; 100], [([34; 35], [39; 40])], []);
  (seq 101 5, [([32; 33], [39; 40]); ([34; 35], [37; 38])], []);
  ([72; 80; 106; 107; 108; 109; 110; 111], [(seq 32 4, seq 37 4)], []);
  ([125; 134; 137; 138], [([117; 118], [120; 121])], []);
  ([140; 148; 151; 152], [([16; 17], [24; 25])], []);
  ([153; 164; 167; 168], [([18; 19], [26; 27])], []);
  (seq 169 5, [([16; 17], [26; 27]); ([18; 19], [24; 25])], []);
  ([140; 148; 174; 175; 176; 177; 178; 179], [(seq 16 4, seq 24 4)], []);
  ([202; 211; 214; 215], [([194; 195], [197; 198])], []);
  ([217; 225; 228; 229], [([20; 21], [28; 29])], []);
  ([230; 241; 244; 245], [([22; 23], [30; 31])], []);
  (seq 246 5, [([20; 21], [30; 31]); ([22; 23], [28; 29])], []);
  ([217; 225; 251; 252; 253; 254; 255; 256], [(seq 20 4, seq 28 4)], []);
  (seq 180 9, [(seq 16 4, seq 28 4); (seq 20 4, seq 24 4); (seq 20 4, seq 28 4)], [])]%nat.
Lemma mul503_check :
  symOkB 0 mulP503Arm [AP 1; AP 2; AP 3] 0 [full 16; full 8; full 8] (armGlob Q503)
    (lossChk [16; 8; 8]%nat 1 2 4 steps503 [140; 148; 174; 175; 176; 177; 178; 179]%nat (seq 180 9) (seq 189 4) (seq 258 9)) = true.
Proof. vm_cast_no_check (eq_refl true). Qed.
Definition stepsSqr503 : list item := [
  ([49; 58; 61; 62], [([41; 42], [44; 45])], []);
  ([64; 72; 75; 76], [([24; 25], [29; 30])], []);
  ([77; 88; 91; 92], [([26; 27], [31; 32])], []);
  (seq 93 5, [([24; 25], [31; 32]); ([26; 27], [29; 30])], []);
  ([64; 72; 98; 99; 100; 101; 102; 103], [(seq 24 4, seq 29 4)], []);
  ([117; 126; 129; 130], [([109; 110], [112; 113])], []);
  ([132; 139; 142; 143], [([16; 17], [16; 17])], []);
  ([144; 154; 157; 158], [([18; 19], [18; 19])], []);
  (seq 159 5, [([16; 17], [18; 19]); ([18; 19], [16; 17])], []);
  ([132; 139; 164; 165; 166; 167; 168; 169], [(seq 16 4, seq 16 4)], []);
  ([192; 201; 204; 205], [([184; 185], [187; 188])], []);
  ([207; 214; 217; 218], [([20; 21], [20; 21])], []);
  ([219; 229; 232; 233], [([22; 23], [22; 23])], []);
  (seq 234 5, [([20; 21], [22; 23]); ([22; 23], [20; 21])], []);
  ([207; 214; 239; 240; 241; 242; 243; 244], [(seq 20 4, seq 20 4)], []);
  (seq 170 9, [(seq 16 4, seq 20 4); (seq 20 4, seq 16 4); (seq 20 4, seq 20 4)], [])]%nat.
Lemma sqr503_check :
  symOkB 0 mulP503Arm [AP 1; AP 2; AP 2] 0 [full 16; full 8] (armGlob Q503)
    (lossChk [16; 8]%nat 1 1 4 stepsSqr503 [132; 139; 164; 165; 166; 167; 168; 169]%nat (seq 170 9) (seq 179 4) (seq 246 9)) = true.
Proof. vm_cast_no_check (eq_refl true). Qed.
(* mulP751 *)
Definition steps751 : list item := [
  ([83; 92; 104; 112; 115; 116], [(seq 71 3, seq 75 3)], []);
  ([117; 128; 140; 148; 151; 152], [(seq 48 3, seq 55 3)], []);
  (seq 153 7, [(seq 48 3, seq 58 3); (seq 51 3, seq 55 3); (seq 51 3, seq 58 3)], []);
  ([160; 161; 163; 165; 166; 167; 168], [(seq 48 3, seq 58 3); (seq 51 3, seq 55 3); (seq 51 3, seq 58 3)], [[148; 151; 152]]);
  ([162; 174; 186; 194; 197; 198], [(seq 51 3, seq 58 3)], []);
  (seq 199 7, [(seq 48 3, seq 58 3); (seq 51 3, seq 55 3)], [[148; 151; 152]]);
  ([117; 128; 140; 199; 200; 201; 206; 207; 208; 209; 210; 211], [(seq 48 6, seq 55 6)], []);
  ([231; 240; 252; 260; 263; 264], [(seq 219 3, seq 223 3)], []);
  ([265; 276; 288; 296; 299; 300], [(seq 24 3, seq 36 3)], []);
  (seq 301 7, [(seq 24 3, seq 39 3); (seq 27 3, seq 36 3); (seq 27 3, seq 39 3)], []);
  ([308; 309; 311; 313; 314; 315; 316], [(seq 24 3, seq 39 3); (seq 27 3, seq 36 3); (seq 27 3, seq 39 3)], [[296; 299; 300]]);
  ([310; 322; 334; 342; 345; 346], [(seq 27 3, seq 39 3)], []);
  (seq 347 7, [(seq 24 3, seq 39 3); (seq 27 3, seq 36 3)], [[296; 299; 300]]);
  ([265; 276; 288; 347; 348; 349; 354; 355; 356; 357; 358; 359], [(seq 24 6, seq 36 6)], []);
  (seq 360 13, [(seq 24 6, seq 42 6); (seq 30 6, seq 36 6); (seq 30 6, seq 42 6)], []);
  (seq 373 13, [(seq 24 6, seq 42 6); (seq 30 6, seq 36 6); (seq 30 6, seq 42 6)], [seq 354 6]);
  ([398; 407; 419; 427; 430; 431], [(seq 386 3, seq 390 3)], []);
  ([432; 443; 455; 463; 466; 467], [(seq 30 3, seq 42 3)], []);
  (seq 468 7, [(seq 30 3, seq 45 3); (seq 33 3, seq 42 3); (seq 33 3, seq 45 3)], []);
  ([475; 476; 478; 480; 481; 482; 483], [(seq 30 3, seq 45 3); (seq 33 3, seq 42 3); (seq 33 3, seq 45 3)], [[463; 466; 467]]);
  ([477; 489; 501; 509; 512; 513], [(seq 33 3, seq 45 3)], []);
  (seq 514 7, [(seq 30 3, seq 45 3); (seq 33 3, seq 42 3)], [[463; 466; 467]]);
  ([432; 443; 455; 514; 515; 516; 521; 522; 523; 524; 525; 526], [(seq 30 6, seq 42 6)], []);
  (seq 527 13, [(seq 24 6, seq 42 6); (seq 30 6, seq 36 6)], [seq 354 6])]%nat.
Lemma mul751_check :
  symOkB 0 mulP751Arm [AP 1; AP 2; AP 3] 0 [full 24; full 12; full 12] (armGlob Q751) (prodChk [24; 12; 12]%nat 1 2 12 steps751) = true.
Proof. vm_cast_no_check (eq_refl true). Qed.
Definition stepsSqr751 : list item := [
  ([71; 80; 92; 100; 103; 104], [(seq 59 3, seq 63 3)], []);
  ([105; 116; 128; 136; 139; 140], [(seq 36 3, seq 43 3)], []);
  (seq 141 7, [(seq 36 3, seq 46 3); (seq 39 3, seq 43 3); (seq 39 3, seq 46 3)], []);
  ([148; 149; 151; 153; 154; 155; 156], [(seq 36 3, seq 46 3); (seq 39 3, seq 43 3); (seq 39 3, seq 46 3)], [[136; 139; 140]]);
  ([150; 162; 174; 182; 185; 186], [(seq 39 3, seq 46 3)], []);
  (seq 187 7, [(seq 36 3, seq 46 3); (seq 39 3, seq 43 3)], [[136; 139; 140]]);
  ([105; 116; 128; 187; 188; 189; 194; 195; 196; 197; 198; 199], [(seq 36 6, seq 43 6)], []);
  ([219; 228; 240; 248; 251; 252], [(seq 207 3, seq 211 3)], []);
  ([253; 263; 274; 281; 284; 285], [(seq 24 3, seq 24 3)], []);
  (seq 286 7, [(seq 24 3, seq 27 3); (seq 27 3, seq 24 3); (seq 27 3, seq 27 3)], []);
  ([293; 294; 296; 298; 299; 300; 301], [(seq 24 3, seq 27 3); (seq 27 3, seq 24 3); (seq 27 3, seq 27 3)], [[281; 284; 285]]);
  ([295; 306; 317; 324; 327; 328], [(seq 27 3, seq 27 3)], []);
  (seq 329 7, [(seq 24 3, seq 27 3); (seq 27 3, seq 24 3)], [[281; 284; 285]]);
  ([253; 263; 274; 329; 330; 331; 336; 337; 338; 339; 340; 341], [(seq 24 6, seq 24 6)], []);
  (seq 342 13, [(seq 24 6, seq 30 6); (seq 30 6, seq 24 6); (seq 30 6, seq 30 6)], []);
  (seq 355 13, [(seq 24 6, seq 30 6); (seq 30 6, seq 24 6); (seq 30 6, seq 30 6)], [seq 336 6]);
  ([380; 389; 401; 409; 412; 413], [(seq 368 3, seq 372 3)], []);
  ([414; 424; 435; 442; 445; 446], [(seq 30 3, seq 30 3)], []);
  (seq 447 7, [(seq 30 3, seq 33 3); (seq 33 3, seq 30 3); (seq 33 3, seq 33 3)], []);
  ([454; 455; 457; 459; 460; 461; 462], [(seq 30 3, seq 33 3); (seq 33 3, seq 30 3); (seq 33 3, seq 33 3)], [[442; 445; 446]]);
  ([456; 467; 478; 485; 488; 489], [(seq 33 3, seq 33 3)], []);
  (seq 490 7, [(seq 30 3, seq 33 3); (seq 33 3, seq 30 3)], [[442; 445; 446]]);
  ([414; 424; 435; 490; 491; 492; 497; 498; 499; 500; 501; 502], [(seq 30 6, seq 30 6)], []);
  (seq 503 13, [(seq 24 6, seq 30 6); (seq 30 6, seq 24 6)], [seq 336 6])]%nat.
Lemma sqr751_check :
  symOkB 0 mulP751Arm [AP 1; AP 2; AP 2] 0 [full 24; full 12] (armGlob Q751) (prodChk [24; 12]%nat 1 1 12 stepsSqr751) = true.
Proof. vm_cast_no_check (eq_refl true). Qed.
