(* The symbolic runs of the amd64 kernels of dh/sidh. *)
From Coq Require Import ZArith List Bool.
From Verif Require Import Lib MP SIDH_Consts X86 X86_Sym X86_Call X86_Lin X86_Mul SIDH_AsmModel SIDH_AsmChk.
Import ListNotations.
Open Scope Z_scope.

(* every way for three pointers to be equal or not: z, x, y and the number of arrays *)
Definition aliasings : list (nat * nat * nat * nat) := [(0, 1, 2, 3); (0, 0, 1, 2); (0, 1, 0, 2); (0, 1, 1, 2); (0, 0, 0, 1)]%nat.
Ltac pick H := unfold aliasings in H; cbn [In] in H; repeat (destruct H as [H|H]; [injection H as <- <- <- <-|]); try destruct H.
Ltac flags f g := destruct f; [destruct g|].

Lemma add_check P a b c m : In (a, b, c, m) aliasings ->
  symOk 0 (addAsm P) [AP (S a); AP (S b); AP (S c)] 0 (repeat (nOf P) m) (sidhGlob P false false)
    (addChk (repeat (nOf P) m) a b c (nOf P) (val (fPx2 (fieldOf P))) (val (fPx2 (fieldOf P)))) = true.
Proof. intro H. pick H; destruct P; vm_cast_no_check (eq_refl true). Qed.
Lemma sub_check P a b c m : In (a, b, c, m) aliasings ->
  symOk 0 (subAsm P) [AP (S a); AP (S b); AP (S c)] 0 (repeat (nOf P) m) (sidhGlob P false false)
    (subChk (repeat (nOf P) m) a (nOf P) (pvOf 0 (repeat (nOf P) m) b) (pvOf 0 (repeat (nOf P) m) c) (val (fPx2 (fieldOf P)))) = true.
Proof. intro H. pick H; destruct P; vm_cast_no_check (eq_refl true). Qed.
Lemma sul_check P a b c m : In (a, b, c, m) aliasings ->
  symOk 0 (sulAsm P) [AP (S a); AP (S b); AP (S c)] 0 (repeat (2 * nOf P) m)%nat (sidhGlob P false false)
    (subChk (repeat (2 * nOf P) m)%nat a (2 * nOf P)%nat (pvOf 0 (repeat (2 * nOf P) m)%nat b) (pvOf 0 (repeat (2 * nOf P) m)%nat c)
      (val (fP (fieldOf P)) * B ^ Z.of_nat (nOf P))) = true.
Proof. intro H. pick H; destruct P; vm_cast_no_check (eq_refl true). Qed.
Lemma adl_check P a b c m : In (a, b, c, m) aliasings ->
  symOk 0 (adlAsm P) [AP (S a); AP (S b); AP (S c)] 0 (repeat (2 * nOf P) m)%nat (sidhGlob P false false) (sumChk (repeat (2 * nOf P) m)%nat a b c (2 * nOf P)%nat) = true.
Proof. intro H. pick H; destruct P; vm_cast_no_check (eq_refl true). Qed.
Lemma mod_check P :
  symOk 0 (modAsm P) [AP 1] 0 [nOf P] (sidhGlob P false false) (subChk [nOf P] 0 (nOf P) (pvOf 0 [nOf P] 0) (cstP (val (fP (fieldOf P)))) (val (fP (fieldOf P)))) = true.
Proof. destruct P; vm_cast_no_check (eq_refl true). Qed.

(* the words of q among the words of z, those of x, and the words computed *)
Definition rdcIdx (P : pkg) (f g : bool) : list nat :=
  match P, f && g, f with
  | P434, false, _ => [0; 1; 2; 41; 42; 79; 80]
  | P434, true, _ => [0; 1; 2; 35; 36; 67; 68]
  | P503, false, false => [0; 1; 2; 17; 26; 41; 60; 83]
  | P503, _, _ => [0; 1; 2; 42; 43; 81; 82; 118]
  | P751, false, false => [0; 1; 2; 3; 4; 25; 34; 49; 68; 91; 118; 149]
  | P751, _, _ => [0; 1; 2; 3; 4; 104; 105; 106; 107; 203; 204; 205]
  end%nat.
(* does rdc return with the caller's BP *)
Definition rdcKeeps (P : pkg) (f : bool) : bool := match P, f with P751, true => false | _, _ => true end.
Definition full (n : nat) : list Z := repeat (B - 1) n.
Lemma rdc_check P f g :
  symOkB 0 (rdcAsm P) [AP 1; AP 2] 0 [full (nOf P); full (2 * nOf P)] (sidhGlob P f g)
    (rdcChk (val (fPp1 (fieldOf P))) [nOf P; 2 * nOf P]%nat 0 1 (nOf P) (rdcKeeps P f) (map (Nat.add (nOf P)) (rdcIdx P f g))) = true.
Proof. destruct P; flags f g; vm_cast_no_check (eq_refl true). Qed.

(* low words of the Karatsuba split *)
Definition mulLow (P : pkg) : nat := match P with P751 => 6 | _ => 4 end.
(* the certificates, numbering the words of z, x, y and then the words computed *)
Definition rowsOf (a b : list nat) (ws : list (list nat)) : list (list nat * list nat * list nat) := combine (combine ws (map (fun k => firstn (S k) a) (seq 0 (length ws)))) (repeat b (length ws)).
Definition mulCertOf (P : pkg) (f g : bool) : mulCert :=
  match P, f && g, f with
  | P434, false, _ => ([], map (Nat.add 28) [77; 82; 94; 110; 122; 130; 134; 135], map (Nat.add 28) [136; 141; 153; 161; 165; 167], seq 204 8)
  | P434, true, _ =>
      (rowsOf (seq 28 4) (seq 33 4) [[42; 44; 46; 48; 50]; [42; 52; 56; 60; 62; 63]; [42; 52; 65; 69; 73; 74; 75]; [42; 52; 65; 79; 82; 86; 87; 88]] ++
       rowsOf (seq 14 4) (seq 21 4) [[89; 91; 93; 95; 97]; [89; 99; 103; 107; 109; 110]; [89; 99; 112; 116; 120; 121; 122]; [89; 99; 112; 126; 129; 133; 134; 135]] ++
       rowsOf (seq 18 3) (seq 25 3) [[136; 138; 140; 142]; [136; 144; 147; 150; 152]; [136; 144; 154; 159; 160; 161]],
       [89; 99; 112; 126; 129; 133; 134; 135], [136; 144; 154; 159; 160; 161], seq 174 8)
  | P503, false, false => ([], [109; 114; 126; 142; 154; 162; 166; 167], [168; 173; 185; 201; 213; 221; 225; 226], seq 235 8)
  | P503, false, true =>
      (rowsOf (seq 32 4) (seq 37 4) [[46; 48; 50; 52; 53]; [46; 62; 63; 64; 65; 66]; [46; 62; 75; 76; 77; 78; 79]; [46; 62; 75; 88; 89; 90; 91; 92]] ++
       rowsOf (seq 16 4) (seq 24 4) [[93; 95; 97; 99; 100]; [93; 109; 110; 111; 112; 113]; [93; 109; 122; 123; 124; 125; 126]; [93; 109; 122; 135; 136; 137; 138; 139]] ++
       rowsOf (seq 20 4) (seq 28 4) [[140; 142; 144; 146; 147]; [140; 156; 157; 158; 159; 160]; [140; 156; 169; 170; 171; 172; 173]; [140; 156; 169; 182; 183; 184; 185; 186]],
       [93; 109; 122; 135; 136; 137; 138; 139], [140; 156; 169; 182; 183; 184; 185; 186], seq 199 8)
  | P503, true, _ =>
      (rowsOf (seq 32 4) (seq 37 4) [[46; 48; 50; 52; 54]; [46; 56; 60; 64; 66; 67]; [46; 56; 69; 73; 77; 78; 79]; [46; 56; 69; 83; 86; 90; 91; 92]] ++
       rowsOf (seq 16 4) (seq 24 4) [[93; 95; 97; 99; 101]; [93; 103; 107; 111; 113; 114]; [93; 103; 116; 120; 124; 125; 126]; [93; 103; 116; 130; 133; 137; 138; 139]] ++
       rowsOf (seq 20 4) (seq 28 4) [[140; 142; 144; 146; 148]; [140; 150; 154; 158; 160; 161]; [140; 150; 163; 167; 171; 172; 173]; [140; 150; 163; 177; 180; 184; 185; 186]],
       [93; 103; 116; 130; 133; 137; 138; 139], [140; 150; 163; 177; 180; 184; 185; 186], seq 199 8)
  | P751, _, _ => ([], [213; 218; 230; 246; 266; 290; 310; 326; 338; 346; 350; 351], [352; 357; 369; 385; 405; 429; 449; 465; 477; 484; 487; 488], seq 501 12)
  end%nat.
(* y is x: the words of y are not there *)
Definition shiftIdx (n i : nat) : nat := if (3 * n <=? i)%nat then (i - n)%nat else i.
Definition shiftCert (n : nat) (c : mulCert) : mulCert :=
  let '(st, il, ih, im) := c in let s := map (shiftIdx n) in
  (map (fun t => let '(w, a, b) := t in (s w, s a, s b)) st, s il, s ih, s im).
(* the largest top word of x and y that is allowed *)
Definition mulTop (P : pkg) : Z := match P with P751 => 2 ^ 48 - 1 | _ => B - 1 end.
Definition mulIn (P : pkg) : list Z := full (nOf P - 1) ++ [mulTop P].
(* BP afterwards: word 0 is BP on entry, word 1 the address passed as last argument *)
Definition mulBP (P : pkg) (f g : bool) : poly := match P, f && g with P434, true => wordA (tn 1) | _, _ => wordA (tn 0) end.
(* mulP751 has one path *)
Definition mulF (P : pkg) (f : bool) : bool := match P with P751 => false | _ => f end.
Lemma mul_check P f g :
  symOkB (S (mulFrame P)) (mulAsm P) [AP 1; AP 2; AP 3; AW 0] 1 [full (2 * nOf P); mulIn P; mulIn P] (sidhGlob P (mulF P f) g)
    (mulChk [2 * nOf P; nOf P; nOf P]%nat 1 2 (nOf P) (mulLow P) (mulBP P f g) (mulCertOf P f g)) = true.
Proof. destruct P; [flags f g| flags f g|]; vm_cast_no_check (eq_refl true). Qed.
Lemma sqr_check P f g :
  symOkB (S (mulFrame P)) (mulAsm P) [AP 1; AP 2; AP 2; AW 0] 1 [full (2 * nOf P); mulIn P] (sidhGlob P (mulF P f) g)
    (mulChk [2 * nOf P; nOf P]%nat 1 1 (nOf P) (mulLow P) (mulBP P f g) (shiftCert (nOf P) (mulCertOf P f g))) = true.
Proof. destruct P; [flags f g| flags f g|]; vm_cast_no_check (eq_refl true). Qed.
