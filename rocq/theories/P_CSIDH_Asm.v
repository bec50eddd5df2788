From Coq Require Import ZArith List Bool Lia.
From Verif Require Import Lib MP CSIDH_Field CSIDH_FieldProofs X86 X86_Sym X86_Call X86_Lin CSIDH_Asm CSIDH_AsmProofs.
Import ListNotations.
Local Open Scope Z_scope.

(* C60: the amd64 kernels of CSIDH (dh/csidh/fp511_amd64.s) against the portable code of fp511_generic.go and fp511.go.
   [call n code args blocks globs bp] runs the instruction list [code] in a frame of n words: the registers hold nothing but BP = bp, the memory consists of the
   arrays [blocks] (pointer k+1 points to array k) and the globals.  The result lists the arrays afterwards and BP; None is a run that is stuck: an access outside
   every array, a register or flag read before it is set, a return through a changed stack pointer. *)
Theorem C60_mul512 : forall bmi2 a b c bp, fp_ok a -> fp_ok b -> is_w64 c -> is_w64 bp ->
  call 0 mul512Asm [Pt 1 0; Pt 2 0; @Wd zdom c] [a; b] (csGlob bmi2) bp = Some ([mul512 b c; b], bp) /\
  call 0 mul512Asm [Pt 1 0; Pt 1 0; @Wd zdom c] [b] (csGlob bmi2) bp = Some ([mul512 b c], bp).
Proof. exact mul512_asm. Qed.
Print Assumptions C60_mul512.

Theorem C60_mul576 : forall bmi2 a b c bp, words a -> length a = 9%nat -> fp_ok b -> is_w64 c -> is_w64 bp ->
  call 0 mul576Asm [Pt 1 0; Pt 2 0; @Wd zdom c] [a; b] (csGlob bmi2) bp = Some ([mul576 b c; b], bp).
Proof. exact mul576_asm. Qed.
Print Assumptions C60_mul576.

(* the choice byte is the low byte of its argument slot; the other seven bytes are arbitrary *)
Theorem C60_cswap512 : forall bmi2 x y w bp, fp_ok x -> fp_ok y -> w mod 256 = 0 \/ w mod 256 = 1 ->
  call 0 cswap512Asm [Pt 1 0; Pt 2 0; @Wd zdom w] [x; y] (csGlob bmi2) bp =
    Some ([fst (cswap512 x y (w mod 256)); snd (cswap512 x y (w mod 256))], bp) /\
  (w mod 256 = 0 -> call 0 cswap512Asm [Pt 1 0; Pt 2 0; @Wd zdom w] [x; y] (csGlob bmi2) bp = Some ([x; y], bp)) /\
  (w mod 256 = 1 -> call 0 cswap512Asm [Pt 1 0; Pt 2 0; @Wd zdom w] [x; y] (csGlob bmi2) bp = Some ([y; x], bp)).
Proof.
  intros f x y w bp Hx Hy Hc.
  assert (E := cswap512_asm f x y w bp Hx Hy ltac:(lia)). split; [exact E|].
  rewrite (cswap512_ok x y (w mod 256) (proj1 Hx) (proj1 Hy)) in E by (try rewrite (proj2 Hx), (proj2 Hy); lia).
  split; intro H; rewrite E, H; reflexivity.
Qed.
Print Assumptions C60_cswap512.

(* every way of passing the three pointers, equal or not: array a gets the product of arrays b and c *)
Theorem C60_mulBmiAsm : forall bmi2 a b c n, In (a, b, c, n) [(0, 1, 2, 3); (0, 0, 1, 2); (0, 1, 0, 2); (0, 1, 1, 2); (0, 0, 0, 1)]%nat -> forall blocks bp,
  Forall fp_ok blocks -> length blocks = n -> is_w64 bp -> val (nth c blocks []) <= P ->
  call 1 mulBmiAsm [Pt (S a) 0; Pt (S b) 0; Pt (S c) 0] blocks (csGlob bmi2) bp =
    Some (setl blocks a (mulGeneric (nth b blocks []) (nth c blocks [])), bp).
Proof. intros f a b c n H blocks bp Hb Hn Hbp Hc. exact (mulBmi_asm f a b c n H blocks bp _ _ Hb Hn Hbp eq_refl eq_refl Hc). Qed.
Print Assumptions C60_mulBmiAsm.

(* hence mulRdc of fp511_amd64.go is the same function whatever the two feature flags say *)
Theorem C60_mulRdc : forall adx bmi2 a b c n, In (a, b, c, n) [(0, 1, 2, 3); (0, 0, 1, 2); (0, 1, 0, 2); (0, 1, 1, 2); (0, 0, 0, 1)]%nat -> forall blocks bp,
  Forall fp_ok blocks -> length blocks = n -> is_w64 bp -> val (nth c blocks []) <= P ->
  mulRdcAmd64 adx bmi2 a b c blocks bp = Some (setl blocks a (mulRdc (nth b blocks []) (nth c blocks []))).
Proof. exact mulRdc_amd64. Qed.
Print Assumptions C60_mulRdc.

Lemma ex_fp v : fp_ok (limbs 8 v).
Proof. split; [apply limbs_words|apply limbs_length]. Qed.
Lemma ex_le : val (limbs 8 (P - 3)) <= P. Proof. vm_compute. discriminate. Qed.
Example ex_C60_mul512 : call 0 mul512Asm [Pt 1 0; Pt 2 0; @Wd zdom (2 ^ 64 - 1)] [limbs 8 5; limbs 8 (2 ^ 512 - 1)] (csGlob true) 77 =
  Some ([limbs 8 (2 ^ 512 - 2 ^ 64 + 1); limbs 8 (2 ^ 512 - 1)], 77).
Proof. rewrite (proj1 (C60_mul512 true (limbs 8 5) (limbs 8 (2 ^ 512 - 1)) (2 ^ 64 - 1) 77 (ex_fp _) (ex_fp _) ltac:(unfold is_w64; lia) ltac:(unfold is_w64; lia))). reflexivity. Qed.
Example ex_C60_mul : call 1 mulBmiAsm [Pt 1 0; Pt 2 0; Pt 3 0] [limbs 8 9; limbs 8 (2 ^ 512 - 1); limbs 8 (P - 3)] (csGlob false) 5 =
  Some ([mulGeneric (limbs 8 (2 ^ 512 - 1)) (limbs 8 (P - 3)); limbs 8 (2 ^ 512 - 1); limbs 8 (P - 3)], 5).
Proof.
  refine (C60_mulBmiAsm false 0 1 2 3 ltac:(left; reflexivity) [limbs 8 9; limbs 8 (2 ^ 512 - 1); limbs 8 (P - 3)] 5 _ eq_refl ltac:(unfold is_w64; lia) ex_le).
  repeat (constructor; [apply ex_fp|]). constructor.
Qed.
