From Coq Require Import ZArith List Bool Lia.
From Verif Require Import Lib MP SIDH_Consts SIDH_Field SIDH_FieldProofs X86 SIDH_AsmModel SIDH_AsmRuns SIDH_AsmProofs SIDH_Inst.
Import ListNotations.
Local Open Scope Z_scope.

(* The amd64 kernels of dh/sidh/internal/{p434,p503,p751}/arith_amd64.s against the portable code of arith_generic.go.
   [call] runs instructions on the given arrays only (X86.v); None is a run that is stuck.  f = cpu.X86.HasBMI2 and
   g = cpu.X86.HasADX are arbitrary.  The five ways in which three pointers can coincide: *)
Notation allAliasings := [(0, 1, 2, 3); (0, 0, 1, 2); (0, 1, 0, 2); (0, 1, 1, 2); (0, 0, 0, 1)]%nat.

(* C69: the straight-line kernels, on all words (not only reduced field elements) *)
Theorem C69_add : forall P f g bp a b c m blocks, is_w64 bp -> In (a, b, c, m) allAliasings -> length blocks = m -> Forall (isW (nOf P)) blocks ->
  ptrCall addAsm P f g [a; b; c] blocks bp = Some (setl blocks a (addP (fieldOf P) (nth b blocks []) (nth c blocks [])), bp).
Proof. intros P f g bp a b c m blocks Hbp. exact (add_asm P f g bp Hbp a b c m blocks). Qed.
Print Assumptions C69_add.
Theorem C69_sub : forall P f g bp a b c m blocks, is_w64 bp -> In (a, b, c, m) allAliasings -> length blocks = m -> Forall (isW (nOf P)) blocks ->
  ptrCall subAsm P f g [a; b; c] blocks bp = Some (setl blocks a (subP (fieldOf P) (nth b blocks []) (nth c blocks [])), bp).
Proof. intros P f g bp a b c m blocks Hbp. exact (sub_asm P f g bp Hbp a b c m blocks). Qed.
Print Assumptions C69_sub.
Theorem C69_adl : forall P f g bp a b c m blocks, is_w64 bp -> In (a, b, c, m) allAliasings -> length blocks = m -> Forall (isW (2 * nOf P)) blocks ->
  ptrCall adlAsm P f g [a; b; c] blocks bp = Some (setl blocks a (adlP (nth b blocks []) (nth c blocks [])), bp).
Proof. intros P f g bp a b c m blocks Hbp. exact (adl_asm P f g bp Hbp a b c m blocks). Qed.
Print Assumptions C69_adl.
Theorem C69_sul : forall P f g bp a b c m blocks, is_w64 bp -> In (a, b, c, m) allAliasings -> length blocks = m -> Forall (isW (2 * nOf P)) blocks ->
  ptrCall sulAsm P f g [a; b; c] blocks bp = Some (setl blocks a (sulP (fieldOf P) (nth b blocks []) (nth c blocks [])), bp).
Proof. intros P f g bp a b c m blocks Hbp. exact (sul_asm P f g bp Hbp a b c m blocks). Qed.
Print Assumptions C69_sul.
Theorem C69_mod : forall P f g bp x, is_w64 bp -> isW (nOf P) x -> ptrCall modAsm P f g [0%nat] [x] bp = Some ([modP (fieldOf P) x], bp).
Proof. intros P f g bp x Hbp. exact (mod_asm P f g bp Hbp x). Qed.
Print Assumptions C69_mod.
(* any choice byte, whatever the other seven bytes of its slot hold *)
Theorem C69_cswap : forall P f g bp x y w, length x = nOf P -> length y = nOf P ->
  cswapCall P f g 0 1 w [x; y] bp = Some ([fst (cswapP x y (w mod 256)); snd (cswapP x y (w mod 256))], bp) /\
  cswapCall P f g 0 0 w [x] bp = Some ([x], bp).
Proof. intros P f g bp x y w. exact (cswap_asm P f g x y w bp). Qed.
Print Assumptions C69_cswap.

(* C70: the multiplication, and the squaring (equal pointers).  x and y keep their values. *)
Theorem C70_mul : forall P f g bp fp z x y, is_w64 bp -> is_w64 fp -> isW (2 * nOf P) z -> isW (nOf P) x -> isW (nOf P) y ->
  match P with P434 => True | P503 => val x < 2 ^ 511 /\ val y < 2 ^ 511 | P751 => val x < 2 ^ 752 /\ val y < 2 ^ 752 end -> exists bp',
  mulCall P f g 0 1 2 fp [z; x; y] bp = Some ([mulPx (fieldOf P) x y; x; y], bp') /\
  mulCall P f g 0 1 1 fp [z; x] bp = Some ([mulPx (fieldOf P) x x; x], bp').
Proof.
  intros P f g bp fp z x y Hbp Hfp Hz Hx Hy H. exists (bpAfterMul P f g bp fp).
  apply mul_asm; try assumption; (split; [assumption|]); destruct P; tauto.
Qed.
Print Assumptions C70_mul.
(* in particular on everything the field code works with: values below 2p; the result is the product *)
Theorem C70_mul_field : forall P f g bp fp z x y, is_w64 bp -> is_w64 fp -> isW (2 * nOf P) z -> isW (nOf P) x -> isW (nOf P) y ->
  val x < 2 * primeOf P -> val y < 2 * primeOf P -> exists r bp', mulCall P f g 0 1 2 fp [z; x; y] bp = Some ([r; x; y], bp') /\ isW (2 * nOf P) r /\ val r = val x * val y.
Proof.
  intros P f g bp fp z x y Hbp Hfp Hz Hx Hy Vx Vy.
  destruct (mulPx_spec (fieldOf P) x y) as (W & L & V); try apply Hx; try apply Hy; try apply (okOf P).
  exists (mulPx (fieldOf P) x y), (bpAfterMul P f g bp fp). split; [|split; [split|]; assumption].
  apply mul_asm; try assumption; apply fpok_mulOk; split; try apply Hx; try apply Hy; split; try assumption; try apply Hx; try apply Hy.
Qed.
Print Assumptions C70_mul_field.
(* beyond those bounds the assembly and the portable code are different functions *)
Definition ones (k : nat) : list Z := repeat (2 ^ 64 - 1) k.
Lemma ones_isW k : isW k (ones k).
Proof. split; [|apply repeat_length]. unfold ones, words. apply Forall_forall. intros a Ha. apply repeat_spec in Ha. subst a. unfold is_w64. lia. Qed.
Definition firstOf (r : option (list (list Z) * Z)) : list Z := match r with Some (a :: _, _) => a | _ => [] end.
Lemma first_ne r a l bp : (if list_eq_dec Z.eq_dec (firstOf r) a then false else true) = true -> r <> Some (a :: l, bp).
Proof. intros H ->. cbn [firstOf] in H. destruct (list_eq_dec Z.eq_dec a a) as [_|N]; [discriminate|contradiction]. Qed.
Lemma glob0 P g : sidhGlob P false g = sidhGlob P false false. Proof. reflexivity. Qed.
Theorem C70_mul503_all_words_refuted : exists z x y, isW 16 z /\ isW 8 x /\ isW 8 y /\
  forall f g bp', mulCall P503 f g 0 1 2 0 [z; x; y] 0 <> Some ([mulPx f503 x y; x; y], bp').
Proof.
  exists (ones 16), (ones 8), (ones 8). split; [apply ones_isW|]. split; [apply ones_isW|]. split; [apply ones_isW|]. intros f g bp'. apply first_ne.
  destruct f; [destruct g|unfold mulCall; rewrite (glob0 P503 g)]; vm_cast_no_check (eq_refl true).
Qed.
Print Assumptions C70_mul503_all_words_refuted.
Theorem C70_mul751_all_words_refuted : exists z x y, isW 24 z /\ isW 12 x /\ isW 12 y /\
  forall f g bp', mulCall P751 f g 0 1 2 0 [z; x; y] 0 <> Some ([mulPx f751 x y; x; y], bp').
Proof.
  exists (ones 24), (ones 12), (ones 12). split; [apply ones_isW|]. split; [apply ones_isW|]. split; [apply ones_isW|]. intros f g bp'. apply first_ne.
  unfold mulCall. rewrite mul_glob. cbn [mulF]. rewrite (glob0 P751 g).
  vm_cast_no_check (eq_refl true).
Qed.
Print Assumptions C70_mul751_all_words_refuted.

(* C71: the Montgomery reduction.  The old content of z plays no role.  x may be overwritten, but only with words. *)
Theorem C71_rdc : forall P f g bp z x, is_w64 bp -> isW (nOf P) z -> isW (2 * nOf P) x -> val x < primeOf P * 2 ^ (64 * Z.of_nat (nOf P)) ->
  exists x' bp', rdcCall P f g 0 1 [z; x] bp = Some ([rdc (fieldOf P) x; x'], bp') /\ isW (2 * nOf P) x' /\ is_w64 bp'.
Proof.
  intros P f g bp z x Hbp Hz Hx V. rewrite Z.pow_mul_r in V by lia.
  destruct (rdc_asm P f g bp Hbp z x Hz Hx V) as (x' & bp' & E & H1 & H2 & _). exists x', bp'. split; [|split; assumption].
  rewrite E. f_equal. f_equal. f_equal. apply (rdcP_dead (fieldOf P) (primeOf P) (okOf P)); try apply Hz; try apply Hx; exact V.
Qed.
Print Assumptions C71_rdc.
Definition secondOf (r : option (list (list Z) * Z)) : list Z := match r with Some (_ :: a :: _, _) => a | _ => [] end.
Theorem C71_rdc_keeps_x_refuted : forall P, exists f g z x, isW (nOf P) z /\ isW (2 * nOf P) x /\ val x < primeOf P * 2 ^ (64 * Z.of_nat (nOf P)) /\
  forall r bp', rdcCall P f g 0 1 [z; x] 0 <> Some ([r; x], bp').
Proof.
  intro P. exists true, true, (ones (nOf P)), (ones (2 * nOf P - 2) ++ [1; 0]).
  split; [apply ones_isW|]. split.
  { split; [apply Forall_app; split; [apply ones_isW|repeat constructor; unfold is_w64; lia]|]. unfold ones. rewrite app_length, repeat_length. destruct P; reflexivity. }
  split; [destruct P; vm_compute; reflexivity|].
  intros r bp' E. assert (H : secondOf (rdcCall P true true 0 1 [ones (nOf P); ones (2 * nOf P - 2) ++ [1; 0]] 0) = ones (2 * nOf P - 2) ++ [1; 0]) by (rewrite E; reflexivity).
  clear E. destruct P; vm_compute in H; discriminate H.
Qed.
Print Assumptions C71_rdc_keeps_x_refuted.

(* C72: the frame pointer.  The Go ABI makes BP callee-saved.  It is kept, except by mulP434 with BMI2 and ADX (which gives back the address fp of a
   word of its own frame) and by rdcP751 with BMI2. *)
Theorem C72_mul_bp : forall P f g bp fp z x y, is_w64 bp -> is_w64 fp -> isW (2 * nOf P) z -> isW (nOf P) x -> isW (nOf P) y ->
  val x < 2 * primeOf P -> val y < 2 * primeOf P ->
  option_map snd (mulCall P f g 0 1 2 fp [z; x; y] bp) = Some (match P with P434 => if f && g then fp else bp | _ => bp end).
Proof.
  intros P f g bp fp z x y Hbp Hfp Hz Hx Hy Vx Vy.
  rewrite (proj1 (mul_asm P f g bp Hbp fp z x y Hfp Hz ltac:(apply fpok_mulOk; split; [apply Hx|split; [apply Hx|exact Vx]])
    ltac:(apply fpok_mulOk; split; [apply Hy|split; [apply Hy|exact Vy]]))).
  cbn [option_map snd]. unfold bpAfterMul. destruct P, (f && g); reflexivity.
Qed.
Print Assumptions C72_mul_bp.
Theorem C72_rdc_bp : forall P f g bp z x, is_w64 bp -> isW (nOf P) z -> isW (2 * nOf P) x -> val x < primeOf P * 2 ^ (64 * Z.of_nat (nOf P)) ->
  (P = P751 -> f = false) -> option_map snd (rdcCall P f g 0 1 [z; x] bp) = Some bp.
Proof.
  intros P f g bp z x Hbp Hz Hx V H. rewrite Z.pow_mul_r in V by lia.
  destruct (rdc_asm P f g bp Hbp z x Hz Hx V) as (x' & bp' & E & _ & _ & Hk). rewrite E. cbn [option_map snd]. rewrite Hk; [reflexivity|].
  destruct P; [reflexivity|reflexivity|]. rewrite H; reflexivity.
Qed.
Print Assumptions C72_rdc_bp.
Theorem C72_mul434_keeps_bp_refuted : exists f g bp fp z x y, is_w64 bp /\ is_w64 fp /\ isW 14 z /\ isW 7 x /\ isW 7 y /\ val x < p434 /\ val y < p434 /\
  option_map snd (mulCall P434 f g 0 1 2 fp [z; x; y] bp) <> Some bp.
Proof.
  assert (W : forall k v, isW k (limbs k v)) by (intros; split; [apply limbs_words|apply limbs_length]).
  exists true, true, 7, 4096, (limbs 14 0), (limbs 7 3), (limbs 7 5).
  split; [unfold is_w64; lia|]. split; [unfold is_w64; lia|]. split; [apply W|]. split; [apply W|]. split; [apply W|].
  split; [vm_compute; reflexivity|]. split; [vm_compute; reflexivity|].
  rewrite (C72_mul_bp P434 true true 7 4096 (limbs 14 0) (limbs 7 3) (limbs 7 5)); try apply W; try (unfold is_w64; lia); try (vm_compute; reflexivity).
  cbn. discriminate.
Qed.
Print Assumptions C72_mul434_keeps_bp_refuted.
Lemma snd_ne (r : option (list (list Z) * Z)) bp : (match r with Some (_, b) => negb (b =? bp) | None => true end) = true -> option_map snd r <> Some bp.
Proof. destruct r as [[l b]|]; cbn; [|discriminate]. intros H E. inversion E; subst. rewrite Z.eqb_refl in H. discriminate. Qed.
Theorem C72_rdc751_keeps_bp_refuted : exists bp z x, is_w64 bp /\ isW 12 z /\ isW 24 x /\ val x < p751 * 2 ^ (64 * 12) /\
  forall g, option_map snd (rdcCall P751 true g 0 1 [z; x] bp) <> Some bp.
Proof.
  assert (W : forall k v, isW k (limbs k v)) by (intros; split; [apply limbs_words|apply limbs_length]).
  exists 7, (limbs 12 0), (limbs 24 5). split; [unfold is_w64; lia|]. split; [apply W|]. split; [apply W|]. split; [vm_compute; reflexivity|].
  intro g. apply snd_ne. destruct g; vm_cast_no_check (eq_refl true).
Qed.
Print Assumptions C72_rdc751_keeps_bp_refuted.

Lemma ex_W k v : isW k (limbs k v). Proof. split; [apply limbs_words|apply limbs_length]. Qed.
Lemma ex_w7 : is_w64 7. Proof. unfold is_w64; lia. Qed.
(* p + p - 1 with both operands and the destination in one array pair *)
Example ex_C69_add : ptrCall addAsm P434 true false [0; 0; 1]%nat [limbs 7 p434; limbs 7 (p434 + 1)] 7 = Some ([limbs 7 1; limbs 7 (p434 + 1)], 7).
Proof.
  rewrite (C69_add P434 true false 7 0 0 1 2 _ ex_w7); [vm_compute; reflexivity|right; left; reflexivity|reflexivity|repeat (constructor; [apply ex_W|]); constructor].
Qed.
Example ex_C69_sub : ptrCall subAsm P503 true true [0; 1; 2]%nat [limbs 8 9; limbs 8 1; limbs 8 3] 7 = Some ([limbs 8 (2 * p503 - 2); limbs 8 1; limbs 8 3], 7).
Proof.
  rewrite (C69_sub P503 true true 7 0 1 2 3 _ ex_w7); [vm_compute; reflexivity|left; reflexivity|reflexivity|repeat (constructor; [apply ex_W|]); constructor].
Qed.
Example ex_C69_adl : ptrCall adlAsm P751 false false [0; 0; 1]%nat [limbs 24 (2 ^ 800); limbs 24 (2 ^ 800 + 5)] 7 = Some ([limbs 24 (2 ^ 801 + 5); limbs 24 (2 ^ 800 + 5)], 7).
Proof.
  rewrite (C69_adl P751 false false 7 0 0 1 2 _ ex_w7); [vm_compute; reflexivity|right; left; reflexivity|reflexivity|repeat (constructor; [apply ex_W|]); constructor].
Qed.
Example ex_C69_sul : ptrCall sulAsm P434 false false [0; 1; 2]%nat [limbs 14 0; limbs 14 4; limbs 14 5] 7 = Some ([limbs 14 (p434 * 2 ^ 448 - 1); limbs 14 4; limbs 14 5], 7).
Proof.
  rewrite (C69_sul P434 false false 7 0 1 2 3 _ ex_w7); [vm_compute; reflexivity|left; reflexivity|reflexivity|repeat (constructor; [apply ex_W|]); constructor].
Qed.
Example ex_C69_mod : ptrCall modAsm P751 false true [0%nat] [limbs 12 (p751 + 17)] 7 = Some ([limbs 12 17], 7).
Proof. rewrite (C69_mod P751 false true 7 _ ex_w7 (ex_W _ _)). vm_compute. reflexivity. Qed.
Example ex_C69_cswap : cswapCall P503 false false 0 1 (256 * 77 + 1) [limbs 8 11; limbs 8 12] 7 = Some ([limbs 8 12; limbs 8 11], 7).
Proof. rewrite (proj1 (C69_cswap P503 false false 7 (limbs 8 11) (limbs 8 12) (256 * 77 + 1) (proj2 (ex_W _ _)) (proj2 (ex_W _ _)))). vm_compute. reflexivity. Qed.
Example ex_C70_mul : exists bp', mulCall P751 true true 0 1 2 99 [limbs 24 1; limbs 12 (2 ^ 751); limbs 12 (2 ^ 751 + 3)] 7 =
  Some ([limbs 24 (2 ^ 751 * (2 ^ 751 + 3)); limbs 12 (2 ^ 751); limbs 12 (2 ^ 751 + 3)], bp').
Proof.
  destruct (C70_mul P751 true true 7 99 (limbs 24 1) (limbs 12 (2 ^ 751)) (limbs 12 (2 ^ 751 + 3)) ex_w7 ltac:(unfold is_w64; lia) (ex_W _ _) (ex_W _ _) (ex_W _ _)
    ltac:(split; vm_compute; reflexivity)) as (bp' & E & _).
  exists bp'. rewrite E. apply (f_equal (fun r => Some (r :: _, _))). vm_compute. reflexivity.
Qed.
Example ex_C71_rdc : exists x' bp', rdcCall P434 true true 0 1 [limbs 7 1; limbs 14 (12345 * 2 ^ 448)] 7 = Some ([limbs 7 12345; x'], bp').
Proof.
  destruct (C71_rdc P434 true true 7 (limbs 7 1) (limbs 14 (12345 * 2 ^ 448)) ex_w7 (ex_W _ _) (ex_W _ _) ltac:(vm_compute; reflexivity)) as (x' & bp' & E & _).
  exists x', bp'. rewrite E. apply (f_equal (fun r => Some (r :: _, _))). vm_compute. reflexivity.
Qed.
