From Coq Require Import ZArith Znumtheory List Bool Lia.
From Verif Require Import Lib MP SIDH_Consts SIDH_Field SIDH_FieldProofs X86 SIDH_AsmModel SIDH_AsmRuns SIDH_AsmProofs SIDH_ArmModel SIDH_ArmChk SIDH_ArmProofs SIDH_Inst.
From Verif Require P_SIDH_Field.
Import ListNotations.
Local Open Scope Z_scope.

(* The arm64 kernels of dh/sidh/internal/{p503,p751}/arith_arm64.s against the portable code of arith_generic.go.
   [call] runs instructions on the given arrays only (X86.v); None is a run that is stuck.  The five ways in which three
   pointers can coincide: *)
Notation allAliasings := [(0, 1, 2, 3); (0, 0, 1, 2); (0, 1, 0, 2); (0, 1, 1, 2); (0, 0, 0, 1)]%nat.

(* C76: the straight-line kernels, on all words *)
Theorem C76_add : forall Q a b c m blocks, In (a, b, c, m) allAliasings -> length blocks = m -> Forall (isW (nOf (pk Q))) blocks ->
  armCall addArm Q [a; b; c] blocks = Some (setl blocks a (addP (fieldOf (pk Q)) (nth b blocks []) (nth c blocks []))).
Proof. exact add_arm. Qed.
Print Assumptions C76_add.
Theorem C76_sub : forall Q a b c m blocks, In (a, b, c, m) allAliasings -> length blocks = m -> Forall (isW (nOf (pk Q))) blocks ->
  armCall subArm Q [a; b; c] blocks = Some (setl blocks a (subP (fieldOf (pk Q)) (nth b blocks []) (nth c blocks []))).
Proof. exact sub_arm. Qed.
Print Assumptions C76_sub.
Theorem C76_adl : forall Q a b c m blocks, In (a, b, c, m) allAliasings -> length blocks = m -> Forall (isW (2 * nOf (pk Q))) blocks ->
  armCall adlArm Q [a; b; c] blocks = Some (setl blocks a (adlP (nth b blocks []) (nth c blocks []))).
Proof. exact adl_arm. Qed.
Print Assumptions C76_adl.
Theorem C76_sul : forall Q a b c m blocks, In (a, b, c, m) allAliasings -> length blocks = m -> Forall (isW (2 * nOf (pk Q))) blocks ->
  armCall sulArm Q [a; b; c] blocks = Some (setl blocks a (sulP (fieldOf (pk Q)) (nth b blocks []) (nth c blocks []))).
Proof. exact sul_arm. Qed.
Print Assumptions C76_sul.
Theorem C76_mod : forall Q x, isW (nOf (pk Q)) x -> armCall modArm Q [0%nat] [x] = Some [modP (fieldOf (pk Q)) x].
Proof. exact mod_arm. Qed.
Print Assumptions C76_mod.
(* the Montgomery reduction: the old content of z plays no role, and x keeps its value *)
Theorem C76_rdc : forall Q z x, isW (nOf (pk Q)) z -> isW (2 * nOf (pk Q)) x -> val x < primeOf (pk Q) * 2 ^ (64 * Z.of_nat (nOf (pk Q))) ->
  armCall rdcArm Q [0; 1]%nat [z; x] = Some [rdc (fieldOf (pk Q)) x; x].
Proof.
  intros Q z x Hz Hx V. rewrite Z.pow_mul_r in V by lia. rewrite (rdc_arm Q z x Hz Hx V). apply (f_equal (fun t => Some [t; x])).
  apply (rdcP_dead (fieldOf (pk Q)) (primeOf (pk Q)) (okOf (pk Q))); try apply Hz; try apply Hx; exact V.
Qed.
Print Assumptions C76_rdc.
(* the conditional swap: w is the word in the slot of the choice byte.  A choice byte 0 changes nothing, any other swaps
   completely - unlike the portable code, which mixes the two for a byte above 1 *)
Theorem C76_cswap : forall Q x y w, isW (nOf (pk Q)) x -> isW (nOf (pk Q)) y ->
  armCswap Q 0 1 w [x; y] = Some (if w mod 256 =? 0 then [x; y] else [y; x]) /\ armCswap Q 0 0 w [x] = Some [x].
Proof. intros Q x y w [_ Lx] [_ Ly]. exact (cswap_arm Q x y w Lx Ly). Qed.
Print Assumptions C76_cswap.
Theorem C76_cswap_as_portable : forall Q x y w, isW (nOf (pk Q)) x -> isW (nOf (pk Q)) y -> w mod 256 = 0 \/ w mod 256 = 1 ->
  armCswap Q 0 1 w [x; y] = Some [fst (cswapP x y (w mod 256)); snd (cswapP x y (w mod 256))].
Proof.
  intros Q x y w Hx Hy H. rewrite (proj1 (C76_cswap Q x y w Hx Hy)).
  destruct (P_SIDH_Field.C39_cswap x y (proj1 Hx) (proj1 Hy) ltac:(rewrite (proj2 Hx), (proj2 Hy); reflexivity)) as [E0 E1].
  destruct H as [-> | ->]; [rewrite E0|rewrite E1]; reflexivity.
Qed.
Print Assumptions C76_cswap_as_portable.
Theorem C76_cswap_all_bytes_as_portable_refuted : exists x y w, isW 8 x /\ isW 8 y /\ 0 <= w < 256 /\
  armCswap Q503 0 1 w [x; y] <> Some [fst (cswapP x y w); snd (cswapP x y w)].
Proof.
  assert (W : forall k v, isW k (limbs k v)) by (intros; split; [apply limbs_words|apply limbs_length]).
  exists (limbs 8 1), (limbs 8 2), 2. split; [apply W|]. split; [apply W|]. split; [lia|].
  rewrite (proj1 (C76_cswap Q503 _ _ 2 (W 8%nat 1) (W 8%nat 2))). intro K. vm_compute in K. discriminate K.
Qed.
Print Assumptions C76_cswap_all_bytes_as_portable_refuted.

(* C77: mulP751, and the squaring (equal pointers), on all words - also where the amd64 code is wrong (C70) *)
Theorem C77_mul751 : forall z x y, isW 24 z -> isW 12 x -> isW 12 y ->
  armCall mulArm Q751 [0; 1; 2]%nat [z; x; y] = Some [mulPx f751 x y; x; y] /\
  armCall mulArm Q751 [0; 1; 1]%nat [z; x] = Some [mulPx f751 x x; x].
Proof. exact mul751_arm. Qed.
Print Assumptions C77_mul751.
Theorem C77_mul751_product : forall z x y, isW 24 z -> isW 12 x -> isW 12 y -> exists r,
  armCall mulArm Q751 [0; 1; 2]%nat [z; x; y] = Some [r; x; y] /\ isW 24 r /\ val r = val x * val y.
Proof.
  intros z x y Hz Hx Hy. exists (mulPx f751 x y). split; [exact (proj1 (C77_mul751 z x y Hz Hx Hy))|].
  destruct (mulPx_spec f751 x y) as (W & L & V); try apply Hx; try apply Hy; try apply ok751. split; [split; assumption|exact V].
Qed.
Print Assumptions C77_mul751_product.

(* C78: mulP503 adds 2^832 to the product in exactly this case.  x = xl + 2^256 xh, y = yl + 2^256 yh; the routine computes
   (xl + xh)(yl + yh) - xl yl for the two middle quarters and adds the upper half of xl yl to it; the carry out of that addition's lower
   half is then added a second time, when it should be subtracted again with xh yh. *)
Definition wrongCase (x y : Z) : bool :=
  let N := 2 ^ 256 in let xl := x mod N in let xh := x / N in let yl := y mod N in let yh := y / N in
  let T := xl * yh + xh * yl in let H := xl * yl / N in
  (T + H <? N) && (N <=? (T + xh * yh) mod N + H).
Theorem C78_mul503 : forall z x y, isW 16 z -> isW 8 x -> isW 8 y -> exists r,
  armCall mulArm Q503 [0; 1; 2]%nat [z; x; y] = Some [r; x; y] /\ isW 16 r /\
  val r = (val x * val y + (if wrongCase (val x) (val y) then 2 ^ 832 else 0)) mod 2 ^ 1024.
Proof. exact mul503_arm. Qed.
Print Assumptions C78_mul503.
Theorem C78_sqr503 : forall z x, isW 16 z -> isW 8 x -> exists r,
  armCall mulArm Q503 [0; 1; 1]%nat [z; x] = Some [r; x] /\ isW 16 r /\
  val r = (val x * val x + (if wrongCase (val x) (val x) then 2 ^ 832 else 0)) mod 2 ^ 1024.
Proof. exact sqr503_arm. Qed.
Print Assumptions C78_sqr503.
(* it is the product outside that case *)
Theorem C78_mul503_right : forall z x y, isW 16 z -> isW 8 x -> isW 8 y -> wrongCase (val x) (val y) = false ->
  armCall mulArm Q503 [0; 1; 2]%nat [z; x; y] = Some [mulPx f503 x y; x; y].
Proof. exact mul503_right. Qed.
Print Assumptions C78_mul503_right.
Theorem C78_sqr503_right : forall z x, isW 16 z -> isW 8 x -> wrongCase (val x) (val x) = false ->
  armCall mulArm Q503 [0; 1; 1]%nat [z; x] = Some [mulPx f503 x x; x].
Proof. exact sqr503_right. Qed.
Print Assumptions C78_sqr503_right.
(* the case needs small middle products together with a large low product: it does not occur when a factor is below 2^256, nor when the two
   middle products together reach 2^256 *)
Theorem C78_right_when : forall x y, 0 <= x -> 0 <= y ->
  x < 2 ^ 256 \/ y < 2 ^ 256 \/ 2 ^ 256 <= (x mod 2 ^ 256) * (y / 2 ^ 256) + (x / 2 ^ 256) * (y mod 2 ^ 256) -> wrongCase x y = false.
Proof.
  intros x y Hx Hy H. unfold wrongCase. cbv zeta.
  pose proof (Z.mod_pos_bound x (2 ^ 256) ltac:(lia)) as B1. pose proof (Z.mod_pos_bound y (2 ^ 256) ltac:(lia)) as B2.
  pose proof (Z.div_pos x (2 ^ 256) Hx ltac:(lia)) as B3. pose proof (Z.div_pos y (2 ^ 256) Hy ltac:(lia)) as B4.
  assert (D : 0 <= (x mod 2 ^ 256) * (y mod 2 ^ 256) / 2 ^ 256) by (apply Z.div_pos; nia).
  destruct H as [H|[H|H]].
  - rewrite (Z.div_small x) in * by lia. rewrite !Z.mul_0_l, !Z.add_0_r. assert (T : 0 <= (x mod 2 ^ 256) * (y / 2 ^ 256)) by nia.
    destruct (Z.ltb_spec ((x mod 2 ^ 256) * (y / 2 ^ 256) + (x mod 2 ^ 256) * (y mod 2 ^ 256) / 2 ^ 256) (2 ^ 256)) as [L|L]; [|reflexivity].
    rewrite (Z.mod_small ((x mod 2 ^ 256) * (y / 2 ^ 256))) by lia. apply Z.leb_gt. exact L.
  - rewrite (Z.div_small y) in * by lia. rewrite !Z.mul_0_r, !Z.add_0_r, Z.add_0_l. assert (T : 0 <= (x / 2 ^ 256) * (y mod 2 ^ 256)) by nia.
    destruct (Z.ltb_spec ((x / 2 ^ 256) * (y mod 2 ^ 256) + (x mod 2 ^ 256) * (y mod 2 ^ 256) / 2 ^ 256) (2 ^ 256)) as [L|L]; [|reflexivity].
    rewrite (Z.mod_small ((x / 2 ^ 256) * (y mod 2 ^ 256))) by lia. apply Z.leb_gt. exact L.
  - apply andb_false_iff. left. apply Z.ltb_ge. lia.
Qed.
Print Assumptions C78_right_when.
(* the product of field elements (below p, even) can be wrong, also as a field element: after the reduction it is not the Montgomery product
   modulo p; the same holds for the square *)
Definition badX : Z := 2 ^ 323 + 2 ^ 188 - 2 ^ 66 - 2 ^ 51.
Lemma lw k v : isW k (limbs k v). Proof. split; [apply limbs_words|apply limbs_length]. Qed.
Theorem C78_mul503_field_refuted : exists z x y, isW 16 z /\ isW 8 x /\ isW 8 y /\ val x < p503 /\ val y < p503 /\
  armCall mulArm Q503 [0; 1; 2]%nat [z; x; y] <> Some [mulPx f503 x y; x; y].
Proof.
  exists (limbs 16 0), (limbs 8 badX), (limbs 8 badX). do 3 (split; [apply lw|]). do 2 (split; [vm_compute; reflexivity|]).
  destruct (C78_mul503 _ _ _ (lw 16%nat 0) (lw 8%nat badX) (lw 8%nat badX)) as (r & E & _ & V). rewrite E. intro K.
  apply (f_equal (fun o => match o with Some (t :: _) => val t | _ => 0 end)) in K. cbn beta iota in K. rewrite V in K. vm_compute in K. discriminate K.
Qed.
Print Assumptions C78_mul503_field_refuted.
(* the routine, then the reduction *)
Definition armMontMul (xy : list nat) (x : list (list Z)) : list Z :=
  match armCall mulArm Q503 xy (limbs 16 0 :: x) with
  | Some (ab :: _) => match armCall rdcArm Q503 [0; 1]%nat [limbs 8 0; ab] with Some (r :: _) => r | _ => [] end
  | _ => []
  end.
Theorem C78_montgomery503_refuted : exists x, isW 8 x /\ val x < p503 /\
  (armMontMul [0; 1; 2]%nat [x; x] = armMontMul [0; 1; 1]%nat [x]) /\
  (val (armMontMul [0; 1; 1]%nat [x]) * 2 ^ 512 - val x * val x) mod p503 <> 0 /\
  (val (rdc f503 (mulPx f503 x x)) * 2 ^ 512 - val x * val x) mod p503 = 0.
Proof.
  exists (limbs 8 badX). split; [apply lw|]. split; [vm_compute; reflexivity|].
  destruct (C78_mul503 _ _ _ (lw 16%nat 0) (lw 8%nat badX) (lw 8%nat badX)) as (r & E & W & V).
  destruct (C78_sqr503 _ _ (lw 16%nat 0) (lw 8%nat badX)) as (s & Es & Ws & Vs). rewrite <- V in Vs.
  assert (Er : r = limbs 16 (badX * badX + 2 ^ 832)). { apply (same 16); [apply W|apply W|apply lw|]. rewrite V. vm_compute. reflexivity. }
  rewrite (same 16 s r) in Es by (try assumption; apply Ws). unfold armMontMul. rewrite E, Es, Er.
  rewrite (C76_rdc Q503 (limbs 8 0) (limbs 16 (badX * badX + 2 ^ 832)) (lw _ _) (lw _ _) ltac:(vm_compute; reflexivity)).
  split; [reflexivity|]. split; [vm_compute; discriminate|vm_compute; reflexivity].
Qed.
Print Assumptions C78_montgomery503_refuted.

Example ex_C76_add : armCall addArm Q503 [0; 0; 1]%nat [limbs 8 p503; limbs 8 (p503 + 1)] = Some [limbs 8 1; limbs 8 (p503 + 1)].
Proof. rewrite (C76_add Q503 0 0 1 2); [vm_compute; reflexivity|right; left; reflexivity|reflexivity|repeat (constructor; [apply lw|]); constructor]. Qed.
Example ex_C76_sub : armCall subArm Q751 [0; 1; 2]%nat [limbs 12 9; limbs 12 1; limbs 12 3] = Some [limbs 12 (2 * p751 - 2); limbs 12 1; limbs 12 3].
Proof. rewrite (C76_sub Q751 0 1 2 3); [vm_compute; reflexivity|left; reflexivity|reflexivity|repeat (constructor; [apply lw|]); constructor]. Qed.
Example ex_C76_adl : armCall adlArm Q751 [0; 0; 1]%nat [limbs 24 (2 ^ 800); limbs 24 (2 ^ 800 + 5)] = Some [limbs 24 (2 ^ 801 + 5); limbs 24 (2 ^ 800 + 5)].
Proof. rewrite (C76_adl Q751 0 0 1 2); [vm_compute; reflexivity|right; left; reflexivity|reflexivity|repeat (constructor; [apply lw|]); constructor]. Qed.
Example ex_C76_sul : armCall sulArm Q503 [0; 1; 2]%nat [limbs 16 0; limbs 16 4; limbs 16 5] = Some [limbs 16 (p503 * 2 ^ 512 - 1); limbs 16 4; limbs 16 5].
Proof. rewrite (C76_sul Q503 0 1 2 3); [vm_compute; reflexivity|left; reflexivity|reflexivity|repeat (constructor; [apply lw|]); constructor]. Qed.
Example ex_C76_mod : armCall modArm Q751 [0%nat] [limbs 12 (p751 + 17)] = Some [limbs 12 17].
Proof. rewrite (C76_mod Q751 _ (lw _ _)). vm_compute. reflexivity. Qed.
Example ex_C76_rdc : armCall rdcArm Q503 [0; 1]%nat [limbs 8 1; limbs 16 (12345 * 2 ^ 512)] = Some [limbs 8 12345; limbs 16 (12345 * 2 ^ 512)].
Proof. rewrite (C76_rdc Q503 (limbs 8 1) (limbs 16 (12345 * 2 ^ 512)) (lw 8%nat _) (lw 16%nat _) ltac:(vm_compute; reflexivity)). vm_compute. reflexivity. Qed.
Example ex_C76_cswap : armCswap Q503 0 1 (256 * 77 + 200) [limbs 8 11; limbs 8 12] = Some [limbs 8 12; limbs 8 11].
Proof. rewrite (proj1 (C76_cswap Q503 _ _ (256 * 77 + 200) (lw 8%nat 11) (lw 8%nat 12))). reflexivity. Qed.
Example ex_C77 : armCall mulArm Q751 [0; 1; 1]%nat [limbs 24 1; limbs 12 (2 ^ 768 - 1)] = Some [limbs 24 ((2 ^ 768 - 1) * (2 ^ 768 - 1)); limbs 12 (2 ^ 768 - 1)].
Proof. rewrite (proj2 (C77_mul751 _ _ (limbs 12 0) (lw 24%nat 1) (lw 12%nat (2 ^ 768 - 1)) (lw _ _))). vm_compute. reflexivity. Qed.
Example ex_C78_right : wrongCase (2 ^ 502 + 12345) (2 ^ 501 + 2 ^ 255 + 7) = false /\ wrongCase badX badX = true /\ badX < p503.
Proof. split; [apply C78_right_when; [lia|lia|right; right; vm_compute; discriminate]|]. split; vm_compute; reflexivity. Qed.
