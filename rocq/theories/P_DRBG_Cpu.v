(* C83: the generator against the CPU it runs on. *)
From Coq Require Import ZArith List Bool Lia.
From Verif Require Import Lib AES_Spec AES_Model AESNI AESNI_Code AESNI_Model P_AESNI DRBG_Spec DRBG_Model P_DRBG DRBG_AsmModel P_DRBG_Asm CPU_Model P_CPU DRBG_Cpu.
Import ListNotations.
Open Scope Z_scope.

(* with AES-NI the machine is the one the other theorems are about *)
Theorem C83_with_aesni : forall code args n s, runOn true code args n s = Some (AESNI.run code args n s).
Proof.
  induction n as [|n IH]; intro s; cbn [runOn AESNI.run]; [reflexivity|].
  destruct (nth_error code (pc s)) as [i|]; [|reflexivity]. rewrite andb_false_r. destruct (exec args i s); auto.
Qed.
Print Assumptions C83_with_aesni.

(* without it none of the three routines finishes: every key schedule, every block dies *)
Theorem C83_key_schedule_traps : forall c key, In (length key) [16; 24; 32]%nat -> SetKeyOn false c key = None.
Proof.
  intros c key H. unfold SetKeyOn. destruct key as [|k key]; [cbn in H; intuition discriminate|]. set (K := k :: key) in *. clearbody K.
  cbn [In] in H. destruct H as [<- | [<- | [<- | []]]]; unfold fuel; cbn; reflexivity.
Qed.
Print Assumptions C83_key_schedule_traps.

Theorem C83_block_traps : forall code xk dst src, code = encryptBlockAsm \/ code = decryptBlockAsm -> blockOn false code xk dst src = None.
Proof.
  intros code xk dst src H. unfold blockOn. cbv zeta. destruct (addr dst =? addr src); destruct H as [-> | ->]; unfold fuel; cbn; reflexivity.
Qed.
Print Assumptions C83_block_traps.

Lemma setkeyOn_true c key : SetKeyOn true c key = Some (SetKeyAsm c key).
Proof.
  unfold SetKeyOn, SetKeyAsm. destruct key as [|k key]; [reflexivity|]. set (K := k :: key). clearbody K. rewrite C83_with_aesni. destruct (AESNI.run _ _ _ _); reflexivity.
Qed.
(* what a caller can see of either object: V, Key, the reseed counter, the strength, the scratch block *)
Definition state (g : gen) : list Z * list Z * Z * Z * list Z :=
  match g with
  | Fast a => (vA a, keyA a, counterA a, strengthA a, tmpBlkA a)
  | Portable c => (v c, key c, counter c, strength c, tmpBlk c)
  end.

(* The first Init on a new generator dies of an invalid opcode exactly on the CPUs that have no AES-NI and whose leaf 1 EBX (the APIC id) has bit 25 set *)
Theorem C83_init_dies : forall cpu entropy pers,
  InitOn cpu (NewOn cpu) entropy pers = UD <-> 7 <= rEAX (cpu 0 0) /\ Z.testbit (rEBX (cpu 1 0)) 25 = true /\ Z.testbit (rECX (cpu 1 0)) 25 = false.
Proof.
  intros cpu e p. destruct (C59_flags cpu) as [F1 F2].
  assert (HF : HasAES (init cpu) = true <-> 7 <= rEAX (cpu 0 0) /\ Z.testbit (rEBX (cpu 1 0)) 25 = true).
  { destruct (Z.le_gt_cases 7 (rEAX (cpu 0 0))) as [L|L].
    - destruct (F1 L) as (_ & _ & _ & E). rewrite E. tauto.
    - rewrite (F2 L). cbn [HasAES]. split; [discriminate|lia]. }
  unfold NewOn. fold (hasAESNI cpu). destruct (HasAES (init cpu)) eqn:EH.
  - destruct (proj1 HF eq_refl) as [L B]. cbn [InitOn strengthA NewCtrDrbgA]. change (0 / 8) with 0. destruct (Z.ltb_spec (Z.of_nat (length e)) 0); [lia|]. destruct (hasAESNI cpu).
    + rewrite setkeyOn_true. split; [discriminate|]. intros (_ & _ & H1). discriminate.
    + rewrite C83_key_schedule_traps by (right; right; left; reflexivity). tauto.
  - cbn [InitOn]. split; [discriminate|]. intros (L & B & _). destruct HF as [_ HF]. discriminate (HF (conj L B)).
Qed.
Print Assumptions C83_init_dies.

(* On every other CPU it is accepted, and leaves the same generator, whatever the CPU *)
Theorem C83_init_lives : forall cpu entropy pers, bytes entropy -> bytes pers -> InitOn cpu (NewOn cpu) entropy pers <> UD ->
  exists g c, InitOn cpu (NewOn cpu) entropy pers = Ret (Some (g, true)) /\ Init NewCtrDrbg entropy pers = Some (c, true) /\ state g = state (Portable c).
Proof.
  intros cpu e p Be Bp H.
  destruct (C68_cipher_choice_is_invisible e p [] Be Bp (Forall_nil _)) as (c & a & os & Ec & Ea & S1 & S2 & S3 & S4 & S5).
  cbn [mcalls acalls mcall acall] in Ec, Ea.
  assert (Ti : forall c' b, Init NewCtrDrbg e p = Some (c', b) -> b = true).
  { intros c' b E. unfold Init in E. cbn [strength NewCtrDrbg] in E. change (0 / 8) with 0 in E. destruct (Z.ltb_spec (Z.of_nat (length e)) 0); [lia|].
    destruct (update _ _); [|discriminate]. inversion E. reflexivity. }
  destruct (Init NewCtrDrbg e p) as [[c' b]|] eqn:E1; [|discriminate]. inversion Ec. subst c'. subst os. pose proof (Ti _ _ eq_refl). subst b. clear Ti.
  destruct (InitA NewCtrDrbgA e p) as [[a' b]|] eqn:E2; [|discriminate]. inversion Ea. subst a'. subst b.
  unfold NewOn in *. destruct (HasAES (init cpu)).
  - exists (Fast a), c. cbn [InitOn] in *. destruct (Z.ltb_spec (Z.of_nat (length e)) (strengthA NewCtrDrbgA / 8)) as [L|L]; [cbn [strengthA NewCtrDrbgA] in L; change (0 / 8) with 0 in L; lia|].
    destruct (SetKeyOn _ _ _); [|congruence]. rewrite E2. cbn [option_map state]. rewrite S1, S2, S3, S4, S5. repeat split.
  - exists (Portable c), c. cbn [InitOn]. rewrite E1. repeat split.
Qed.
Print Assumptions C83_init_lives.

(* "The generator works on every amd64 CPU" is false: on this one no Init ever returns.  Its twin, the same CPU met on the core with APIC id 0, is served. *)
Theorem C83_every_cpu_refuted : exists cpu twin,
  (forall l s, rEAX (cpu l s) = rEAX (twin l s) /\ rECX (cpu l s) = rECX (twin l s) /\ rEDX (cpu l s) = rEDX (twin l s)) /\
  (forall entropy pers, InitOn cpu (NewOn cpu) entropy pers = UD) /\
  (forall entropy pers, bytes entropy -> bytes pers -> exists g, InitOn twin (NewOn twin) entropy pers = Ret (Some (g, true))).
Proof.
  exists (aesCpu 2 false), (aesCpu 0 false). split; [|split].
  - intros l s. unfold aesCpu. destruct (l =? 0), (l =? 1), (l =? 7); repeat split.
  - intros e p. apply C83_init_dies. split; [vm_compute; discriminate|split; reflexivity].
  - intros e p Be Bp. destruct (C83_init_lives (aesCpu 0 false) e p Be Bp) as (g & c & E & _); [|exists g; exact E].
    intro H. apply C83_init_dies in H. destruct H as (_ & H & _). discriminate H.
Qed.
Print Assumptions C83_every_cpu_refuted.

(* a CPU that meets the hypothesis of C83_init_lives with the fast cipher, one with the portable one *)
Example ex_C83 : NewOn (aesCpu 2 true) = Fast NewCtrDrbgA /\ NewOn (aesCpu 0 true) = Portable NewCtrDrbg /\
  InitOn (aesCpu 2 true) (NewOn (aesCpu 2 true)) [1; 2] [3] <> UD /\ InitOn (aesCpu 0 true) (NewOn (aesCpu 0 true)) [1; 2] [3] <> UD.
Proof.
  split; [reflexivity|]. split; [reflexivity|]. split; intro H; apply C83_init_dies in H; destruct H as (_ & H1 & H2); discriminate.
Qed.

(* with AES-NI the wrappers are those of AESNI_Model.v, and Init of any object is that of DRBG_AsmModel.v *)
Theorem C83_routines : forall c key code xk dst src,
  SetKeyOn true c key = Some (SetKeyAsm c key) /\ blockOn true code xk dst src = Some (blockAsm code xk dst src).
Proof.
  intros c key code xk dst src. split; [apply setkeyOn_true|]. unfold blockOn, blockAsm. cbv zeta. rewrite C83_with_aesni. destruct (AESNI.run _ _ _ _); reflexivity.
Qed.
Print Assumptions C83_routines.
Theorem C83_init_any : forall cpu c entropy pers,
  (Z.testbit (rECX (cpu 1 0)) 25 = true -> InitOn cpu (Fast c) entropy pers = Ret (option_map (fun '(c', b) => (Fast c', b)) (InitA c entropy pers))) /\
  (Z.testbit (rECX (cpu 1 0)) 25 = false -> In (length (keyA c)) [16; 24; 32]%nat ->
    InitOn cpu (Fast c) entropy pers = (if Z.of_nat (length entropy) <? strengthA c / 8 then Ret (Some (Fast c, false)) else UD)).
Proof.
  intros cpu c e p. unfold InitOn. fold (hasAESNI cpu). split; intro H.
  - rewrite H, setkeyOn_true. unfold InitA. destruct (_ <? _); reflexivity.
  - intro L. rewrite H, C83_key_schedule_traps by exact L. destruct (_ <? _); reflexivity.
Qed.
Print Assumptions C83_init_any.

(* without AES-NI a step dies on exactly the six AES-NI instructions, and does on any other what it always does *)
Definition aesOp (i : ins) : Prop := exists x y, i = AesEnc x y \/ i = AesEncLast x y \/ i = AesDec x y \/ i = AesDecLast x y \/ i = AesImc x y \/ exists rc, i = KeyGenAssist rc x y.
Theorem C83_opcodes : forall code args s i, nth_error code (pc s) = Some i ->
  (aesOp i -> forall n, runOn false code args (S n) s = None) /\ (~ aesOp i -> runOn false code args 1 s = Some (AESNI.run code args 1 s)).
Proof.
  intros code args s i E. split.
  - intros (x & y & H) n. cbn [runOn]. rewrite E. destruct H as [-> | [-> | [-> | [-> | [-> | [rc ->]]]]]]; reflexivity.
  - intro H. cbn [runOn AESNI.run]. rewrite E. replace (isAES i) with false; [cbn [andb]; destruct (exec args i s); reflexivity|].
    symmetry. destruct i; try reflexivity; exfalso; apply H; do 2 eexists; eauto 8.
Qed.
Print Assumptions C83_opcodes.
