(* C59: what the feature flags say about the CPU. *)
From Coq Require Import ZArith List Bool Lia.
From Verif Require Import Lib MP CSIDH_Field CSIDH_FieldProofs X86 X86_Sym X86_Call X86_Lin CSIDH_AsmProofs CPU_Model P_CSIDH_Asm.
Import ListNotations.
Open Scope Z_scope.

Lemma bitn_testbit b n : 0 <= n -> bitn b n = Z.testbit b n.
Proof.
  intro Hn. unfold bitn. change 1 with (Z.ones 1) at 1. rewrite Z.land_ones by lia. change (2 ^ 1) with 2.
  rewrite <- Z.bit0_mod, Z.shiftr_spec, Z.add_0_l by lia. destruct (Z.testbit b n); reflexivity.
Qed.

(* bits as in the Intel SDM, vol. 2A, CPUID: leaf 7 EBX has BMI2, RDSEED, ADX in bits 8, 18, 19; leaf 1 ECX has AES in bit 25, leaf 1 EBX has the APIC id in bits 24-31 *)
Theorem C59_flags : forall cpu,
  (7 <= rEAX (cpu 0 0) ->
    HasBMI2 (init cpu) = Z.testbit (rEBX (cpu 7 0)) 8 /\ HasADX (init cpu) = Z.testbit (rEBX (cpu 7 0)) 19 /\
    HasRDSEED (init cpu) = Z.testbit (rEBX (cpu 7 0)) 18 /\ HasAES (init cpu) = Z.testbit (rEBX (cpu 1 0)) 25) /\
  (rEAX (cpu 0 0) < 7 -> init cpu = mkX86 false false false false).
Proof.
  intro cpu. unfold init, cpuid. split; intro H.
  - destruct (Z.ltb_spec (rEAX (cpu 0 0)) 7); [lia|]. cbn [HasBMI2 HasADX HasRDSEED HasAES]. rewrite !bitn_testbit by lia. repeat split.
  - destruct (Z.ltb_spec (rEAX (cpu 0 0)) 7); [reflexivity|lia].
Qed.
Print Assumptions C59_flags.

(* the code behind a flag runs only where its instructions exist *)
Theorem C59_adx_bmi2_sound : forall cpu, hasADXandBMI2 (init cpu) = true ->
  7 <= rEAX (cpu 0 0) /\ Z.testbit (rEBX (cpu 7 0)) 8 = true /\ Z.testbit (rEBX (cpu 7 0)) 19 = true.
Proof.
  intros cpu H. unfold hasADXandBMI2 in H. apply andb_true_iff in H. destruct H as [H1 H2]. destruct (C59_flags cpu) as [F1 F2].
  destruct (Z_lt_le_dec (rEAX (cpu 0 0)) 7) as [L|L]; [rewrite (F2 L) in H1; discriminate|].
  destruct (F1 L) as (E1 & E2 & _). rewrite <- E1, <- E2. auto.
Qed.
Print Assumptions C59_adx_bmi2_sound.

(* HasAES is no statement about AES: it can be set without AES-NI and clear with it *)
Definition aesCpu (apic : Z) (aes : bool) (leaf sub : Z) : cpuRegs :=
  if leaf =? 0 then mkRegs 22 0x756e6547 0x6c65746e 0x49656e69
  else if leaf =? 1 then mkRegs 0x506e3 (apic * 2 ^ 24 + 0x100800) (if aes then 0x7ffafbbf else 0x7dfafbbf) 0xbfebfbff
  else if leaf =? 7 then mkRegs 0 0x29c6fbf 0 0 else mkRegs 0 0 0 0.
Theorem C59_HasAES_refuted :
  (exists cpu, 7 <= rEAX (cpu 0 0) /\ Z.testbit (rECX (cpu 1 0)) 25 = false /\ HasAES (init cpu) = true) /\
  (exists cpu, 7 <= rEAX (cpu 0 0) /\ Z.testbit (rECX (cpu 1 0)) 25 = true /\ HasAES (init cpu) = false).
Proof.
  split; [exists (aesCpu 2 false)|exists (aesCpu 0 true)]; (split; [vm_compute; discriminate|split; reflexivity]).
Qed.
Print Assumptions C59_HasAES_refuted.

(* It is bit 1 of the id of the logical processor that happens to execute init: for every choice of leaf 1 ECX both outcomes occur *)
Theorem C59_HasAES_ignores_ecx : forall cpu cpu', (forall l s, rEAX (cpu l s) = rEAX (cpu' l s)) -> (forall l s, rEBX (cpu l s) = rEBX (cpu' l s)) ->
  init cpu = init cpu'.
Proof. intros cpu cpu' HA HB. unfold init, cpuid. rewrite HA, !HB. reflexivity. Qed.
Print Assumptions C59_HasAES_ignores_ecx.

(* On every CPU the CSIDH product is the portable one *)
Theorem C59_mulRdc_any_cpu : forall cpu a b c n, In (a, b, c, n) [(0, 1, 2, 3); (0, 0, 1, 2); (0, 1, 0, 2); (0, 1, 1, 2); (0, 0, 0, 1)]%nat -> forall blocks bp,
  Forall fp_ok blocks -> length blocks = n -> is_w64 bp -> val (nth c blocks []) <= P ->
  mulRdcAmd64 (hasADXandBMI2 (init cpu)) (HasBMI2 (init cpu)) a b c blocks bp = Some (setl blocks a (mulRdc (nth b blocks []) (nth c blocks []))).
Proof. intro cpu. exact (C60_mulRdc _ _). Qed.
Print Assumptions C59_mulRdc_any_cpu.

Example ex_C59 : init (aesCpu 0 true) = mkX86 true true false true /\ init (aesCpu 2 false) = mkX86 true true true true.
Proof. split; reflexivity. Qed.
