(* C80: no machine-code routine of dh/csidh and dh/sidh executes an instruction that the CPU does not have. *)
From Coq Require Import ZArith List Bool Lia.
From Verif Require Import Lib MP CSIDH_Field X86 CSIDH_Asm CSIDH_AsmProofs CSIDH_AmdKern SIDH_AsmModel CPU_Model P_CPU.
Import ListNotations.
Open Scope Z_scope.

(* ---------- the specification ---------- *)
(* the extensions of Intel's manual: MULX is BMI2, ADCX and ADOX are ADX, the other instructions used are in every amd64 CPU; none is arm64's *)
Definition executes (bmi2 adx : bool) (i : instr) : bool :=
  match i with MULX _ _ _ => bmi2 | ADCX _ _ | ADOX _ _ => adx | ARM _ => false | _ => true end.
(* a run that meets an instruction the CPU does not execute (and was not stuck before) *)
Fixpoint illegal (ok : instr -> bool) (fuel : nat) (p : list instr) (s : st zdom) : bool :=
  match fuel with
  | O => false
  | S f =>
    match p with
    | [] => false
    | JFLAG g target :: p' =>
      match flagSet zdom s g with
      | Some true => illegal ok f target (setfl zdom s None None)
      | Some false => illegal ok f p' (setfl zdom s None None)
      | None => false
      end
    | i :: p' => if ok i then match step zdom i s with Some s' => illegal ok f p' s' | None => false end else true
    end
  end.
(* CPUID: leaf 7 exists, and its EBX has the bit *)
Definition reports (cpu : Z -> Z -> cpuRegs) (bit : Z) : bool := (7 <=? rEAX (cpu 0 0)) && Z.testbit (rEBX (cpu 7 0)) bit.
Definition cpuHas (cpu : Z -> Z -> cpuRegs) : instr -> bool := executes (reports cpu 8) (reports cpu 19).

(* ---------- the check ---------- *)
Definition flagOf (gl : list (list Z)) (g : nat) : option bool := match nth_error gl g with Some (w :: _) => Some (w mod 256 =? 1) | _ => None end.
Fixpoint safe (ok : instr -> bool) (gl : list (list Z)) (fuel : nat) (p : list instr) : bool :=
  match fuel with
  | O => true
  | S f =>
    match p with
    | [] => true
    | JFLAG g target :: p' => match flagOf gl g with Some true => safe ok gl f target | Some false => safe ok gl f p' | None => true end
    | i :: p' => ok i && safe ok gl f p'
    end
  end.
Lemma flag_ok s g : flagSet zdom s g = flagOf (glob s) g.
Proof.
  unfold flagSet, flagOf, rdw, rd, slot. change (widx 0) with (Some 0%nat). generalize (glob s). intro gl. change (list (list Z)) in gl.
  change (@nth_error (list (W zdom)) gl g) with (@nth_error (list Z) gl g). destruct (@nth_error (list Z) gl g) as [[|w l]|]; reflexivity.
Qed.
Lemma wr_glob s o v s' : wr zdom s o v = Some s' -> glob s' = glob s.
Proof.
  destruct o; cbn [wr]; try discriminate; [intro E; injection E as <-; reflexivity|]. unfold store.
  destruct (rreg zdom s r) as [[| | |]|]; try discriminate. destruct (nth_error (mem s) b); [|discriminate]. destruct (widx _); [|discriminate].
  destruct (_ <? _)%nat; [|discriminate]. intro E. injection E as <-. reflexivity.
Qed.
Ltac look := repeat match goal with
  | |- context [match ?x with Some _ => _ | None => _ end] => destruct x eqn:?; try discriminate
  | |- context [match ?x with Wd _ => _ | Pt _ _ => _ | Xm _ _ => _ | Un => _ end] => destruct x; try discriminate
  | |- context [if ?b then _ else _] => destruct b eqn:?; try discriminate
  end.
Lemma store_glob s r d v s' : store zdom s r d v = Some s' -> glob s' = glob s. Proof. exact (wr_glob s (M r d) v s'). Qed.
Lemma arith_glob op s a b c fl s' : arith zdom op s a b c fl = Some s' -> glob s' = glob s.
Proof. unfold arith. destruct (rdw zdom s a), (rdw zdom s b), c; try discriminate. destruct (op _ _ _ _) as [[t v] c']. intro E. apply wr_glob in E. exact E. Qed.
Lemma logic_glob op s a b s' : logic zdom op s a b = Some s' -> glob s' = glob s.
Proof. unfold logic. destruct (rdw zdom s a), (rdw zdom s b); try discriminate. destruct (op _ _); [|discriminate]. intro E. apply wr_glob in E. exact E. Qed.
Lemma xlogic_glob op s a b s' : xlogic zdom op s a b = Some s' -> glob s' = glob s.
Proof. unfold xlogic. destruct (rreg zdom s a) as [[| | |]|], (rreg zdom s b) as [[| | |]|]; try discriminate. look. intro E. injection E as <-. reflexivity. Qed.
Lemma astep_glob i s s' : astep zdom i s = Some s' -> glob s' = glob s.
Proof.
  destruct i; cbn [astep].
  - destruct (rdw zdom s a), (rdw zdom s b), (if cin then cf s else Some (f0 zdom)); try discriminate. destruct (adc zdom _ _ _ _) as [[t v] c']. intro E. injection E as <-. reflexivity.
  - destruct (rdw zdom s a), (rdw zdom s b), (if cin then ovf s else Some (f0 zdom)); try discriminate. destruct (sbb zdom _ _ _ _) as [[t v] c']. intro E. injection E as <-. reflexivity.
  - destruct (rdw zdom s a), (rdw zdom s b); try discriminate. destruct (andw zdom _ _); try discriminate. intro E. injection E as <-. reflexivity.
  - destruct (rdw zdom s a), (rdw zdom s b); try discriminate. destruct (mulS zdom _ _ _) as [[t h] l]. intro E. injection E as <-. reflexivity.
  - destruct (rdw zdom s a), (rdw zdom s b); try discriminate. destruct (mulS zdom _ _ _) as [[t h] l]. intro E. injection E as <-. reflexivity.
  - destruct (rdw zdom s _); try discriminate. destruct (_ && _); [|discriminate]. destruct (mulS zdom _ _ _) as [[t h] l]. intro E. injection E as <-. reflexivity.
  - destruct (rdw zdom s (R _)), (rdw zdom s b); try discriminate. destruct (_ && _); [|discriminate]. destruct (orS zdom _ _ _ _) as [[t v]|]; [|discriminate]. intro E. injection E as <-. reflexivity.
  - destruct (rdw zdom s src); try discriminate. destruct (sxb zdom _); try discriminate. intro E. injection E as <-. reflexivity.
  - destruct (rdw zdom s (R _)); try discriminate. destruct (iszero zdom _); try discriminate. destruct (rd zdom s _); try discriminate. intro E. injection E as <-. reflexivity.
Qed.
Lemma step_glob i s s' : step zdom i s = Some s' -> glob s' = glob s.
Proof.
  destruct i; cbn [step]; try discriminate; try apply arith_glob; try apply logic_glob; try apply xlogic_glob; try apply astep_glob.
  - destruct (rd zdom s src); [apply wr_glob|discriminate].
  - destruct src, dst; try apply logic_glob. destruct (_ =? _)%nat; [|apply logic_glob]. intro E. apply wr_glob in E. exact E.
  - destruct (rdw zdom s src), (rdw zdom s (R AX)); try discriminate. intro E. injection E as <-. reflexivity.
  - destruct (rdw zdom s src), (rdw zdom s (R DX)); try discriminate. intro E. injection E as <-. reflexivity.
  - destruct (rdw zdom s dst); [|discriminate]. intro E. apply wr_glob in E. exact E.
  - destruct (rdw zdom s src); [|discriminate]. destruct (bt0 zdom _); [|discriminate]. intro E. injection E as <-. reflexivity.
  - destruct (rdw zdom s src); [|discriminate]. destruct (zxb zdom _); [|discriminate]. intro E. injection E as <-. reflexivity.
  - destruct (rdw zdom s (R src)); [|discriminate]. intro E. injection E as <-. reflexivity.
  - destruct (rreg zdom s src) as [[| | |]|]; try discriminate. destruct (dup32 zdom _); [|discriminate]. intro E. injection E as <-. reflexivity.
  - destruct src, dst; try discriminate.
    + destruct (rreg zdom s r) as [[| | |]|]; try discriminate. intro E. injection E as <-. reflexivity.
    + destruct (rreg zdom s r) as [[| | |]|]; try discriminate. destruct (store zdom s r0 d (Wd lo)) eqn:E1; [|discriminate]. intro E2. apply store_glob in E1, E2. congruence.
    + destruct (load zdom s r d) as [[| | |]|]; try discriminate. destruct (load zdom s r (d + 8)) as [[| | |]|]; try discriminate. intro E. injection E as <-. reflexivity.
Qed.
Lemma safe_ok ok gl f : forall p (s : st zdom), safe ok gl f p = true -> glob s = gl -> illegal ok f p s = false.
Proof.
  induction f as [|f IH]; intros p s H E; [reflexivity|]. destruct p as [|i p]; [reflexivity|]. cbn [illegal safe] in *.
  destruct i; try (apply andb_true_iff in H; destruct H as [H1 H2]; rewrite H1; destruct (step zdom _ s) as [s'|] eqn:Es; [|reflexivity]; apply IH; [exact H2|rewrite <- E; exact (step_glob _ _ _ Es)]).
  rewrite (flag_ok s g), E. destruct (flagOf gl g) as [[]|]; [| |reflexivity]; apply IH; try exact H; exact E.
Qed.
Lemma safe_mono ok ok' gl f : (forall i, ok i = true -> ok' i = true) -> forall p, safe ok gl f p = true -> safe ok' gl f p = true.
Proof.
  intros Hm. induction f as [|f IH]; intros p H; [reflexivity|]. destruct p as [|i p]; [reflexivity|]. cbn [safe] in *.
  destruct i; try (apply andb_true_iff in H; destruct H as [H1 H2]; rewrite (Hm _ H1); apply IH, H2).
  destruct (flagOf gl g) as [[]|]; [| |reflexivity]; apply IH, H.
Qed.

(* ---------- the routines ---------- *)
(* the eight routines of dh/sidh/internal/p434, p503 and p751, arith_amd64.s *)
Definition sidhRoutines (P : pkg) : list (list instr) := [cswapAsm P; addAsm P; subAsm P; adlAsm P; sulAsm P; modAsm P; rdcAsm P; mulAsm P].
(* those of dh/csidh, fp511_amd64.s, that run on every CPU, and with mulBmiAsm behind the test of fp511_amd64.go:47 *)
Definition csidhRoutines (bmi2 adx : bool) : list (list instr) := [mul512Asm; mul576Asm; cswap512Asm] ++ (if bmi2 && adx then [mulBmiAsm] else []).

Lemma sidh_safe : forall P bmi2 adx, forallb (safe (executes bmi2 adx) (sidhGlob P bmi2 adx) maxSteps) (sidhRoutines P) = true.
Proof. intros [] [] []; vm_compute; reflexivity. Qed.
Lemma csidh_safe : forall bmi2 adx, forallb (safe (executes bmi2 adx) (csGlob bmi2) maxSteps) (csidhRoutines bmi2 adx) = true.
Proof. intros [] []; vm_compute; reflexivity. Qed.

(* whatever the registers, arguments and memory are, and however the call ends *)
Theorem C80_sidh : forall P bmi2 adx code (s : st zdom), In code (sidhRoutines P) -> glob s = sidhGlob P bmi2 adx ->
  illegal (executes bmi2 adx) maxSteps code s = false.
Proof.
  intros P bmi2 adx code s Hin Hg. eapply safe_ok; [|exact Hg]. pose proof (sidh_safe P bmi2 adx) as H. rewrite forallb_forall in H. exact (H code Hin).
Qed.
Print Assumptions C80_sidh.

Theorem C80_csidh : forall bmi2 adx code (s : st zdom), In code (csidhRoutines bmi2 adx) -> glob s = csGlob bmi2 ->
  illegal (executes bmi2 adx) maxSteps code s = false.
Proof.
  intros bmi2 adx code s Hin Hg. eapply safe_ok; [|exact Hg]. pose proof (csidh_safe bmi2 adx) as H. rewrite forallb_forall in H. exact (H code Hin).
Qed.
Print Assumptions C80_csidh.

(* the test under which the model of mulRdc (C79) calls mulBmiAsm *)
Theorem C80_fast : forall M (s : st zdom), fast M = true -> glob s = csGlob (aBMI2 M) -> illegal (executes (aBMI2 M) (aADX M)) maxSteps mulBmiAsm s = false.
Proof. intros M s H. apply C80_csidh. unfold csidhRoutines. unfold fast in H. rewrite H. right; right; right; left; reflexivity. Qed.
Print Assumptions C80_fast.

(* with the flags that utils computes at start-up, on every CPU *)
Lemma init_reports cpu : HasBMI2 (init cpu) = reports cpu 8 /\ HasADX (init cpu) = reports cpu 19.
Proof.
  destruct (C59_flags cpu) as [F1 F2]. unfold reports. destruct (Z.leb_spec 7 (rEAX (cpu 0 0))) as [L|L].
  - destruct (F1 L) as (E1 & E2 & _). rewrite E1, E2. auto.
  - rewrite (F2 L). auto.
Qed.
Theorem C80_any_cpu : forall cpu,
  (forall P code (s : st zdom), In code (sidhRoutines P) -> glob s = sidhGlob P (HasBMI2 (init cpu)) (HasADX (init cpu)) -> illegal (cpuHas cpu) maxSteps code s = false) /\
  (forall code (s : st zdom), In code (csidhRoutines (HasBMI2 (init cpu)) (HasADX (init cpu))) -> glob s = csGlob (HasBMI2 (init cpu)) -> illegal (cpuHas cpu) maxSteps code s = false).
Proof.
  intro cpu. destruct (init_reports cpu) as [-> ->]. unfold cpuHas. split; intros; [eapply C80_sidh|eapply C80_csidh]; eassumption.
Qed.
Print Assumptions C80_any_cpu.

(* The tests are needed: without the one in Go mulBmiAsm, and with flags claiming more than the CPU has mul512, every rdc and, but for p751, mul meet such an instruction *)
Definition begin3 (n : nat) (gl : list (list Z)) : st zdom :=
  start zdom Datatypes.tt 0 15 [Pt 1 0; Pt 2 0; Pt 3 0; @Wd zdom 4096] [repeat 1 (2 * n); repeat 1 (2 * n); repeat 1 (2 * n)] gl.
Theorem C80_tests_needed :
  (forall bmi2 adx, bmi2 && adx = false -> illegal (executes bmi2 adx) maxSteps mulBmiAsm (begin3 8 (csGlob bmi2)) = true) /\
  (forall adx, illegal (executes false adx) maxSteps mul512Asm (start zdom Datatypes.tt 0 1 [Pt 1 0; Pt 2 0; @Wd zdom 5] [repeat 1 8; repeat 1 8] (csGlob true)) = true) /\
  (forall P bmi2 adx, bmi2 && adx = false -> illegal (executes bmi2 adx) maxSteps (rdcAsm P) (begin3 (nOf P) (sidhGlob P true true)) = true) /\
  (forall P bmi2 adx, bmi2 && adx = false -> P <> P751 -> illegal (executes bmi2 adx) maxSteps (mulAsm P) (begin3 (nOf P) (sidhGlob P true true)) = true).
Proof.
  split; [|split; [|split]].
  - intros [] [] H; try discriminate; vm_compute; reflexivity.
  - intros []; vm_compute; reflexivity.
  - intros [] [] [] H; try discriminate; vm_compute; reflexivity.
  - intros [] [] [] H N; try discriminate; try (exfalso; apply N; reflexivity); vm_compute; reflexivity.
Qed.
Print Assumptions C80_tests_needed.

(* a CPU with BMI2 and without ADX (Haswell): the flags are as reported and mulP503 takes the MULX path *)
Definition haswell (leaf sub : Z) : cpuRegs :=
  if leaf =? 0 then mkRegs 13 0x756e6547 0x6c65746e 0x49656e69 else if leaf =? 7 then mkRegs 0 0x2fbb 0 0 else mkRegs 0 0 0 0.
Example ex_C80 : HasBMI2 (init haswell) = true /\ HasADX (init haswell) = false /\
  illegal (cpuHas haswell) maxSteps (mulAsm P503) (begin3 8 (sidhGlob P503 true false)) = false /\
  illegal (executes false false) maxSteps (mulAsm P503) (begin3 8 (sidhGlob P503 true false)) = true.
Proof. vm_compute. auto. Qed.
