(* drbg/ctr_drbg.go on a CPU that may lack AES-NI: the machine of AESNI.v with the invalid-opcode exception, and the choice NewCtrDrbg makes. *)
From Coq Require Import ZArith List Bool.
From Verif Require Import Lib AES_Model AESNI AESNI_Code AESNI_Model DRBG_Model DRBG_AsmModel CPU_Model.
Import ListNotations.
Open Scope Z_scope.

(* the instructions of AESNI.v that belong to AES-NI (Intel SDM, vol. 1, 12.13); the others are SSE2 or older, which amd64 always has *)
Definition isAES (i : ins) : bool :=
  match i with AesEnc _ _ | AesEncLast _ _ | AesDec _ _ | AesDecLast _ _ | AesImc _ _ | KeyGenAssist _ _ _ => true | _ => false end.
(* CPUID leaf 1: AES-NI is bit 25 of ECX (Intel SDM, vol. 2A) *)
Definition hasAESNI (cpu : Z -> Z -> cpuRegs) : bool := Z.testbit (rECX (cpu 1 0)) 25.
(* [run] of AESNI.v; None = #UD, on which the process ends *)
Fixpoint runOn (aes : bool) (code : list ins) (args : list gval) (n : nat) (s : st) : option outcome :=
  match n with
  | O => Some (Running s)
  | S n' => match nth_error code (pc s) with
            | None => Some Stuck
            | Some i => if isAES i && negb aes then None
                        else match exec args i s with
                             | Next s' => runOn aes code args n' (next s')
                             | Goto s' => runOn aes code args n' s'
                             | AESNI.Done s' => Some (Halted s')
                             | Fail => Some Stuck
                             end
            end
  end.
(* cipher_asm.go:28-41; None = #UD *)
Definition SetKeyOn (aes : bool) (c : AESAsm) (key : list Z) : option (ares AESAsm) :=
  match key with
  | [] => Some APanic
  | _ =>
    match runOn aes expandKeyAsm [Num (roundsOf (length key)); Ptr 0 0; Ptr 1 0; Ptr 2 0] fuel
              (entry [(length key, key); (240%nat, encA c); (240%nat, decA c)]) with
    | None => None
    | Some (Halted s) => Some (match mem s with [_; (_, e); (_, d)] => AOk (mkAsm e d) | _ => AFault end)
    | Some Stuck => Some AFault
    | Some (Running _) => Some ALoop
    end
  end.
(* cipher_asm.go:45-69, the call of the assembly; None = #UD *)
Definition blockOn (aes : bool) (code : list ins) (xk : list Z) (dst src : slice_t) : option (ares (list Z)) :=
  let same := addr dst =? addr src in
  let m := if same then [(240%nat, xk); (16%nat, firstn 16 (cont src))]
           else [(240%nat, xk); (16%nat, firstn 16 (cont dst)); (16%nat, firstn 16 (cont src))] in
  match runOn aes code [Num nrAsm; Ptr 0 0; Ptr 1 0; Ptr (if same then 1 else 2)%nat 0] fuel (entry m) with
  | None => None
  | Some (Halted s) => Some (match mem s with _ :: (_, d) :: _ => AOk (blit (cont dst) 0 d) | _ => AFault end)
  | Some Stuck => Some AFault
  | Some (Running _) => Some ALoop
  end.

(* ctr_drbg.go:37-42 *)
Inductive gen := Fast (c : CtrDrbgA) | Portable (c : CtrDrbg).
Definition NewOn (cpu : Z -> Z -> cpuRegs) : gen := if HasAES (init cpu) then Fast NewCtrDrbgA else Portable NewCtrDrbg.

(* how a call ends: an invalid opcode, or what DRBG_Model.v and DRBG_AsmModel.v say *)
Inductive ud (A : Type) := UD | Ret (a : A).
Arguments UD {A}. Arguments Ret {A}.
(* ctr_drbg.go:55-86: the key schedule is the first thing computed; should it run, the rest needs nothing else of the CPU *)
Definition InitOn (cpu : Z -> Z -> cpuRegs) (g : gen) (entropy pers : list Z) : ud (option (gen * bool)) :=
  match g with
  | Portable c => Ret (option_map (fun '(c', b) => (Portable c', b)) (Init c entropy pers))
  | Fast c =>
      if Z.of_nat (length entropy) <? strengthA c / 8 then Ret (Some (g, false))
      else match SetKeyOn (hasAESNI cpu) (blockEncA c) (keyA c) with
           | None => UD
           | Some _ => Ret (option_map (fun '(c', b) => (Fast c', b)) (InitA c entropy pers))
           end
  end.
