(* Model of drbg/internal/aes/cipher_asm.go: the AES-NI variant of the cipher. *)
From Coq Require Import ZArith List Bool.
From Verif Require Import Lib AES_Model AESNI AESNI_Code.
Import ListNotations.
Open Scope Z_scope.

(* cipher_asm.go:23-26: two arrays of 60 uint32, here as their 240 bytes; the assembly keeps round keys as bytes, not as words *)
Record AESAsm := mkAsm { encA : list Z; decA : list Z }.
(* &aes.AESAsm{} in ctr_drbg.go:39 *)
Definition NewAsm : AESAsm := mkAsm (repeat 0 240) (repeat 0 240).

(* how a call ends: normally, with a Go panic (index out of range), or with an access outside the arrays it was given, after which Go promises nothing;
   [ALoop]: still running when the fuel is spent *)
Inductive ares (A : Type) := AOk (a : A) | APanic | AFault | ALoop.
Arguments AOk {A}. Arguments APanic {A}. Arguments AFault {A}. Arguments ALoop {A}.

(* steps given to a routine; none needs more than 300 *)
Definition fuel : nat := 1000.

(* cipher_asm.go:29-37 *)
Definition roundsOf (n : nat) : Z :=
  match n with 16%nat => 10 | 24%nat => 12 | 32%nat => 14 | _ => 0 end.
(* cipher_asm.go:28-41; &key[0] panics for an empty key; the error is always nil *)
Definition SetKeyAsm (c : AESAsm) (key : list Z) : ares AESAsm :=
  match key with
  | [] => APanic
  | _ =>
    match run expandKeyAsm [Num (roundsOf (length key)); Ptr 0 0; Ptr 1 0; Ptr 2 0] fuel
              (entry [(length key, key); (240%nat, encA c); (240%nat, decA c)]) with
    | Halted s => match mem s with [_; (_, e); (_, d)] => AOk (mkAsm e d) | _ => AFault end
    | Stuck => AFault
    | Running _ => ALoop
    end
  end.

(* cipher_asm.go:55: len(c.enc)/4-1, whatever key was set *)
Definition nrAsm : Z := 60 / 4 - 1.
(* encryptBlockAsm/decryptBlockAsm on a key schedule and the first 16 bytes of dst and src, which are one and the same window when their addresses are equal *)
Definition blockAsm (code : list ins) (xk : list Z) (dst src : slice_t) : ares (list Z) :=
  let same := addr dst =? addr src in
  let m := if same then [(240%nat, xk); (16%nat, firstn 16 (cont src))]
           else [(240%nat, xk); (16%nat, firstn 16 (cont dst)); (16%nat, firstn 16 (cont src))] in
  match run code [Num nrAsm; Ptr 0 0; Ptr 1 0; Ptr (if same then 1 else 2)%nat 0] fuel (entry m) with
  | Halted s => match mem s with _ :: (_, d) :: _ => AOk (blit (cont dst) 0 d) | _ => AFault end
  | Stuck => AFault
  | Running _ => ALoop
  end.
(* cipher_asm.go:45-56, 58-69 *)
Definition blockOpAsm (f : slice_t -> slice_t -> ares (list Z)) (dst src : slice_t) : ares (list Z) + panic :=
  if (length (cont src) <? 16)%nat then inr InputNotFull
  else if (length (cont dst) <? 16)%nat then inr OutputNotFull
  else if InexactOverlap (first16 dst) (first16 src) then inr InvalidOverlap
  else inl (f dst src).
Definition EncryptAsm (c : AESAsm) (dst src : slice_t) : ares (list Z) + panic := blockOpAsm (blockAsm encryptBlockAsm (encA c)) dst src.
Definition DecryptAsm (c : AESAsm) (dst src : slice_t) : ares (list Z) + panic := blockOpAsm (blockAsm decryptBlockAsm (decA c)) dst src.
