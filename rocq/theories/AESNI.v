(* The part of an amd64 CPU that drbg/internal/aes/asm_amd64.s uses: four general registers, eight SSE registers, byte arrays.
   Instruction semantics after the Intel SDM, vol. 2; a 128-bit register is the list of its 16 bytes, lowest first, which is also the
   order of the AES state in FIPS-197.  A general register holds a number or a pointer (array, offset).  None = the machine is
   stuck: an access outside the arrays, a register read before it is set, an address used as a number. *)
From Coq Require Import ZArith List Bool.
From Verif Require Import Lib AES_Spec.
Import ListNotations.
Open Scope Z_scope.

Inductive gpr := AX | BX | CX | DX.
Definition gi (r : gpr) : nat := match r with AX => 0 | BX => 1 | CX => 2 | DX => 3 end.
Inductive gval := Undef | Num (z : Z) | Ptr (a : nat) (off : Z).

Inductive ins :=
| LdArg (n : nat) (r : gpr)                (* MOVQ arg+8n(FP), r *)
| LdU (off : Z) (r : gpr) (x : nat)        (* MOVUPS off(r), x *)
| StU (x : nat) (off : Z) (r : gpr)        (* MOVUPS x, off(r) *)
| LdQ (off : Z) (r : gpr) (x : nat)        (* MOVQ off(r), x: low half, the high half becomes zero *)
| MovX (x y : nat)                         (* MOVAPS x, y *)
| Pxor (x y : nat)                         (* y ^= x *)
| AesEnc (x y : nat) | AesEncLast (x y : nat) | AesDec (x y : nat) | AesDecLast (x y : nat)   (* key x, state y *)
| AesImc (x y : nat)
| KeyGenAssist (rcon : Z) (x y : nat)
| Pshufd (imm : Z) (x y : nat) | Shufps (imm : Z) (x y : nat)
| Pslldq (k : Z) (y : nat)
| AddQ (k : Z) (r : gpr) | SubQ (k : Z) (r : gpr) | DecQ (r : gpr)
| CmpL (r : gpr) (k : Z)
| Je (l : nat) | Jb (l : nat) | Jnz (l : nat) | Jmp (l : nat) | Call (l : nat) | Ret.

(* ----- SSE operations ----- *)
Definition dword (x : list Z) (i : nat) : list Z := slice x (4 * i) 4.
Definition sel (imm : Z) (i : nat) : nat := Z.to_nat ((imm / 4 ^ Z.of_nat i) mod 4).
(* PSHUFD: four dwords of x chosen by the two-bit fields *)
Definition pshufd (imm : Z) (x : list Z) : list Z :=
  dword x (sel imm 0) ++ dword x (sel imm 1) ++ dword x (sel imm 2) ++ dword x (sel imm 3).
(* SHUFPS: the low two dwords from the destination y, the high two from x *)
Definition shufps (imm : Z) (x y : list Z) : list Z :=
  dword y (sel imm 0) ++ dword y (sel imm 1) ++ dword x (sel imm 2) ++ dword x (sel imm 3).
(* PSLLDQ: shift left by k bytes *)
Definition pslldq (k : Z) (y : list Z) : list Z := firstn 16 (repeat 0 (Z.to_nat k) ++ y).
(* AESENC: ShiftRows, SubBytes, MixColumns, xor the round key *)
Definition aesenc (k s : list Z) : list Z := xor_list (MixColumns (SubBytes (ShiftRows s))) k.
Definition aesenclast (k s : list Z) : list Z := xor_list (SubBytes (ShiftRows s)) k.
(* AESDEC: the round of the equivalent inverse cipher *)
Definition aesdec (k s : list Z) : list Z := xor_list (InvMixColumns (InvSubBytes (InvShiftRows s))) k.
Definition aesdeclast (k s : list Z) : list Z := xor_list (InvSubBytes (InvShiftRows s)) k.
(* AESKEYGENASSIST: RotWord moves the lowest byte to the top, rcon goes into the lowest byte *)
Definition keygenassist (rcon : Z) (x : list Z) : list Z :=
  let s1 := SubWord (dword x 1) in let s3 := SubWord (dword x 3) in
  let rc := [rcon; 0; 0; 0] in
  s1 ++ xor_list (RotWord s1) rc ++ s3 ++ xor_list (RotWord s3) rc.

(* ----- machine ----- *)
(* an array: its length and its contents *)
Definition arr : Type := (nat * list Z)%type.
Record st := mkS { pc : nat; stk : list nat; gr : list gval; xr : list (option (list Z)); zf : option bool; cf : option bool; mem : list arr }.

Fixpoint put {A} (l : list A) (i : nat) (v : A) : list A :=
  match l, i with
  | [], _ => []
  | _ :: l', O => v :: l'
  | a :: l', S i' => a :: put l' i' v
  end.
Definition getg (s : st) (r : gpr) : gval := nth (gi r) (gr s) Undef.
Definition getx (s : st) (x : nat) : option (list Z) := nth x (xr s) None.
Definition load (m : list arr) (a : nat) (off : Z) (n : nat) : option (list Z) :=
  match nth_error m a with
  | Some (len, d) => if (0 <=? off) && (off + Z.of_nat n <=? Z.of_nat len) then Some (slice d (Z.to_nat off) n) else None
  | None => None
  end.
Definition store (m : list arr) (a : nat) (off : Z) (v : list Z) : option (list arr) :=
  match nth_error m a with
  | Some (len, d) => if (0 <=? off) && (off + 16 <=? Z.of_nat len) then Some (put m a (len, blit d (Z.to_nat off) v)) else None
  | None => None
  end.

Definition next (s : st) : st := mkS (S (pc s)) (stk s) (gr s) (xr s) (zf s) (cf s) (mem s).
Definition goto (l : nat) (s : st) : st := mkS l (stk s) (gr s) (xr s) (zf s) (cf s) (mem s).
Definition setg (r : gpr) (v : gval) (s : st) : st := mkS (pc s) (stk s) (put (gr s) (gi r) v) (xr s) (zf s) (cf s) (mem s).
Definition setx (x : nat) (v : list Z) (s : st) : st := mkS (pc s) (stk s) (gr s) (put (xr s) x (Some v)) (zf s) (cf s) (mem s).
Definition setm (m : list arr) (s : st) : st := mkS (pc s) (stk s) (gr s) (xr s) (zf s) (cf s) m.
Definition setf (z c : option bool) (s : st) : st := mkS (pc s) (stk s) (gr s) (xr s) z c (mem s).

(* one operand to the other *)
Definition x2 (f : list Z -> list Z -> list Z) (x y : nat) (s : st) : option st :=
  match getx s x, getx s y with Some u, Some v => Some (setx y (f u v) s) | _, _ => None end.
Definition x1 (f : list Z -> list Z) (x y : nat) (s : st) : option st :=
  match getx s x with Some u => Some (setx y (f u) s) | None => None end.
Definition w64 (z : Z) : Z := z mod 2 ^ 64.

(* what an instruction does besides moving to the next one; jumps set the pc themselves *)
Inductive res := Next (s : st) | Goto (s : st) | Done (s : st) | Fail.
Definition lift (o : option st) : res := match o with Some s => Next s | None => Fail end.
Definition jump (c : option bool) (l : nat) (s : st) : res :=
  match c with Some true => Goto (goto l s) | Some false => Next s | None => Fail end.
Definition exec (args : list gval) (i : ins) (s : st) : res :=
  match i with
  | LdArg n r => match nth_error args n with Some v => Next (setg r v s) | None => Fail end
  | LdU off r x => match getg s r with
                   | Ptr a o => match load (mem s) a (o + off) 16 with Some v => Next (setx x v s) | None => Fail end
                   | _ => Fail
                   end
  | LdQ off r x => match getg s r with
                   | Ptr a o => match load (mem s) a (o + off) 8 with Some v => Next (setx x (v ++ repeat 0 8) s) | None => Fail end
                   | _ => Fail
                   end
  | StU x off r => match getg s r, getx s x with
                   | Ptr a o, Some v => match store (mem s) a (o + off) v with Some m => Next (setm m s) | None => Fail end
                   | _, _ => Fail
                   end
  | MovX x y => lift (x1 (fun u => u) x y s)
  | Pxor x y => if Nat.eqb x y then Next (setx y (repeat 0 16) s) else lift (x2 (fun u v => xor_list v u) x y s)
  | AesEnc x y => lift (x2 aesenc x y s)
  | AesEncLast x y => lift (x2 aesenclast x y s)
  | AesDec x y => lift (x2 aesdec x y s)
  | AesDecLast x y => lift (x2 aesdeclast x y s)
  | AesImc x y => lift (x1 InvMixColumns x y s)
  | KeyGenAssist rc x y => lift (x1 (keygenassist rc) x y s)
  | Pshufd imm x y => lift (x1 (pshufd imm) x y s)
  | Shufps imm x y => lift (x2 (shufps imm) x y s)
  | Pslldq k y => lift (x1 (pslldq k) y y s)
  (* the flags after address arithmetic are never used: they become undefined *)
  | AddQ k r => match getg s r with
                | Ptr a o => Next (setf None None (setg r (Ptr a (o + k)) s))
                | Num z => Next (setf (Some (w64 (z + k) =? 0)) (Some (2 ^ 64 <=? z + k)) (setg r (Num (w64 (z + k))) s))
                | Undef => Fail
                end
  | SubQ k r => match getg s r with
                | Ptr a o => Next (setf None None (setg r (Ptr a (o - k)) s))
                | Num z => Next (setf (Some (w64 (z - k) =? 0)) (Some (z <? k)) (setg r (Num (w64 (z - k))) s))
                | Undef => Fail
                end
  (* DECQ leaves the carry flag alone *)
  | DecQ r => match getg s r with Num z => Next (setf (Some (w64 (z - 1) =? 0)) (cf s) (setg r (Num (w64 (z - 1))) s)) | _ => Fail end
  (* CMPL compares the low 32 bits *)
  | CmpL r k => match getg s r with Num z => Next (setf (Some (z mod 2 ^ 32 =? k)) (Some (z mod 2 ^ 32 <? k)) s) | _ => Fail end
  | Je l => jump (zf s) l s
  | Jb l => jump (cf s) l s
  | Jnz l => jump (option_map negb (zf s)) l s
  | Jmp l => Goto (goto l s)
  | Call l => Goto (mkS l (S (pc s) :: stk s) (gr s) (xr s) (zf s) (cf s) (mem s))
  | Ret => match stk s with
           | [] => Done s
           | r :: k => Goto (mkS r k (gr s) (xr s) (zf s) (cf s) (mem s))
           end
  end.

(* None: still running after n steps *)
Inductive outcome := Running (s : st) | Halted (s : st) | Stuck.
Fixpoint run (code : list ins) (args : list gval) (n : nat) (s : st) : outcome :=
  match n with
  | O => Running s
  | S n' => match nth_error code (pc s) with
            | None => Stuck
            | Some i => match exec args i s with
                        | Next s' => run code args n' (next s')
                        | Goto s' => run code args n' s'
                        | Done s' => Halted s'
                        | Fail => Stuck
                        end
            end
  end.
Definition entry (m : list arr) : st := mkS 0 [] (repeat Undef 4) (repeat None 8) None None m.
