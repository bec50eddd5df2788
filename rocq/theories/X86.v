(* The subsets of amd64 and of arm64 used by the assembly field kernels of the repository, in the operand order of the Go
   assembler (source first).  The machine is parametrised by the arithmetic of its words, so that the same
   interpreter runs on integers (the semantics, [zdom]) and on polynomials (the symbolic executor of X86_Sym). *)
From Coq Require Import ZArith List Lia Bool.
From Verif Require Import Lib MP.
Import ListNotations.
Open Scope Z_scope.

Inductive reg : Type := AX | BX | CX | DX | SI | DI | BP | SP | R8 | R9 | R10 | R11 | R12 | R13 | R14 | R15 | X0 | X1 | X2 | X15
| AR (n : nat). (* the arm64 register Rn, n <= 30 *)
Definition rn (r : reg) : nat :=
  match r with
  | AX => 0 | BX => 1 | CX => 2 | DX => 3 | SI => 4 | DI => 5 | BP => 6 | SP => 7
  | R8 => 8 | R9 => 9 | R10 => 10 | R11 => 11 | R12 => 12 | R13 => 13 | R14 => 14 | R15 => 15
  | X0 => 16 | X1 => 17 | X2 => 18 | X15 => 19
  | AR n => 20 + n
  end%nat.
(* operands: register; $z; d(r); name+d(FP); name+d(SB) where g numbers the package variables a program uses *)
Inductive opd : Type := R (r : reg) | Imm (z : Z) | M (r : reg) (d : Z) | A (d : Z) | G (g : nat) (d : Z).
(* arm64; ZR is $0.  MOVD is MOV, LDP and STP are two MOVs (the base register of an LDP is not its first destination). *)
Inductive ainstr : Type :=
| AADD (cin set : bool) (a b : opd) (d : reg)   (* ADDS (false true), ADCS (true true), ADC (true false): d = b + a + carry *)
| ASUB (cin set : bool) (a b : opd) (d : reg)   (* SUB (false false), SUBS, SBCS, SBC: d = b - a - borrow.  NEG a, d is SUB a, ZR, d *)
| AAND (a b : opd) (d : reg)                    (* no flags *)
| AMUL (a b : opd) (d : reg) | AUMULH (a b : opd) (d : reg)  (* the low and the high word of the product *)
| ALSL (k : Z) (d : reg)                        (* LSL $k, d; 0 < k < 64 *)
| AORR (a : reg) (k : Z) (b : opd) (d : reg)    (* ORR a>>k, b, d: d = b | (a >> k); 0 < k < 64 *)
| AMOVB (src : opd) (dst : reg)                 (* MOVB: the low byte, sign extended *)
| ACSEL (eq : bool) (c : reg) (a b : opd) (d : reg).  (* CSEL EQ (true) or NE (false), a, b, d where the flags are those of CMP $0, c *)
Inductive instr : Type :=
| MOV (src dst : opd) | ADD (src dst : opd) | ADC (src dst : opd) | SUB (src dst : opd) | SBB (src dst : opd)
| AND (src dst : opd) | XOR (src dst : opd)
| MUL (src : opd)                      (* DX:AX = AX * src *)
| MULX (src : opd) (lo hi : reg)       (* hi:lo = DX * src, no flags *)
| ADCX (src : opd) (dst : reg) | ADOX (src : opd) (dst : reg)
| NEG (dst : opd)
| BT0 (src : opd)                      (* BTQ $0, src *)
| MOVZXB (src : opd) (dst : reg)       (* MOVBLZX *)
| MOVX (src dst : reg)                 (* MOVQ to an xmm register: the upper half becomes zero *)
| PSHUFD0 (src dst : reg)              (* PSHUFD $0 *)
| MOVOU (src dst : opd)                (* MOVOU, MOVO *)
| PXOR (src dst : reg) | PAND (src dst : reg)
| ARM (i : ainstr)
| JFLAG (g : nat) (target : list instr). (* CMPB g(SB), $1; JE target.  RET ends a program. *)

(* word arithmetic; T is a state the symbolic instance needs *)
Record dom : Type := mkDom {
  W : Type; F : Type; T : Type;
  cst : Z -> W; f0 : F;
  adc : T -> W -> W -> F -> T * W * F;
  sbb : T -> W -> W -> F -> T * W * F;
  mulw : T -> W -> W -> T * W * W;       (* high, low *)
  andw : W -> W -> option W; xorw : W -> W -> option W;
  bt0 : W -> option F; zxb : W -> option W; dup32 : W -> option W; isone : W -> option bool;
  mulS : T -> W -> W -> T * W * W;       (* high, low; arm64 *)
  orS : T -> W -> W -> Z -> option (T * W);  (* orS b a k: b | (a >> k) *)
  sxb : W -> option W; iszero : W -> option bool }.

Section Machine.
Variable D : dom.
(* what a register or memory cell holds: a word, a pointer (block, byte offset), two words (xmm), or something unknown *)
Inductive cell : Type := Wd (w : W D) | Pt (b : nat) (o : Z) | Xm (lo hi : W D) | Un.
(* mem: block 0 is the local frame, the others the arrays passed by pointer, in 64-bit words; glob: the package
   variables.  A flag is None after an instruction that leaves it undefined, or whose effect on it is not modelled. *)
Record st : Type := mkSt {
  regs : list cell; args : list cell; mem : list (list cell); glob : list (list (W D));
  cf : option (F D); ovf : option (F D); tt : T D }.

Definition setl {X} (l : list X) (i : nat) (x : X) : list X := firstn i l ++ x :: skipn (S i) l.
(* word index of a byte offset: aligned accesses only *)
Definition widx (o : Z) : option nat := if (o mod 8 =? 0) && (0 <=? o) then Some (Z.to_nat (o / 8)) else None.
Definition slot {X} (l : list X) (o : Z) : option X := match widx o with Some i => nth_error l i | None => None end.
Definition rreg (s : st) (r : reg) : option cell := nth_error (regs s) (rn r).
Definition load (s : st) (r : reg) (d : Z) : option cell :=
  match rreg s r with
  | Some (Pt b o) => match nth_error (mem s) b with Some l => slot l (o + d) | None => None end
  | _ => None
  end.
Definition rd (s : st) (o : opd) : option cell :=
  match o with
  | R r => rreg s r
  | Imm z => Some (Wd (cst D (z mod B)))
  | M r d => load s r d
  | A d => slot (args s) d
  | G g d => match nth_error (glob s) g with Some l => match slot l d with Some w => Some (Wd w) | None => None end | None => None end
  end.
Definition rdw (s : st) (o : opd) : option (W D) := match rd s o with Some (Wd w) => Some w | _ => None end.
Definition setreg (s : st) (r : reg) (v : cell) : st := mkSt (setl (regs s) (rn r) v) (args s) (mem s) (glob s) (cf s) (ovf s) (tt s).
Definition setfl (s : st) (c o : option (F D)) : st := mkSt (regs s) (args s) (mem s) (glob s) c o (tt s).
Definition sett (s : st) (t : T D) : st := mkSt (regs s) (args s) (mem s) (glob s) (cf s) (ovf s) t.
Definition store (s : st) (r : reg) (d : Z) (v : cell) : option st :=
  match rreg s r with
  | Some (Pt b off) =>
    match nth_error (mem s) b with
    | Some l =>
      match widx (off + d) with
      | Some i => if (i <? length l)%nat then Some (mkSt (regs s) (args s) (setl (mem s) b (setl l i v)) (glob s) (cf s) (ovf s) (tt s)) else None
      | None => None
      end
    | None => None
    end
  | _ => None
  end.
Definition wr (s : st) (o : opd) (v : cell) : option st :=
  match o with
  | R r => Some (setreg s r v)
  | M r d => store s r d v
  | _ => None
  end.
(* dst = dst op src with carry/borrow c *)
Definition arith (op : T D -> W D -> W D -> F D -> T D * W D * F D) (s : st) (src dst : opd) (c : option (F D)) (fl : F D -> option (F D) * option (F D)) : option st :=
  match rdw s src, rdw s dst, c with
  | Some a, Some b, Some c => let '(t, v, c') := op (tt s) b a c in wr (setfl (sett s t) (fst (fl c')) (snd (fl c'))) dst (Wd v)
  | _, _, _ => None
  end.
Definition logic (op : W D -> W D -> option (W D)) (s : st) (src dst : opd) : option st :=
  match rdw s src, rdw s dst with
  | Some a, Some b => match op b a with Some v => wr (setfl s (Some (f0 D)) (Some (f0 D))) dst (Wd v) | None => None end
  | _, _ => None
  end.
Definition xlogic (op : W D -> W D -> option (W D)) (s : st) (src dst : reg) : option st :=
  match rreg s src, rreg s dst with
  | Some (Xm a b), Some (Xm c d) => match op c a, op d b with Some lo, Some hi => Some (setreg s dst (Xm lo hi)) | _, _ => None end
  | _, _ => None
  end.
(* the carry flag of arm64 after an addition is in cf, the borrow (the negated carry flag) after a subtraction in ovf *)
Definition astep (i : ainstr) (s : st) : option st :=
  match i with
  | AADD cin set a b d =>
    match rdw s a, rdw s b, (if cin then cf s else Some (f0 D)) with
    | Some x, Some y, Some c => let '(t, v, c') := adc D (tt s) y x c in
        Some (setreg (setfl (sett s t) (if set then Some c' else cf s) (if set then None else ovf s)) d (Wd v))
    | _, _, _ => None
    end
  | ASUB cin set a b d =>
    match rdw s a, rdw s b, (if cin then ovf s else Some (f0 D)) with
    | Some x, Some y, Some c => let '(t, v, c') := sbb D (tt s) y x c in
        Some (setreg (setfl (sett s t) (if set then None else cf s) (if set then Some c' else ovf s)) d (Wd v))
    | _, _, _ => None
    end
  | AAND a b d =>
    match rdw s a, rdw s b with
    | Some x, Some y => match andw D y x with Some v => Some (setreg s d (Wd v)) | None => None end
    | _, _ => None
    end
  | AMUL a b d =>
    match rdw s a, rdw s b with
    | Some x, Some y => let '(t, h, l) := mulS D (tt s) y x in Some (setreg (sett s t) d (Wd l))
    | _, _ => None
    end
  | AUMULH a b d =>
    match rdw s a, rdw s b with
    | Some x, Some y => let '(t, h, l) := mulS D (tt s) y x in Some (setreg (sett s t) d (Wd h))
    | _, _ => None
    end
  | ALSL k d =>
    match rdw s (R d) with
    | Some x => if (0 <? k) && (k <? 64) then let '(t, h, l) := mulS D (tt s) x (cst D (2 ^ k)) in Some (setreg (sett s t) d (Wd l)) else None
    | None => None
    end
  | AORR a k b d =>
    match rdw s (R a), rdw s b with
    | Some x, Some y =>
      if (0 <? k) && (k <? 64) then match orS D (tt s) y x k with Some (t, v) => Some (setreg (sett s t) d (Wd v)) | None => None end else None
    | _, _ => None
    end
  | AMOVB src dst =>
    match rdw s src with
    | Some a => match sxb D a with Some w => Some (setreg s dst (Wd w)) | None => None end
    | None => None
    end
  | ACSEL eq c a b d =>
    match rdw s (R c) with
    | Some z =>
      match iszero D z with
      | Some t => match rd s (if Bool.eqb t eq then a else b) with Some v => Some (setreg s d v) | None => None end
      | None => None
      end
    | None => None
    end
  end.
(* one instruction other than JFLAG *)
Definition step (i : instr) (s : st) : option st :=
  match i with
  | MOV src dst => match rd s src with Some v => wr s dst v | None => None end
  | ADD src dst => arith (adc D) s src dst (Some (f0 D)) (fun c => (Some c, None))
  | ADC src dst => arith (adc D) s src dst (cf s) (fun c => (Some c, None))
  | SUB src dst => arith (sbb D) s src dst (Some (f0 D)) (fun c => (Some c, None))
  | SBB src dst => arith (sbb D) s src dst (cf s) (fun c => (Some c, None))
  | ADCX src dst => arith (adc D) s src (R dst) (cf s) (fun c => (Some c, ovf s))
  | ADOX src dst => arith (adc D) s src (R dst) (ovf s) (fun c => (cf s, Some c))
  | AND src dst => logic (andw D) s src dst
  | XOR src dst =>
    (* XORQ r, r also clears a register whose content is unknown *)
    match src, dst with
    | R r, R r' => if (rn r =? rn r')%nat then wr (setfl s (Some (f0 D)) (Some (f0 D))) dst (Wd (cst D 0)) else logic (xorw D) s src dst
    | _, _ => logic (xorw D) s src dst
    end
  | MUL src =>
    match rdw s src, rdw s (R AX) with
    | Some a, Some b => let '(t, h, l) := mulw D (tt s) b a in
        Some (setreg (setreg (setfl (sett s t) None None) AX (Wd l)) DX (Wd h))
    | _, _ => None
    end
  | MULX src lo hi =>
    match rdw s src, rdw s (R DX) with
    | Some a, Some b => let '(t, h, l) := mulw D (tt s) b a in
        Some (setreg (setreg (sett s t) lo (Wd l)) hi (Wd h))
    | _, _ => None
    end
  | NEG dst =>
    match rdw s dst with
    | Some b => let '(t, v, c) := sbb D (tt s) (cst D 0) b (f0 D) in wr (setfl (sett s t) (Some c) None) dst (Wd v)
    | None => None
    end
  | BT0 src =>
    match rdw s src with
    | Some a => match bt0 D a with Some c => Some (setfl s (Some c) None) | None => None end
    | None => None
    end
  | MOVZXB src dst =>
    match rdw s src with
    | Some a => match zxb D a with Some w => Some (setreg s dst (Wd w)) | None => None end
    | None => None
    end
  | MOVX src dst => match rdw s (R src) with Some a => Some (setreg s dst (Xm a (cst D 0))) | None => None end
  | PSHUFD0 src dst =>
    match rreg s src with
    | Some (Xm a _) => match dup32 D a with Some w => Some (setreg s dst (Xm w w)) | None => None end
    | _ => None
    end
  | MOVOU src dst =>
    match src, dst with
    | R r, R r' => match rreg s r with Some (Xm a b) => Some (setreg s r' (Xm a b)) | _ => None end
    | M r d, R r' => match load s r d, load s r (d + 8) with Some (Wd a), Some (Wd b) => Some (setreg s r' (Xm a b)) | _, _ => None end
    | R r, M r' d =>
      match rreg s r with
      | Some (Xm a b) => match store s r' d (Wd a) with Some s' => store s' r' (d + 8) (Wd b) | None => None end
      | _ => None
      end
    | _, _ => None
    end
  | PXOR src dst => xlogic (xorw D) s src dst
  | PAND src dst => xlogic (andw D) s src dst
  | ARM i => astep i s
  | JFLAG _ _ => None
  end.
Definition flagSet (s : st) (g : nat) : option bool :=
  match rdw s (G g 0) with Some w => isone D w | None => None end.
(* None: an access outside the arrays, a misaligned one, use of an unknown value or flag *)
Fixpoint run (fuel : nat) (p : list instr) (s : st) : option st :=
  match fuel with
  | O => None
  | S f =>
    match p with
    | [] => Some s
    | JFLAG g target :: p' =>
      match flagSet s g with
      | Some true => run f target (setfl s None None)
      | Some false => run f p' (setfl s None None)
      | None => None
      end
    | i :: p' => match step i s with Some s' => run f p' s' | None => None end
    end
  end.
(* on entry everything in the registers (but SP) and in the local frame of n words is unknown; BP holds the caller's
   frame pointer, here the word bp *)
Definition start (t : T D) (bp : W D) (n : nat) (args : list cell) (blocks glob : list (list (W D))) : st :=
  mkSt (setl (setl (repeat Un 51) (rn SP) (Pt 0 0)) (rn BP) (Wd bp)) args (repeat Un n :: map (map Wd) blocks) glob None None t.
End Machine.
Arguments Wd {D} w. Arguments Pt {D} b o. Arguments Xm {D} lo hi. Arguments Un {D}.
Arguments mkSt {D}. Arguments regs {D}. Arguments args {D}. Arguments mem {D}. Arguments glob {D}. Arguments cf {D}. Arguments ovf {D}. Arguments tt {D}.

(* ---------- the semantics: words are integers in [0, 2^64), flags 0 or 1 ---------- *)
Definition zdom : dom := mkDom Z Z unit (fun z => z) 0
  (fun _ a b c => (Datatypes.tt, fst (Add64 a b c), snd (Add64 a b c)))
  (fun _ a b c => (Datatypes.tt, fst (Sub64 a b c), snd (Sub64 a b c)))
  (fun _ a b => (Datatypes.tt, fst (Mul64 a b), snd (Mul64 a b)))
  (fun a b => Some (Z.land a b)) (fun a b => Some (Z.lxor a b))
  (fun a => Some (a mod 2)) (fun a => Some (a mod 256)) (fun a => Some (a mod 2 ^ 32 + 2 ^ 32 * (a mod 2 ^ 32)))
  (fun a => Some (a mod 256 =? 1))
  (fun _ a b => (Datatypes.tt, fst (Mul64 a b), snd (Mul64 a b)))
  (fun _ b a k => Some (Datatypes.tt, Z.lor b (Z.shiftr a k)))
  (fun a => Some (if a mod 256 <? 128 then a mod 256 else B - 256 + a mod 256)) (fun a => Some (a =? 0)).
Fixpoint wordsOf (l : list (cell zdom)) : option (list Z) :=
  match l with
  | [] => Some []
  | Wd w :: l' => match wordsOf l' with Some r => Some (w :: r) | None => None end
  | _ => None
  end.
Fixpoint blocksOf (l : list (list (cell zdom))) : option (list (list Z)) :=
  match l with
  | [] => Some []
  | b :: l' => match wordsOf b, blocksOf l' with Some w, Some r => Some (w :: r) | _, _ => None end
  end.
(* longer than any of the programs *)
Definition maxSteps : nat := 2000.
(* a call: the arrays and BP afterwards *)
Definition call (n : nat) (code : list instr) (args : list (cell zdom)) (blocks glob : list (list Z)) (bp : Z) : option (list (list Z) * Z) :=
  match run zdom maxSteps code (start zdom Datatypes.tt bp n args blocks glob) with
  | Some s =>
    match blocksOf (tl (mem s)), rreg zdom s BP with
    | Some bl, Some (Wd v) => Some (bl, v)
    | _, _ => None
    end
  | None => None
  end.
