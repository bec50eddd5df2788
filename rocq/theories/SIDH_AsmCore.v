(* Key generation and the shared secret (core.go) on amd64 and arm64: curve.go and core.go of SIDH_Curve.v over the field calls of SIDH_AsmFp2.v. *)
From Coq Require Import ZArith List Bool.
From Verif Require Import Lib MP Instr SIDH_Consts SIDH_Field SIDH_Curve SIDH_AsmModel SIDH_AsmFp2.
Import ListNotations.
Open Scope Z_scope.

Definition paramsOf (P : pkg) : sidhParams := match P with P434 => params434 | P503 => params503 | P751 => params751 end.

Section Core.
Variables (P : pkg) (K : arch) (bp : Z).
Notation F := (fieldOf P).
Notation Q := (paramsOf P).
(* A field element is an Fp2 variable; None is the result of a call that got stuck.  Each call runs on three variables of its own: by
   SIDH_AsmFp2Proofs.v which variables coincide, the frame address and BP make no difference. *)
Definition z2 : fp2 := (zeroFp F, zeroFp F).
Definition got (r : option (list fp2 * Z)) : option fp2 := match r with Some (m, _) => Some (rd m 0) | None => None end.
Definition op2 (h : nat -> nat -> nat -> list fp2 -> Z -> option (list fp2 * Z)) (x y : option fp2) : option fp2 :=
  match x, y with Some x, Some y => got (h 0 1 2 [z2; x; y] bp)%nat | _, _ => None end.
Definition op1 (h : nat -> nat -> list fp2 -> Z -> option (list fp2 * Z)) (x : option fp2) : option fp2 :=
  match x with Some x => got (h 0 1 [z2; x] bp)%nat | None => None end.
Definition oadd := op2 (aadd P K).
Definition osub := op2 (asub P K).
Definition omul := op2 (amul P K).
Definition osqr := op1 (asqr P K).
Definition oinv := op1 (ainv P K).
(* not used by curve.go *)
Fixpoint opowp (x : option fp2) (k : positive) : option fp2 :=
  match k with xH => x | xO k => let y := opowp x k in omul y y | xI k => let y := opowp x k in omul x (omul y y) end.
Definition oswap (x y : option fp2) (choice : Z) : option fp2 * option fp2 :=
  match x, y with
  | Some x, Some y => match acswap1 P K 0 1 choice [x; y] bp with Some (m, _) => (Some (rd m 0), Some (rd m 1)) | None => (None, None) end
  | _, _ => (None, None)
  end.
Definition asmFops : fops := mkFops (option fp2) oadd osub omul osqr oinv
  (fun x k => match k with Z0 => Some (OneFp2 Q) | Zpos k => opowp x k | Zneg _ => Some z2 end).
Definition asmOps : sops := mkSops asmFops (Some z2) (Some (OneFp2 Q)) (Some (HalfFp2 Q)) (Some (InitA Q)) (Some (InitC Q)) oswap.
Definition asmDom (d : domainParams) : dom (option fp2) := mkDom (Some (AffineP d)) (Some (AffineQ d)) (Some (AffineR d)) (SecretBitLen d) (IsogenyStrategy d).
Definition PublicKeyGenA_a (prv : list Z) : res (list (option fp2)) := PublicKeyGenA asmOps (asmDom (pA Q)) (asmDom (pB Q)) prv.
Definition PublicKeyGenB_a (prv : list Z) : res (list (option fp2)) := PublicKeyGenB asmOps (asmDom (pA Q)) (asmDom (pB Q)) prv.
Definition some3 (x : fp2 * fp2 * fp2) : option fp2 * option fp2 * option fp2 := let '(a, b, c) := x in (Some a, Some b, Some c).
(* the end of DeriveSecretA and DeriveSecretB, core.go:256-257 and 284-285; Ret None is a stuck call *)
Definition secretBytes (ss : list Z) (j : option fp2) : res (option (list Z)) :=
  match op1 (aFromMont P K) j with
  | Some x => bind (Fp2ToBytes ss x (Bytelen Q)) (fun o => Ret (Some o))
  | None => Ret None
  end.
Definition DeriveSecretA_a (ss prv : list Z) (pub : fp2 * fp2 * fp2) : res (option (list Z)) :=
  bind (DeriveJA asmOps (asmDom (pA Q)) prv (some3 pub)) (secretBytes ss).
Definition DeriveSecretB_a (ss prv : list Z) (pub : fp2 * fp2 * fp2) : res (option (list Z)) :=
  bind (DeriveJB asmOps (asmDom (pB Q)) prv (some3 pub)) (secretBytes ss).
End Core.
