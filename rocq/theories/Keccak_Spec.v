(* Keccak-p[1600,24] from FIPS 202 section 3, on a list of 25 lanes (lane (x,y) at index x+5y). *)
From Coq Require Import ZArith List.
From Verif Require Import Lib.
Import ListNotations.
Open Scope Z_scope.

Definition lane (A : list Z) (x y : nat) : Z := nth (x mod 5 + 5 * (y mod 5)) A 0.
Definition make (f : nat -> nat -> Z) : list Z := map (fun k => f (k mod 5)%nat (k / 5)%nat) (seq 0 25).

(* moving every bit of a lane z -> z+k mod 64 *)
Definition rol64 (k x : Z) : Z := Z.lor ((x * 2 ^ k) mod 2 ^ 64) (x / 2 ^ (64 - k)).

(* 3.2.1 theta *)
Definition colC (A : list Z) (x : nat) : Z :=
  Z.lxor (Z.lxor (Z.lxor (Z.lxor (lane A x 0) (lane A x 1)) (lane A x 2)) (lane A x 3)) (lane A x 4).
Definition colD (A : list Z) (x : nat) : Z :=
  Z.lxor (colC A ((x + 4) mod 5)) (rol64 1 (colC A ((x + 1) mod 5))).
Definition theta (A : list Z) : list Z := make (fun x y => Z.lxor (lane A x y) (colD A x)).

(* 3.2.2 rho: starting at (1,0), step t moves to (y, 2x+3y) and rotates by (t+1)(t+2)/2 *)
Fixpoint rho_offsets (n : nat) (t : nat) (x y : nat) : list (nat * nat * Z) :=
  match n with
  | O => []
  | S n' => (x, y, (Z.of_nat t + 1) * (Z.of_nat t + 2) / 2 mod 64)
            :: rho_offsets n' (S t) y ((2 * x + 3 * y) mod 5)
  end.
Fixpoint lookup (l : list (nat * nat * Z)) (x y : nat) : option Z :=
  match l with
  | [] => None
  | (x', y', k) :: t => if (Nat.eqb x x' && Nat.eqb y y')%bool then Some k else lookup t x y
  end.
Definition rho (A : list Z) : list Z :=
  make (fun x y => match lookup (rho_offsets 24 0 1 0) x y with
                   | Some k => rol64 k (lane A x y)
                   | None => lane A x y     (* lane (0,0) *)
                   end).

(* 3.2.3 pi *)
Definition pi (A : list Z) : list Z := make (fun x y => lane A ((x + 3 * y) mod 5) x).

(* 3.2.4 chi *)
Definition chi (A : list Z) : list Z :=
  make (fun x y => Z.lxor (lane A x y)
                     (Z.land (Z.lnot (lane A ((x + 1) mod 5) y)) (lane A ((x + 2) mod 5) y))).

(* 3.2.5 iota: rc(t) is the output of an 8-bit LFSR *)
Definition lfsr_step (R : list bool) : list bool :=
  let R9 := false :: R in                 (* R = 0 || R *)
  let b i := nth i R9 false in
  [xorb (b 0%nat) (b 8%nat); b 1%nat; b 2%nat; b 3%nat; xorb (b 4%nat) (b 8%nat);
   xorb (b 5%nat) (b 8%nat); xorb (b 6%nat) (b 8%nat); b 7%nat].
Definition rc_bit (t : nat) : bool :=
  nth 0 (Nat.iter (t mod 255) lfsr_step [true; false; false; false; false; false; false; false]) false.
Definition RC (ir : nat) : Z :=
  fold_left (fun acc j => if rc_bit (j + 7 * ir) then acc + 2 ^ (2 ^ Z.of_nat j - 1) else acc)
            (seq 0 7) 0.
Definition iota (ir : nat) (A : list Z) : list Z :=
  make (fun x y => if (Nat.eqb x 0 && Nat.eqb y 0)%bool then Z.lxor (lane A x y) (RC ir) else lane A x y).

(* 3.3 *)
Definition Rnd (ir : nat) (A : list Z) : list Z := iota ir (chi (pi (rho (theta A)))).
Definition keccak_p (A : list Z) : list Z := fold_left (fun A ir => Rnd ir A) (seq 0 24) A.
