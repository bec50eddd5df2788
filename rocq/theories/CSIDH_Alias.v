(* In-place use of the CSIDH field functions.  CSIDH_Field.v models a call f(r, x, y) as a
   function of the values of x and y.  Here the same Go text is executed against a memory of
   limbs, where the pointers r, x, y may denote the same object: every assignment r[i] = v
   updates the memory at once and later reads see it.  The lemmas show that, whatever pointers
   coincide, the object r ends up holding the functional result and nothing else changes. *)
From Coq Require Import ZArith List Lia Bool.
From Verif Require Import Lib MP CSIDH_Field CSIDH_FieldProofs.
Import ListNotations.
Open Scope Z_scope.

(* memory: object identity -> limb index -> value *)
Definition mem : Type := nat -> nat -> Z.
Definition rd (m : mem) (x i : nat) : Z := m x i.
Definition wr (m : mem) (r i : nat) (v : Z) : mem :=
  fun l j => if andb (Nat.eqb l r) (Nat.eqb j i) then v else m l j.
Definition obj (m : mem) (x : nat) : list Z := map (rd m x) (seq 0 8).
(* m' is m with object r replaced by the limbs w *)
Definition stored (m : mem) (r : nat) (w : list Z) (m' : mem) : Prop :=
  obj m' r = w /\ forall l i, l <> r -> rd m' l i = rd m l i.

(* mul512, fp511_generic.go:10-41 *)
Definition mul512_mem (r m1 : nat) (m2 : Z) (m : mem) : mem :=
  let '(c, v) := Mul64 m2 (rd m m1 0) in let m := wr m r 0 v in
  let '(h, l) := Mul64 m2 (rd m m1 1) in
  let '(v, c) := Add64 l c 0 in let m := wr m r 1 v in
  let c := add64w h c in
  let '(h, l) := Mul64 m2 (rd m m1 2) in
  let '(v, c) := Add64 l c 0 in let m := wr m r 2 v in
  let c := add64w h c in
  let '(h, l) := Mul64 m2 (rd m m1 3) in
  let '(v, c) := Add64 l c 0 in let m := wr m r 3 v in
  let c := add64w h c in
  let '(h, l) := Mul64 m2 (rd m m1 4) in
  let '(v, c) := Add64 l c 0 in let m := wr m r 4 v in
  let c := add64w h c in
  let '(h, l) := Mul64 m2 (rd m m1 5) in
  let '(v, c) := Add64 l c 0 in let m := wr m r 5 v in
  let c := add64w h c in
  let '(h, l) := Mul64 m2 (rd m m1 6) in
  let '(v, c) := Add64 l c 0 in let m := wr m r 6 v in
  let c := add64w h c in
  let '(_, l) := Mul64 m2 (rd m m1 7) in
  let '(v, _) := Add64 l c 0 in let m := wr m r 7 v in
  m.

(* addRdc, the sum, fp511.go:114-123 *)
Definition add512_mem (r x y : nat) (m : mem) : mem :=
  let '(v, c) := Add64 (rd m x 0) (rd m y 0) 0 in let m := wr m r 0 v in
  let '(v, c) := Add64 (rd m x 1) (rd m y 1) c in let m := wr m r 1 v in
  let '(v, c) := Add64 (rd m x 2) (rd m y 2) c in let m := wr m r 2 v in
  let '(v, c) := Add64 (rd m x 3) (rd m y 3) c in let m := wr m r 3 v in
  let '(v, c) := Add64 (rd m x 4) (rd m y 4) c in let m := wr m r 4 v in
  let '(v, c) := Add64 (rd m x 5) (rd m y 5) c in let m := wr m r 5 v in
  let '(v, c) := Add64 (rd m x 6) (rd m y 6) c in let m := wr m r 6 v in
  let '(v, _) := Add64 (rd m x 7) (rd m y 7) c in let m := wr m r 7 v in
  m.

(* sub512, fp511.go:146-157 *)
Definition sub512_mem (r x y : nat) (m : mem) : mem * Z :=
  let '(v, c) := Sub64 (rd m x 0) (rd m y 0) 0 in let m := wr m r 0 v in
  let '(v, c) := Sub64 (rd m x 1) (rd m y 1) c in let m := wr m r 1 v in
  let '(v, c) := Sub64 (rd m x 2) (rd m y 2) c in let m := wr m r 2 v in
  let '(v, c) := Sub64 (rd m x 3) (rd m y 3) c in let m := wr m r 3 v in
  let '(v, c) := Sub64 (rd m x 4) (rd m y 4) c in let m := wr m r 4 v in
  let '(v, c) := Sub64 (rd m x 5) (rd m y 5) c in let m := wr m r 5 v in
  let '(v, c) := Sub64 (rd m x 6) (rd m y 6) c in let m := wr m r 6 v in
  let '(v, c) := Sub64 (rd m x 7) (rd m y 7) c in let m := wr m r 7 v in
  (m, c).

(* subRdc, fp511.go:160-184 *)
Definition subRdc_mem (r x y : nat) (m : mem) : mem :=
  let '(v, c) := Sub64 (rd m x 0) (rd m y 0) 0 in let m := wr m r 0 v in
  let '(v, c) := Sub64 (rd m x 1) (rd m y 1) c in let m := wr m r 1 v in
  let '(v, c) := Sub64 (rd m x 2) (rd m y 2) c in let m := wr m r 2 v in
  let '(v, c) := Sub64 (rd m x 3) (rd m y 3) c in let m := wr m r 3 v in
  let '(v, c) := Sub64 (rd m x 4) (rd m y 4) c in let m := wr m r 4 v in
  let '(v, c) := Sub64 (rd m x 5) (rd m y 5) c in let m := wr m r 5 v in
  let '(v, c) := Sub64 (rd m x 6) (rd m y 6) c in let m := wr m r 6 v in
  let '(v, c) := Sub64 (rd m x 7) (rd m y 7) c in let m := wr m r 7 v in
  let w := sub64w 0 c in
  let '(v, c) := Add64 (rd m r 0) (ctPick64 w p.[0] 0) 0 in let m := wr m r 0 v in
  let '(v, c) := Add64 (rd m r 1) (ctPick64 w p.[1] 0) c in let m := wr m r 1 v in
  let '(v, c) := Add64 (rd m r 2) (ctPick64 w p.[2] 0) c in let m := wr m r 2 v in
  let '(v, c) := Add64 (rd m r 3) (ctPick64 w p.[3] 0) c in let m := wr m r 3 v in
  let '(v, c) := Add64 (rd m r 4) (ctPick64 w p.[4] 0) c in let m := wr m r 4 v in
  let '(v, c) := Add64 (rd m r 5) (ctPick64 w p.[5] 0) c in let m := wr m r 5 v in
  let '(v, c) := Add64 (rd m r 6) (ctPick64 w p.[6] 0) c in let m := wr m r 6 v in
  let '(v, _) := Add64 (rd m r 7) (ctPick64 w p.[7] 0) c in let m := wr m r 7 v in
  m.

(* the tail of mulRdc, fp511_generic.go:104-122 *)
Definition reduce_mem (r : nat) (m : mem) : mem :=
  let '(t0, c) := Sub64 (rd m r 0) p.[0] 0 in
  let '(t1, c) := Sub64 (rd m r 1) p.[1] c in
  let '(t2, c) := Sub64 (rd m r 2) p.[2] c in
  let '(t3, c) := Sub64 (rd m r 3) p.[3] c in
  let '(t4, c) := Sub64 (rd m r 4) p.[4] c in
  let '(t5, c) := Sub64 (rd m r 5) p.[5] c in
  let '(t6, c) := Sub64 (rd m r 6) p.[6] c in
  let '(t7, c) := Sub64 (rd m r 7) p.[7] c in
  let w := sub64w 0 c in
  let v := (ctPick64 w (rd m r 0) t0) in let m := wr m r 0 v in
  let v := (ctPick64 w (rd m r 1) t1) in let m := wr m r 1 v in
  let v := (ctPick64 w (rd m r 2) t2) in let m := wr m r 2 v in
  let v := (ctPick64 w (rd m r 3) t3) in let m := wr m r 3 v in
  let v := (ctPick64 w (rd m r 4) t4) in let m := wr m r 4 v in
  let v := (ctPick64 w (rd m r 5) t5) in let m := wr m r 5 v in
  let v := (ctPick64 w (rd m r 6) t6) in let m := wr m r 6 v in
  let v := (ctPick64 w (rd m r 7) t7) in let m := wr m r 7 v in
  m.

(* addRdc, fp511.go:113-143; lines 125-142 have the same text as reduce_mem *)
Definition addRdc_mem (r x y : nat) (m : mem) : mem := reduce_mem r (add512_mem r x y m).

(* mulRdc, fp511_generic.go:98-123: mulGeneric reads x and y only before it writes r *)
Definition mulGeneric_mem (r x y : nat) (m : mem) : mem :=
  let w := mulGeneric (obj m x) (obj m y) in
  let m := wr m r 0 w.[0] in let m := wr m r 1 w.[1] in let m := wr m r 2 w.[2] in
  let m := wr m r 3 w.[3] in let m := wr m r 4 w.[4] in let m := wr m r 5 w.[5] in
  let m := wr m r 6 w.[6] in let m := wr m r 7 w.[7] in
  m.
Definition mulRdc_mem (r x y : nat) (m : mem) : mem := reduce_mem r (mulGeneric_mem r x y m).

Lemma rd_ne : forall m r i v x j, j <> i -> rd (wr m r i v) x j = rd m x j.
Proof. intros. unfold rd, wr. destruct (Nat.eqb_spec j i); [contradiction|]. rewrite andb_false_r. reflexivity. Qed.
Lemma rd_eq : forall m r i v, rd (wr m r i v) r i = v.
Proof. intros. unfold rd, wr. rewrite !Nat.eqb_refl. reflexivity. Qed.
Lemma rd_other : forall m r i v x j, x <> r -> rd (wr m r i v) x j = rd m x j.
Proof. intros. unfold rd, wr. destruct (Nat.eqb_spec x r); [contradiction|]. reflexivity. Qed.
Lemma obj_nth : forall m x, obj m x = [rd m x 0; rd m x 1; rd m x 2; rd m x 3; rd m x 4; rd m x 5; rd m x 6; rd m x 7]%nat.
Proof. reflexivity. Qed.

Ltac look := repeat first [rewrite rd_eq | rewrite rd_ne by discriminate].
Ltac step := look; match goal with |- context [let '(_, _) := ?e in _] => destruct e end; cbv beta iota zeta.
Ltac fin := split; [rewrite obj_nth; look; reflexivity | intros; rewrite !rd_other by assumption; reflexivity].
Ltac run := repeat step; fin.

Lemma mul512_alias : forall r x k m, stored m r (mul512 (obj m x) k) (mul512_mem r x k m).
Proof.
  intros. rewrite obj_nth. unfold mul512, mul512_mem. cbn [nth]. cbv zeta. run.
Qed.

Lemma sub512_alias : forall r x y m,
  stored m r (fst (sub512 (obj m x) (obj m y))) (fst (sub512_mem r x y m)) /\
  snd (sub512 (obj m x) (obj m y)) = snd (sub512_mem r x y m).
Proof.
  intros. rewrite !obj_nth. unfold sub512, sub512_mem. cbn [nth]. cbv zeta. repeat step.
  cbn [fst snd]. split; [fin | reflexivity].
Qed.

Lemma subRdc_alias : forall r x y m, stored m r (subRdc (obj m x) (obj m y)) (subRdc_mem r x y m).
Proof.
  intros. rewrite !obj_nth. unfold subRdc, subRdc_mem. cbn [nth]. cbv zeta. run.
Qed.

Lemma reduce_alias : forall r m, stored m r (reduceOnce (obj m r)) (reduce_mem r m).
Proof.
  intros. rewrite !obj_nth. unfold reduceOnce, reduce_mem. cbn [nth]. cbv zeta. run.
Qed.

Definition add512 (x y : list Z) : list Z :=
  let '(r0, c) := Add64 x.[0] y.[0] 0 in
  let '(r1, c) := Add64 x.[1] y.[1] c in
  let '(r2, c) := Add64 x.[2] y.[2] c in
  let '(r3, c) := Add64 x.[3] y.[3] c in
  let '(r4, c) := Add64 x.[4] y.[4] c in
  let '(r5, c) := Add64 x.[5] y.[5] c in
  let '(r6, c) := Add64 x.[6] y.[6] c in
  let '(r7, c) := Add64 x.[7] y.[7] c in
  [r0; r1; r2; r3; r4; r5; r6; r7].
Lemma add512_alias : forall r x y m, stored m r (add512 (obj m x) (obj m y)) (add512_mem r x y m).
Proof.
  intros. rewrite !obj_nth. unfold add512, add512_mem. cbn [nth]. cbv zeta. run.
Qed.
Lemma addRdc_split : forall x y, addRdc x y = reduceOnce (add512 x y).
Proof.
  intros. unfold addRdc, add512.
  repeat match goal with |- context [let '(_, _) := ?e in _] => destruct e end. reflexivity.
Qed.
Lemma addRdc_alias : forall r x y m, stored m r (addRdc (obj m x) (obj m y)) (addRdc_mem r x y m).
Proof.
  intros r x y m. rewrite addRdc_split. unfold addRdc_mem.
  destruct (add512_alias r x y m) as [E1 O1].
  destruct (reduce_alias r (add512_mem r x y m)) as [E2 O2].
  split; [rewrite E2, E1; reflexivity|]. intros l i H. rewrite O2, O1 by exact H. reflexivity.
Qed.

Lemma mulGeneric_alias : forall r x y m, fp_ok (obj m x) -> fp_ok (obj m y) -> val (obj m y) <= P ->
  stored m r (mulGeneric (obj m x) (obj m y)) (mulGeneric_mem r x y m).
Proof.
  intros r x y m Hx Hy By. unfold mulGeneric_mem. cbv zeta.
  destruct (mulGeneric_ok _ _ Hx Hy By) as (F & _). destruct (fp_ok_ex _ F) as (a0 & a1 & a2 & a3 & a4 & a5 & a6 & a7 & E & _).
  rewrite E. cbn [nth]. fin.
Qed.

Lemma mulRdc_alias : forall r x y m, fp_ok (obj m x) -> fp_ok (obj m y) -> val (obj m y) <= P ->
  stored m r (mulRdc (obj m x) (obj m y)) (mulRdc_mem r x y m).
Proof.
  intros r x y m Hx Hy By. unfold mulRdc, mulRdc_mem.
  destruct (mulGeneric_alias r x y m Hx Hy By) as [E1 O1].
  destruct (reduce_alias r (mulGeneric_mem r x y m)) as [E2 O2].
  split; [rewrite E2, E1; reflexivity|]. intros l i H. rewrite O2, O1 by exact H. reflexivity.
Qed.
