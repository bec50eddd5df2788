(* A verified checker for the N+1 primality criterion of NT.v, computing with the standard
   library's primitive 63-bit integers (30-bit limbs, Montgomery form).
   Nothing here is specific to /repo. *)
From Coq Require Import ZArith List Lia Bool Znumtheory Uint63.
From Verif Require Import NT.
Import ListNotations.
Open Scope Z_scope.

Definition W : Z := 2 ^ 30.
Definition mask30 : int := 1073741823%uint63.

Fixpoint val30 (l : list int) : Z :=
  match l with [] => 0 | x :: t => to_Z x + W * val30 t end.
Definition lim (l : list int) : Prop := Forall (fun x => to_Z x < W) l.

(* s + xi*y + q*m, with the carry as last limb *)
Fixpoint row (xi q : int) (s y m : list int) (c : int) : option (list int) :=
  match s, y, m with
  | s0 :: s', y0 :: y', m0 :: m' =>
      let t := (s0 + xi * y0 + q * m0 + c)%uint63 in
      match row xi q s' y' m' (t >> 30)%uint63 with
      | Some r => Some ((t land mask30)%uint63 :: r)
      | None => None
      end
  | [], [], [] => if (c <=? mask30)%uint63 then Some [c] else None
  | _, _, _ => None
  end.

Definition hd0 (l : list int) : int := match l with [] => 0%uint63 | x :: _ => x end.

(* Montgomery product *)
Fixpoint mm_loop (ninv : int) (m x y s : list int) : option (list int) :=
  match x with
  | [] => Some s
  | xi :: x' =>
      let q := (((hd0 s + xi * hd0 y) land mask30) * ninv land mask30)%uint63 in
      match row xi q s y m 0%uint63 with
      | Some (h :: t) => if (h =? 0)%uint63 then mm_loop ninv m x' y t else None
      | _ => None
      end
  end.
Definition mm (ninv : int) (m zero x y : list int) : option (list int) := mm_loop ninv m x y zero.

Fixpoint addl (x y : list int) (c : int) : option (list int) :=
  match x, y with
  | a :: x', b :: y' =>
      let t := (a + b + c)%uint63 in
      match addl x' y' (t >> 30)%uint63 with
      | Some r => Some ((t land mask30)%uint63 :: r)
      | None => None
      end
  | [], [] => if (c =? 0)%uint63 then Some [] else None
  | _, _ => None
  end.
(* x + m - y, with m in limbs that exceed those of y *)
Fixpoint subl (x y m : list int) (c : int) : option (list int) :=
  match x, y, m with
  | a :: x', b :: y', k :: m' =>
      if (b <=? k)%uint63 then
        let t := (a + (k - b) + c)%uint63 in
        match subl x' y' m' (t >> 30)%uint63 with
        | Some r => Some ((t land mask30)%uint63 :: r)
        | None => None
        end
      else None
  | [], [], [] => if (c =? 0)%uint63 then Some [] else None
  | _, _, _ => None
  end.

(* ---------- soundness of the limb operations ---------- *)
Lemma mask30_spec : forall t, to_Z (t land mask30)%uint63 = to_Z t mod W.
Proof.
  intros. rewrite land_spec'. change (to_Z mask30) with (Z.ones 30). apply Z.land_ones. lia.
Qed.
Lemma shift30_spec : forall t, to_Z (t >> 30)%uint63 = to_Z t / W.
Proof. intros. rewrite lsr_spec. reflexivity. Qed.
Lemma W_pos : 0 < W. Proof. reflexivity. Qed.

Lemma row_spec : forall xi q s y m c r, lim s -> lim y -> lim m -> to_Z xi < W -> to_Z q < W -> to_Z c < 2 ^ 33 ->
  row xi q s y m c = Some r ->
  lim r /\ length r = S (length s) /\ length y = length s /\ length m = length s /\
  val30 r = val30 s + to_Z xi * val30 y + to_Z q * val30 m + to_Z c.
Proof.
  intros xi q s. induction s as [|s0 s IH]; intros [|y0 y] [|m0 m] c r Hs Hy Hm Hx Hq Hc E;
    try discriminate.
  - cbn [row] in E. destruct (c <=? mask30)%uint63 eqn:L; [|discriminate]. injection E as <-.
    apply leb_spec in L. change (to_Z mask30) with (W - 1) in L.
    repeat split; try reflexivity. { constructor; [lia|constructor]. } cbn [val30]. lia.
  - cbn [row] in E. cbv zeta in E. set (t := (s0 + xi * y0 + q * m0 + c)%uint63) in *.
    inversion Hs; inversion Hy; inversion Hm; subst.
    assert (Ht : to_Z t = to_Z s0 + to_Z xi * to_Z y0 + to_Z q * to_Z m0 + to_Z c).
    { unfold t. rewrite !add_spec, !mul_spec.
      pose proof (to_Z_bounded s0). pose proof (to_Z_bounded xi). pose proof (to_Z_bounded y0).
      pose proof (to_Z_bounded q). pose proof (to_Z_bounded m0). pose proof (to_Z_bounded c).
      assert (0 <= to_Z xi * to_Z y0 <= (W - 1) * (W - 1)) by (split; [apply Z.mul_nonneg_nonneg; lia|apply Z.mul_le_mono_nonneg; lia]).
      assert (0 <= to_Z q * to_Z m0 <= (W - 1) * (W - 1)) by (split; [apply Z.mul_nonneg_nonneg; lia|apply Z.mul_le_mono_nonneg; lia]).
      change wB with (2 ^ 63) in *. unfold W in *.
      rewrite (Z.mod_small (to_Z xi * to_Z y0)), (Z.mod_small (to_Z q * to_Z m0)) by lia.
      rewrite (Z.mod_small (to_Z s0 + _)) by lia.
      rewrite (Z.mod_small (to_Z s0 + _ + _)) by lia.
      rewrite Z.mod_small by lia. reflexivity. }
    destruct (row xi q s y m (t >> 30)%uint63) as [r'|] eqn:E'; [|discriminate]. injection E as <-.
    apply IH in E'; try assumption.
    + destruct E' as (A1 & A2 & A3 & A4 & A5). cbn [length].
      repeat split; try congruence.
      * constructor; [|assumption]. rewrite mask30_spec. apply Z.mod_pos_bound, W_pos.
      * cbn [val30]. rewrite A5, mask30_spec, shift30_spec.
        pose proof (Z.div_mod (to_Z t) W ltac:(unfold W; lia)). lia.
    + rewrite shift30_spec. apply Z.div_lt_upper_bound; [reflexivity|].
      pose proof (to_Z_bounded t). change wB with (2 ^ 63) in *. unfold W. lia.
Qed.

Lemma mm_loop_spec : forall ninv m x y s r, lim m -> lim x -> lim y -> lim s ->
  mm_loop ninv m x y s = Some r ->
  lim r /\ length r = length s /\
  exists k, val30 r * W ^ Z.of_nat (length x) = val30 s + val30 x * val30 y + k * val30 m.
Proof.
  intros ninv m x. induction x as [|xi x IH]; intros y s r Hm Hx Hy Hs E.
  - injection E as <-. split; [assumption|]. split; [reflexivity|]. exists 0. cbn [length val30].
    change (W ^ Z.of_nat 0) with 1. ring.
  - cbn [mm_loop] in E. inversion Hx; subst.
    set (q := (((hd0 s + xi * hd0 y) land mask30) * ninv land mask30)%uint63) in *.
    destruct (row xi q s y m 0%uint63) as [[|h t]|] eqn:R; try discriminate.
    destruct (h =? 0)%uint63 eqn:H0; [|discriminate]. apply eqb_spec in H0. subst h.
    apply row_spec in R; try assumption.
    + destruct R as (A1 & A2 & A3 & A4 & A5). inversion A1; subst. injection A2 as A2.
      apply IH in E; try assumption. destruct E as (B1 & B2 & k & B3).
      split; [assumption|]. split; [congruence|].
      exists (to_Z q + W * k). cbn [length val30] in *. change (to_Z 0) with 0 in *.
      rewrite Nat2Z.inj_succ, Z.pow_succ_r by lia.
      replace (val30 r * (W * W ^ Z.of_nat (length x))) with (W * (val30 r * W ^ Z.of_nat (length x))) by ring.
      rewrite B3. lia.
    + unfold q. rewrite mask30_spec. apply Z.mod_pos_bound, W_pos.
    + reflexivity.
Qed.

Lemma addl_spec : forall x y c r, lim x -> lim y -> to_Z c < W -> addl x y c = Some r ->
  lim r /\ length r = length x /\ val30 r = val30 x + val30 y + to_Z c.
Proof.
  induction x as [|a x IH]; intros [|b y] c r Hx Hy Hc E; try discriminate.
  - cbn [addl] in E. destruct (c =? 0)%uint63 eqn:L; [|discriminate]. injection E as <-.
    apply eqb_spec in L. subst. repeat split; constructor.
  - cbn [addl] in E. cbv zeta in E. set (t := (a + b + c)%uint63) in *.
    inversion Hx; inversion Hy; subst.
    assert (Ht : to_Z t = to_Z a + to_Z b + to_Z c).
    { unfold t. rewrite !add_spec. pose proof (to_Z_bounded a). pose proof (to_Z_bounded b). pose proof (to_Z_bounded c).
      change wB with (2 ^ 63) in *. unfold W in *. rewrite (Z.mod_small (to_Z a + _)) by lia. rewrite Z.mod_small by lia. reflexivity. }
    destruct (addl x y (t >> 30)%uint63) as [r'|] eqn:E'; [|discriminate]. injection E as <-.
    apply IH in E'; try assumption.
    + destruct E' as (A1 & A2 & A3). cbn [length]. repeat split; try congruence.
      * constructor; [|assumption]. rewrite mask30_spec. apply Z.mod_pos_bound, W_pos.
      * cbn [val30]. rewrite A3, mask30_spec, shift30_spec.
        pose proof (Z.div_mod (to_Z t) W ltac:(unfold W; lia)). lia.
    + rewrite shift30_spec. apply Z.div_lt_upper_bound; [reflexivity|]. unfold W in *. lia.
Qed.

Lemma subl_spec : forall x y m c r, lim x -> to_Z c < W -> Forall (fun k => to_Z k < 2 ^ 32) m -> subl x y m c = Some r ->
  lim r /\ length r = length x /\ val30 r = val30 x + (val30 m - val30 y) + to_Z c.
Proof.
  induction x as [|a x IH]; intros [|b y] [|k m] c r Hx Hc Hm E; try discriminate.
  - cbn [subl] in E. destruct (c =? 0)%uint63 eqn:L; [|discriminate]. injection E as <-.
    apply eqb_spec in L. subst. repeat split; constructor.
  - cbn [subl] in E. destruct (b <=? k)%uint63 eqn:L; [|discriminate]. cbv zeta in E. apply leb_spec in L.
    set (t := (a + (k - b) + c)%uint63) in *.
    inversion Hx; inversion Hm; subst.
    assert (Ht : to_Z t = to_Z a + (to_Z k - to_Z b) + to_Z c).
    { unfold t. rewrite !add_spec, sub_spec. pose proof (to_Z_bounded a). pose proof (to_Z_bounded b). pose proof (to_Z_bounded c).
      pose proof (to_Z_bounded k).
      change wB with (2 ^ 63) in *. unfold W in *.
      rewrite (Z.mod_small (to_Z k - to_Z b)) by lia. rewrite (Z.mod_small (to_Z a + _)) by lia.
      rewrite Z.mod_small by lia. reflexivity. }
    destruct (subl x y m (t >> 30)%uint63) as [r'|] eqn:E'; [|discriminate]. injection E as <-.
    apply IH in E'; try assumption.
    + destruct E' as (A1 & A2 & A3). cbn [length]. repeat split; try congruence.
      * constructor; [|assumption]. rewrite mask30_spec. apply Z.mod_pos_bound, W_pos.
      * cbn [val30]. rewrite A3, mask30_spec, shift30_spec.
        pose proof (Z.div_mod (to_Z t) W ltac:(unfold W; lia)). lia.
    + rewrite shift30_spec. apply Z.div_lt_upper_bound; [reflexivity|]. pose proof (to_Z_bounded b). unfold W in *. lia.
Qed.

(* ---------- the checker ---------- *)
Record ctx := mkctx {
  cN : Z;                 (* the number *)
  cm : list int;          (* its limbs *)
  cninv : int;            (* -N^-1 mod 2^30 *)
  czero : list int;
  cbig : list int;        (* a multiple of N in large limbs *)
  cone : list int         (* 1 in Montgomery form *)
}.

Definition bind {A C : Type} (o : option A) (f : A -> option C) : option C :=
  match o with Some a => f a | None => None end.
Notation "'do' x <- o ; f" := (bind o (fun x => f)) (at level 200, x name, o at level 100, f at level 200).

Definition el : Type := (list int * list int)%type.
Definition cmm (k : ctx) := mm (cninv k) (cm k) (czero k).
Definition csub (k : ctx) (x y : list int) := subl x y (cbig k) 0%uint63.
Definition esq (k : ctx) (x : el) : option el :=
  do a <- addl (fst x) (snd x) 0%uint63;
  do d <- csub k (fst x) (snd x);
  do u <- cmm k d a;
  do t <- cmm k (fst x) (snd x);
  do v <- addl t t 0%uint63;
  Some (u, v).
Definition emul (k : ctx) (x y : el) : option el :=
  do a <- cmm k (fst x) (fst y);
  do b <- cmm k (snd x) (snd y);
  do c <- cmm k (fst x) (snd y);
  do d <- cmm k (snd x) (fst y);
  do u <- csub k a b;
  do v <- addl c d 0%uint63;
  Some (u, v).
Fixpoint epow (k : ctx) (x : el) (e : positive) : option el :=
  match e with
  | xH => Some x
  | xO e' => do r <- epow k x e'; esq k r
  | xI e' => do r <- epow k x e'; do s <- esq k r; emul k s x
  end.

Inductive tree := Leaf (l e : positive) | Node (a b : tree).
Fixpoint tprod (t : tree) : positive :=
  match t with Leaf l _ => l | Node a b => (tprod a * tprod b)%positive end.
Fixpoint leaves (t : tree) : list (Z * Z) :=
  match t with Leaf l e => [(Zpos l, Zpos l ^ Zpos e)] | Node a b => leaves a ++ leaves b end.
Fixpoint walk (k : ctx) (x : el) (t : tree) (acc : list int) : option (list int) :=
  match t with
  | Leaf _ _ => do d <- csub k (fst x) (cone k); cmm k acc d
  | Node a b =>
      do xa <- epow k x (tprod b);
      do xb <- epow k x (tprod a);
      do acc1 <- walk k xa a acc;
      walk k xb b acc1
  end.

Definition limb (l : list int) : bool := forallb (fun x => (x <=? mask30)%uint63) l.
Definition limb32 (l : list int) : bool := forallb (fun x => (x <=? 4294967295)%uint63) l.
Definition isval (k : ctx) (x : list int) (a : Z) : bool :=
  ((val30 x - a * W ^ Z.of_nat (length (cm k))) mod cN k =? 0).

Definition copr_all (l : list Z) : bool :=
  (fix f l := match l with [] => true | x :: t => forallb (fun y => Z.gcd x y =? 1) t && f t end) l.

Definition check (k : ctx) (x : el) (m0 : positive) (t : tree) (w : list int) : bool :=
  let n := length (cm k) in
  (1 <? cN k) && (cN k mod 2 =? 1) && (val30 (cm k) =? cN k) && limb (cm k) &&
  limb (czero k) && (length (czero k) =? n)%nat && (val30 (czero k) =? 0) &&
  limb32 (cbig k) && (length (cbig k) =? n)%nat && (val30 (cbig k) mod cN k =? 0) &&
  limb (cone k) && (length (cone k) =? n)%nat && isval k (cone k) 1 &&
  limb (fst x) && (length (fst x) =? n)%nat && limb (snd x) && (length (snd x) =? n)%nat &&
  limb w && (length w =? n)%nat &&
  (Zpos m0 * Zpos (tprod t) =? cN k + 1) &&
  forallb (fun it => (cN k + 1) mod snd it =? 0) (leaves t) &&
  copr_all (map snd (leaves t)) &&
  (1 <? zprod (map snd (leaves t)) - 1) &&
  (cN k <? (zprod (map snd (leaves t)) - 1) * (zprod (map snd (leaves t)) - 1)) &&
  match (do a <- cmm k (fst x) (fst x); do b <- cmm k (snd x) (snd x); addl a b 0%uint63) with
  | Some nm => isval k nm 1
  | None => false
  end &&
  match epow k x m0 with
  | Some g =>
      match epow k g (tprod t), (do acc <- walk k g t (cone k); cmm k acc w) with
      | Some (u, v), Some r => isval k u 1 && isval k v 0 && isval k r 1
      | _, _ => false
      end
  | None => false
  end.

(* ---------- soundness ---------- *)
Section Sound.
  Variable k : ctx.
  Let N := cN k.
  Let n := length (cm k).
  Let R := W ^ Z.of_nat n.
  Hypothesis HN : 1 < N.
  Hypothesis Hodd : N mod 2 = 1.
  Hypothesis Hm : val30 (cm k) = N.
  Hypothesis Lm : lim (cm k).
  Hypothesis Lz : lim (czero k).
  Hypothesis nz : length (czero k) = n.
  Hypothesis Vz : val30 (czero k) = 0.
  Hypothesis Lb : Forall (fun x => to_Z x < 2 ^ 32) (cbig k).
  Hypothesis Vb : (N | val30 (cbig k)).

  Lemma R_coprime : rel_prime N R.
  Proof.
    assert (H2 : rel_prime 2 N).
    { apply prime_rel_prime; [exact prime_2|]. intros D. apply Z.mod_divide in D; lia. }
    assert (Hp : forall e, rel_prime (2 ^ Z.of_nat e) N).
    { induction e; [apply rel_prime_1|]. rewrite Nat2Z.inj_succ, Z.pow_succ_r by lia.
      apply rel_prime_sym, rel_prime_mult; apply rel_prime_sym; assumption. }
    unfold R, W. rewrite <- Z.pow_mul_r by lia. apply rel_prime_sym.
    replace (30 * Z.of_nat n) with (Z.of_nat (30 * n)) by lia. apply Hp.
  Qed.

  (* x represents the residue a *)
  Definition rep (x : list int) (a : Z) : Prop := lim x /\ length x = n /\ (N | val30 x - a * R).
  Definition erep (x : el) (g : G) : Prop := rep (fst x) (fst g) /\ rep (snd x) (snd g).

  Lemma rep_mm : forall x y r a b, rep x a -> rep y b -> cmm k x y = Some r -> rep r (a * b).
  Proof.
    intros x y r a b (Lx & nx & Dx) (Ly & ny & Dy) E. unfold cmm, mm in E.
    apply mm_loop_spec in E; try assumption. destruct E as (Lr & nr & j & E).
    rewrite nx in E. fold R in E. rewrite Vz, Hm in E.
    split; [assumption|]. split; [congruence|].
    apply Gauss with (b := R); [|exact R_coprime].
    destruct Dx as [c C]. destruct Dy as [d D].
    replace (val30 x) with (c * N + a * R) in E by lia. replace (val30 y) with (d * N + b * R) in E by lia.
    exists (j + c * (d * N + b * R) + a * R * d).
    replace (R * (val30 r - a * b * R)) with (val30 r * R - a * b * R * R) by ring. rewrite E. ring.
  Qed.

  Lemma rep_add : forall x y r a b, rep x a -> rep y b -> addl x y 0%uint63 = Some r -> rep r (a + b).
  Proof.
    intros x y r a b (Lx & nx & [c C]) (Ly & ny & [d D]) E.
    apply addl_spec in E; try assumption; [|reflexivity]. destruct E as (Lr & nr & E).
    split; [assumption|]. split; [congruence|]. change (to_Z 0) with 0 in E.
    exists (c + d). lia.
  Qed.

  Lemma rep_sub : forall x y r a b, rep x a -> rep y b -> csub k x y = Some r -> rep r (a - b).
  Proof.
    intros x y r a b (Lx & nx & [c C]) (Ly & ny & [d D]) E. unfold csub in E.
    apply subl_spec in E; try assumption; [|reflexivity]. destruct E as (Lr & nr & E).
    split; [assumption|]. split; [congruence|]. change (to_Z 0) with 0 in E.
    destruct Vb as [j J]. exists (c - d + j). lia.
  Qed.

  Lemma esq_ok : forall x g r, erep x g -> esq k x = Some r -> erep r (gmul g g).
  Proof.
    intros x g r [Hu Hv] E. unfold esq, bind in E.
    destruct (addl (fst x) (snd x) 0%uint63) as [a|] eqn:E1; [|discriminate].
    destruct (csub k (fst x) (snd x)) as [d|] eqn:E2; [|discriminate].
    destruct (cmm k d a) as [u|] eqn:E3; [|discriminate].
    destruct (cmm k (fst x) (snd x)) as [t|] eqn:E4; [|discriminate].
    destruct (addl t t 0%uint63) as [v|] eqn:E5; [|discriminate]. injection E as <-.
    pose proof (rep_add _ _ _ _ _ Hu Hv E1) as R1. pose proof (rep_sub _ _ _ _ _ Hu Hv E2) as R2.
    pose proof (rep_mm _ _ _ _ _ R2 R1 E3) as R3. pose proof (rep_mm _ _ _ _ _ Hu Hv E4) as R4.
    pose proof (rep_add _ _ _ _ _ R4 R4 E5) as R5.
    split; unfold gmul; cbn [fst snd].
    - replace (fst g * fst g - snd g * snd g) with ((fst g - snd g) * (fst g + snd g)) by ring. exact R3.
    - replace (fst g * snd g + snd g * fst g) with (fst g * snd g + fst g * snd g) by ring. exact R5.
  Qed.

  Lemma emul_ok : forall x y g h r, erep x g -> erep y h -> emul k x y = Some r -> erep r (gmul g h).
  Proof.
    intros x y g h r [Hu Hv] [Hw Hz] E. unfold emul, bind in E.
    destruct (cmm k (fst x) (fst y)) as [a|] eqn:E1; [|discriminate].
    destruct (cmm k (snd x) (snd y)) as [b|] eqn:E2; [|discriminate].
    destruct (cmm k (fst x) (snd y)) as [c|] eqn:E3; [|discriminate].
    destruct (cmm k (snd x) (fst y)) as [d|] eqn:E4; [|discriminate].
    destruct (csub k a b) as [u|] eqn:E5; [|discriminate].
    destruct (addl c d 0%uint63) as [v|] eqn:E6; [|discriminate]. injection E as <-.
    pose proof (rep_mm _ _ _ _ _ Hu Hw E1) as R1. pose proof (rep_mm _ _ _ _ _ Hv Hz E2) as R2.
    pose proof (rep_mm _ _ _ _ _ Hu Hz E3) as R3. pose proof (rep_mm _ _ _ _ _ Hv Hw E4) as R4.
    split; unfold gmul; cbn [fst snd].
    - exact (rep_sub _ _ _ _ _ R1 R2 E5).
    - exact (rep_add _ _ _ _ _ R3 R4 E6).
  Qed.

  Lemma epow_ok : forall e x g r, erep x g -> epow k x e = Some r -> erep r (gpow g (Pos.to_nat e)).
  Proof.
    induction e; intros x g r Hx E; cbn [epow] in E; unfold bind in E.
    - destruct (epow k x e) as [s|] eqn:E1; [|discriminate].
      destruct (esq k s) as [t|] eqn:E2; [|discriminate].
      pose proof (IHe _ _ _ Hx E1) as R1. pose proof (esq_ok _ _ _ R1 E2) as R2.
      pose proof (emul_ok _ _ _ _ _ R2 Hx E) as R3.
      rewrite Pos2Nat.inj_xI. cbn [rpow].
      replace (2 * Pos.to_nat e)%nat with (Pos.to_nat e + Pos.to_nat e)%nat by lia.
      rewrite (rpow_add G g0 g1 gadd gmul gsub gopp Gth), (Rmul_comm Gth). exact R3.
    - destruct (epow k x e) as [s|] eqn:E1; [|discriminate].
      pose proof (IHe _ _ _ Hx E1) as R1. pose proof (esq_ok _ _ _ R1 E) as R2.
      rewrite Pos2Nat.inj_xO.
      replace (2 * Pos.to_nat e)%nat with (Pos.to_nat e + Pos.to_nat e)%nat by lia.
      rewrite (rpow_add G g0 g1 gadd gmul gsub gopp Gth). exact R2.
    - injection E as <-. change (Pos.to_nat 1) with 1%nat. cbn [rpow].
      rewrite (Rmul_comm Gth), (Rmul_1_l Gth). exact Hx.
  Qed.

  (* every leaf contributes the factor Re(alpha^((N+1)/l)) - 1 to the accumulator *)
  Lemma walk_ok : forall t x al e acc a r, rep (cone k) 1 ->
    erep x (gpow al (Pos.to_nat e)) -> (Zpos e * Zpos (tprod t) = N + 1) -> rep acc a ->
    walk k x t acc = Some r ->
    exists b, rep r (a * b) /\
    forall it, In it (leaves t) -> exists w, b = (fst (gpow al (Z.to_nat ((N + 1) / fst it))) - 1) * w.
  Proof.
    induction t as [l le|ta IHa tb IHb]; intros x al e acc a r H1 Hx He Ha E; cbn [walk] in E; unfold bind in E.
    - destruct (csub k (fst x) (cone k)) as [d|] eqn:E1; [|discriminate].
      pose proof (rep_sub _ _ _ _ _ (proj1 Hx) H1 E1) as R1. pose proof (rep_mm _ _ _ _ _ Ha R1 E) as R2.
      eexists. split; [exact R2|]. intros it [<-|[]]. exists 1. cbn [fst tprod] in *.
      rewrite <- He, Z.div_mul by lia. change (Z.to_nat (Z.pos e)) with (Pos.to_nat e). ring.
    - cbn [tprod] in He.
      destruct (epow k x (tprod tb)) as [xa|] eqn:E1; [|discriminate].
      destruct (epow k x (tprod ta)) as [xb|] eqn:E2; [|discriminate].
      destruct (walk k xa ta acc) as [acc1|] eqn:E3; [|discriminate].
      pose proof (epow_ok _ _ _ _ Hx E1) as R1. pose proof (epow_ok _ _ _ _ Hx E2) as R2.
      rewrite <- (rpow_mul G g0 g1 gadd gmul gsub gopp Gth), <- Pos2Nat.inj_mul in R1, R2.
      destruct (IHa _ _ _ _ _ _ H1 R1 ltac:(lia) Ha E3) as (ba & Ba & Wa).
      destruct (IHb _ _ _ _ _ _ H1 R2 ltac:(lia) Ba E) as (bb & Bb & Wb).
      exists (ba * bb). split; [rewrite Z.mul_assoc; exact Bb|].
      intros it Hin. cbn [leaves] in Hin. apply in_app_or in Hin. destruct Hin as [Hin|Hin].
      + destruct (Wa it Hin) as [w ->]. exists (w * bb). ring.
      + destruct (Wb it Hin) as [w ->]. exists (w * ba). ring.
  Qed.

  Lemma rep_exists : forall x, lim x -> length x = n -> exists a, rep x a.
  Proof.
    intros x L H. destruct (rel_prime_bezout _ _ R_coprime) as [p q Hb].
    exists (q * val30 x). split; [assumption|]. split; [assumption|].
    exists (p * val30 x). replace (val30 x) with (1 * val30 x) at 1 by ring. rewrite <- Hb. ring.
  Qed.

  Lemma rep_isval : forall x a b, rep x a -> isval k x b = true -> (N | a - b).
  Proof.
    intros x a b (_ & _ & [c C]) E. unfold isval in E. apply Z.eqb_eq in E. fold n R N in E.
    apply Z.mod_divide in E; [|lia]. destruct E as [d D].
    apply Gauss with (b := R); [|exact R_coprime]. exists (d - c). lia.
  Qed.
End Sound.

Lemma limb_ok : forall l, limb l = true -> lim l.
Proof.
  intros l H. unfold limb in H. rewrite forallb_forall in H. apply Forall_forall. intros x Hx.
  specialize (H x Hx). apply leb_spec in H. change (to_Z mask30) with (W - 1) in H. lia.
Qed.
Lemma limb32_ok : forall l, limb32 l = true -> Forall (fun x => to_Z x < 2 ^ 32) l.
Proof.
  intros l H. unfold limb32 in H. rewrite forallb_forall in H. apply Forall_forall. intros x Hx.
  specialize (H x Hx). apply leb_spec in H. change (to_Z 4294967295) with (2 ^ 32 - 1) in H. lia.
Qed.
Lemma copr_all_ok : forall l, copr_all l = true -> ForallOrdPairs rel_prime l.
Proof.
  induction l as [|x l IH]; intros H; [constructor|].
  unfold copr_all in *. apply andb_true_iff in H. destruct H as [H1 H2]. constructor; [|apply IH; exact H2].
  rewrite forallb_forall in H1. apply Forall_forall. intros y Hy. specialize (H1 y Hy).
  apply Z.eqb_eq in H1. apply Zgcd_1_rel_prime. exact H1.
Qed.

Lemma leaves_pow : forall t it, In it (leaves t) -> exists e, 0 <= e /\ snd it = fst it ^ e.
Proof.
  induction t; intros it H; cbn [leaves] in H.
  - destruct H as [<-|[]]. exists (Zpos e). split; [lia|reflexivity].
  - apply in_app_or in H. destruct H; auto.
Qed.

Theorem check_sound : forall k x m0 t w, check k x m0 t w = true ->
  Forall prime (map fst (leaves t)) -> prime (cN k).
Proof.
  intros k x m0 t w H Hp. unfold check in H.
  repeat match type of H with _ && _ = true => apply andb_true_iff in H; let H' := fresh "K" in destruct H as [H H'] end.
  destruct (bind (cmm k (fst x) (fst x)) _) as [nm|] eqn:En; [|discriminate].
  destruct (epow k x m0) as [g|] eqn:Eg; [|discriminate].
  destruct (epow k g (tprod t)) as [[u v]|] eqn:Ef; [|discriminate].
  destruct (bind (walk k g t (cone k)) _) as [r|] eqn:Ew; [|discriminate].
  apply andb_true_iff in K. destruct K as [K Kr]. apply andb_true_iff in K. destruct K as [Ku Kv].
  repeat match goal with H : (_ =? _) = true |- _ => apply Z.eqb_eq in H
                       | H : (_ <? _) = true |- _ => apply Z.ltb_lt in H
                       | H : (_ =? _)%nat = true |- _ => apply Nat.eqb_eq in H
                       | H : limb _ = true |- _ => apply limb_ok in H
                       | H : limb32 _ = true |- _ => apply limb32_ok in H
                       | H : copr_all _ = true |- _ => apply copr_all_ok in H end.
  apply Z.mod_divide in K15; [|lia].
  destruct (rep_exists k K23 K19 (fst x) K11 K10) as [a Ha].
  destruct (rep_exists k K23 K19 (snd x) K9 K8) as [b Hb].
  destruct (rep_exists k K23 K19 w K7 K6) as [c Hc].
  assert (H1 : rep k (cone k) 1).
  { split; [assumption|]. split; [assumption|]. unfold isval in K12. apply Z.eqb_eq in K12.
    apply Z.mod_divide in K12; [|lia]. exact K12. }
  assert (Hx : erep k x (a, b)) by (split; assumption).
  unfold bind in En, Ew.
  destruct (cmm k (fst x) (fst x)) as [aa|] eqn:Ea; [|discriminate].
  destruct (cmm k (snd x) (snd x)) as [bb|] eqn:Eb; [|discriminate].
  pose proof (rep_mm k K23 K22 K21 K20 K19 K18 _ _ _ _ _ Ha Ha Ea) as Raa.
  pose proof (rep_mm k K23 K22 K21 K20 K19 K18 _ _ _ _ _ Hb Hb Eb) as Rbb.
  pose proof (rep_add k K19 _ _ _ _ _ Raa Rbb En) as Rn.
  pose proof (rep_isval k H K23 K19 _ _ _ Rn K0) as Dn.
  pose proof (epow_ok k K23 K22 K21 K20 K19 K18 K17 K15 _ _ _ _ Hx Eg) as Rg.
  pose proof (epow_ok k K23 K22 K21 K20 K19 K18 K17 K15 _ _ _ _ Rg Ef) as Rf.
  rewrite <- (rpow_mul G g0 g1 gadd gmul gsub gopp Gth), <- Pos2Nat.inj_mul in Rf.
  assert (Em : Pos.to_nat (m0 * tprod t) = Z.to_nat (cN k + 1)) by lia.
  rewrite Em in Rf. destruct Rf as [Rf1 Rf2]. cbn [fst snd] in Rf1, Rf2.
  pose proof (rep_isval k H K23 K19 _ _ _ Rf1 Ku) as Du. pose proof (rep_isval k H K23 K19 _ _ _ Rf2 Kv) as Dv.
  destruct (walk k g t (cone k)) as [acc|] eqn:Ewk; [|discriminate].
  destruct (walk_ok k K23 K22 K21 K20 K19 K18 K17 K15 t g (a, b) m0 (cone k) 1 acc H1 Rg K5 H1 Ewk) as (e & Re & We).
  pose proof (rep_mm k K23 K22 K21 K20 K19 K18 _ _ _ _ _ Re Hc Ew) as Rr.
  pose proof (rep_isval k H K23 K19 _ _ _ Rr Kr) as Dr.
  apply (nplus1_prime (cN k) a b (leaves t)); try assumption.
  - split; assumption.
  - apply Forall_forall. intros [l le] Hin. cbn [item_ok].
    split; [|split; [|split]].
    + rewrite Forall_forall in Hp. apply Hp. apply in_map_iff. exists (l, le). auto.
    + exact (leaves_pow t (l, le) Hin).
    + rewrite forallb_forall in K4. specialize (K4 _ Hin). cbn [snd] in K4. apply Z.eqb_eq in K4.
      destruct (leaves_pow t (l, le) Hin) as (ee & He & Ele). cbn [fst snd] in Ele.
      assert (prime l) as Pl by (rewrite Forall_forall in Hp; apply Hp; apply in_map_iff; exists (l, le); auto).
      apply prime_ge_2 in Pl. apply Z.mod_divide in K4; [assumption|]. subst le.
      assert (0 < l ^ ee) by (apply Z.pow_pos_nonneg; lia). lia.
    + destruct (We _ Hin) as [w' Hw]. cbn [fst] in Hw. exists (w' * c).
      replace ((fst (gpow (a, b) (Z.to_nat ((cN k + 1) / l))) - 1) * (w' * c) - 1) with (1 * e * c - 1); [exact Dr|].
      rewrite Hw. ring.
Qed.

(* trial division *)
Definition small_prime (l : Z) : bool :=
  (1 <? l) && forallb (fun d => negb (l mod Z.of_nat d =? 0)) (seq 2 (Z.to_nat l - 2)).
Lemma small_prime_ok : forall l, small_prime l = true -> prime l.
Proof.
  intros l H. unfold small_prime in H. apply andb_true_iff in H. destruct H as [H1 H2].
  apply Z.ltb_lt in H1. rewrite forallb_forall in H2.
  destruct (prime_dec l) as [P|NP]; [assumption|exfalso].
  destruct (not_prime_divide l H1 NP) as (d & Hd & D).
  specialize (H2 (Z.to_nat d)). rewrite Z2Nat.id in H2 by lia.
  assert (In (Z.to_nat d) (seq 2 (Z.to_nat l - 2))) as I by (apply in_seq; lia).
  specialize (H2 I). apply negb_true_iff, Z.eqb_neq in H2. apply H2.
  apply Z.mod_divide; [lia|assumption].
Qed.
