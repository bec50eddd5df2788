(* Checking the orders of the SIDH basis points by computation with 63-bit integers: doublings and
   triplings on y^2 = x^3 + 6x^2 + x in Montgomery form over 30-bit limbs (Prime63.v), and what a
   successful run says about the points over F_p^2. *)
From Coq Require Import ZArith List Lia Bool Znumtheory Field Uint63.
From Verif Require Import NT Prime63 FieldAlg MontCurve SIDH_Line SIDH_Points.
Import ListNotations.
Open Scope Z_scope.

(* ---------- the computation ---------- *)
Notation "'do' x <- o ; f" := (Prime63.bind o (fun x => f)) (at level 200, x name, o at level 100, f at level 200).
Definition add0 (x y : list int) : option (list int) := addl x y 0%uint63.
Fixpoint toL (n : nat) (z : Z) : list int :=
  match n with O => [] | S n => of_Z (z mod 2 ^ 30) :: toL n (z / 2 ^ 30) end.
Definition inj (k : ctx) (z : Z) : list int := let n := length (cm k) in toL n (z * W ^ Z.of_nat n mod cN k).

Section Comp.
  Variable k : ctx.
  (* (u + v i)^2, given -v *)
  Definition esqN (u v m : list int) : option el :=
    do a <- add0 u v; do d <- add0 u m; do s <- cmm k d a; do t <- cmm k u v; do w <- add0 t t; Some (s, w).
  (* (x0 + x1 i)(y0 + y1 i), given -x1 *)
  Definition emulN (x0 x1 m : list int) (y : el) : option el :=
    do a <- cmm k x0 (fst y); do b <- cmm k m (snd y); do c <- cmm k x0 (snd y); do d <- cmm k x1 (fst y);
    do u <- add0 a b; do w <- add0 c d; Some (u, w).
  Definition dblc (p : el * el) : option (el * el) :=
    let '((X0, X1), (T0, T1)) := p in
    do d0 <- csub k X0 T0; do d1 <- csub k X1 T1; do e1 <- csub k T1 X1;
    do V <- esqN d0 d1 e1;
    do s0 <- add0 X0 T0; do s1 <- add0 X1 T1; do n1 <- csub k (czero k) s1;
    do Q <- esqN s0 s1 n1;
    do nq <- csub k (czero k) (snd Q);
    do X' <- emulN (fst Q) (snd Q) nq V;
    do c0 <- csub k (fst Q) (fst V); do c1 <- csub k (snd Q) (snd V); do m1 <- csub k (snd V) (snd Q);
    do t0 <- add0 c0 c0; do t1 <- add0 c1 c1; do w0 <- add0 (fst V) t0; do w1 <- add0 (snd V) t1;
    do Z' <- emulN c0 c1 m1 (w0, w1);
    Some (X', Z').
  Fixpoint dblsc (e : nat) (p : el * el) : option (el * el) :=
    match e with O => Some p | S e => do q <- dblsc e p; dblc q end.
  Definition tplc (p : list int * list int) : option (list int * list int) :=
    let '(X, Z) := p in
    do x <- cmm k X X; do z <- cmm k Z Z; do w <- cmm k X Z; do xx <- cmm k x x; do zz <- cmm k z z;
    do w2 <- add0 w w; do w4 <- add0 w2 w2; do w8 <- add0 w4 w4; do w16 <- add0 w8 w8; do w24 <- add0 w16 w8;
    do x2 <- add0 x x; do x3 <- add0 x2 x; do x6 <- add0 x3 x3;
    do z2 <- add0 z z; do z3 <- add0 z2 z; do z6 <- add0 z3 z3;
    do a1 <- add0 x6 w24; do a <- add0 a1 z3; do za <- cmm k z a; do N <- csub k xx za;
    do b1 <- add0 x3 w24; do b <- add0 b1 z6; do xb <- cmm k x b; do D <- csub k xb zz;
    do NN <- cmm k N N; do DD <- cmm k D D; do X' <- cmm k X NN; do Z' <- cmm k Z DD;
    Some (X', Z').
  Fixpoint tplsc (e : nat) (p : list int * list int) : option (list int * list int) :=
    match e with O => Some p | S e => do q <- tplsc e p; tplc q end.
  Definition injE (g : G) : el := (inj k (fst g), inj k (snd g)).
  Definition isE (x : el) (g : G) : bool := isval k (fst x) (fst g) && isval k (snd x) (snd g).
  Definition okl (x : list int) (z : Z) : bool := limb x && (length x =? length (cm k))%nat && isval k x z.
  Definition okE (x : el) (g : G) : bool := okl (fst x) (fst g) && okl (snd x) (snd g).

  Definition ctx_b : bool :=
    (1 <? cN k) && (cN k mod 2 =? 1) && (val30 (cm k) =? cN k) && limb (cm k) &&
    limb (czero k) && (length (czero k) =? length (cm k))%nat && (val30 (czero k) =? 0) &&
    limb32 (cbig k) && (val30 (cbig k) mod cN k =? 0).
  (* [2^e]Q has x = 0; x([2^e]P) is a root of x^2 + 6x + 1 *)
  Definition checkA (P Q : G) (e : nat) : bool :=
    okE (injE P) P && okE (injE Q) Q && okE (injE g1) g1 &&
    match dblsc e (injE Q, injE g1) with Some (X, _) => isE X g0 | None => false end &&
    match dblsc e (injE P, injE g1) with
    | Some (X, Z) =>
        match (do x <- emul k X X; do w <- emul k X Z; do z <- emul k Z Z;
               do a0 <- add0 (fst x) (fst z); do a1 <- add0 (snd x) (snd z);
               do u0 <- add0 (fst w) (fst w); do u1 <- add0 (snd w) (snd w);
               do v0 <- add0 u0 u0; do v1 <- add0 u1 u1;
               do r0 <- add0 u0 v0; do r1 <- add0 u1 v1;
               do t0 <- add0 a0 r0; do t1 <- add0 a1 r1; Some (t0, t1)) with
        | Some r => isE r g0
        | None => false
        end
    | None => false
    end.
  (* [3^(e+1)]P = [3^(e+1)]Q = 0, [3^e]P and [3^e]Q are not 0 and have different x *)
  Definition checkB (P Q : Z) (e : nat) : bool :=
    okl (inj k P) P && okl (inj k Q) Q && okl (inj k 1) 1 &&
    match tplsc e (inj k P, inj k 1), tplsc e (inj k Q, inj k 1) with
    | Some (X, Z), Some (X', Z') =>
        negb (isval k Z 0) && negb (isval k Z' 0) &&
        match tplc (X, Z), tplc (X', Z'), (do a <- cmm k X Z'; do b <- cmm k X' Z; csub k a b) with
        | Some (_, z), Some (_, z'), Some c => isval k z 0 && isval k z' 0 && negb (isval k c 0)
        | _, _, _ => false
        end
    | _, _ => false
    end.
End Comp.

(* ---------- Gaussian integers and F_p^2 ---------- *)
Section Hom.
  Variable p : Z.
  Hypothesis pp : prime p.
  Hypothesis p34 : p mod 4 = 3.
  Notation F := (Fp2 p pp p34).
  Definition phi (g : G) : F := (fpm p pp (fst g), fpm p pp (snd g)).
  Let p0 : p <> 0. Proof. pose proof (p_gt1 p pp). lia. Qed.
  Lemma phi_add : forall g h, phi (gadd g h) = kadd (phi g) (phi h).
  Proof.
    intros [a b] [c d]. unfold phi, gadd. cbn [fst snd kadd]. unfold Fp2. cbn [kadd]. unfold f2add, fpadd. cbn [fst snd].
    f_equal; apply fpm_eq; rewrite !fpv_fpm; rewrite <- Z.add_mod by exact p0; reflexivity.
  Qed.
  Lemma phi_sub : forall g h, phi (gsub g h) = ksub (phi g) (phi h).
  Proof.
    intros [a b] [c d]. unfold phi, gsub. cbn [fst snd]. unfold Fp2. cbn [ksub]. unfold f2sub, fpsub. cbn [fst snd].
    f_equal; apply fpm_eq; rewrite !fpv_fpm; rewrite <- Zminus_mod by exact p0; reflexivity.
  Qed.
  Lemma fpm_mul : forall a b, fpmul p pp (fpm p pp a) (fpm p pp b) = fpm p pp (a * b).
  Proof. intros. apply fpm_eq. rewrite !fpv_fpm. symmetry. apply Z.mul_mod, p0. Qed.
  Lemma phi_mul : forall g h, phi (gmul g h) = kmul (phi g) (phi h).
  Proof.
    intros [a b] [c d]. unfold phi, gmul. cbn [fst snd]. unfold Fp2. cbn [kmul]. unfold f2mul. cbn [fst snd]. rewrite !fpm_mul.
    unfold fpadd, fpsub. f_equal; apply fpm_eq; rewrite !fpv_fpm; [apply Zminus_mod|apply Z.add_mod, p0].
  Qed.
  Lemma phi_1 : phi g1 = k1. Proof. reflexivity. Qed.
  Lemma phi_0 : phi g0 = k0. Proof. reflexivity. Qed.
  Lemma phi_eq : forall g h, (p | fst g - fst h) -> (p | snd g - snd h) -> phi g = phi h.
  Proof.
    intros [a b] [c d] [i H1] [j H2]. cbn [fst snd] in *. unfold phi. cbn [fst snd]. f_equal; apply fpm_eq.
    - replace a with (c + i * p) by lia. apply Z.mod_add, p0.
    - replace b with (d + j * p) by lia. apply Z.mod_add, p0.
  Qed.
End Hom.

(* ---------- soundness ---------- *)
Section Sound.
  Variable k : ctx.
  Hypothesis CK : ctx_b k = true.
  Notation rep := (Prime63.rep k).
  Notation erep := (Prime63.erep k).
  Let N := cN k.
  Record ctx_facts : Prop := {
    c_gt : 1 < cN k; c_odd : cN k mod 2 = 1; c_m : val30 (cm k) = cN k; c_lm : lim (cm k);
    c_lz : lim (czero k); c_nz : length (czero k) = length (cm k); c_vz : val30 (czero k) = 0;
    c_lb : Forall (fun x => to_Z x < 2 ^ 32) (cbig k); c_vb : (cN k | val30 (cbig k))
  }.
  Lemma facts : ctx_facts.
  Proof.
    pose proof CK as H. unfold ctx_b in H. repeat (apply andb_prop in H; destruct H as [H ?]).
    repeat match goal with H : (_ =? _) = true |- _ => apply Z.eqb_eq in H
                       | H : (_ <? _) = true |- _ => apply Z.ltb_lt in H
                       | H : (_ =? _)%nat = true |- _ => apply Nat.eqb_eq in H
                       | H : limb _ = true |- _ => apply limb_ok in H
                       | H : limb32 _ = true |- _ => apply limb32_ok in H end.
    constructor; try assumption. apply Z.mod_divide; [lia|assumption].
  Qed.
  Let FC := facts.
  Lemma r_mm : forall x y r a b, rep x a -> rep y b -> cmm k x y = Some r -> rep r (a * b).
  Proof. destruct FC. intros x y r a b. apply rep_mm; auto. Qed.
  Lemma r_add : forall x y r a b, rep x a -> rep y b -> add0 x y = Some r -> rep r (a + b).
  Proof. destruct FC. intros x y r a b. apply Prime63.rep_add; auto. Qed.
  Lemma r_sub : forall x y r a b, rep x a -> rep y b -> csub k x y = Some r -> rep r (a - b).
  Proof. destruct FC. intros x y r a b. apply Prime63.rep_sub; auto. Qed.
  Lemma r_zero : rep (czero k) 0.
  Proof. destruct FC. split; [assumption|]. split; [assumption|]. exists 0. rewrite c_vz0. ring. Qed.
  Lemma r_okl : forall x z, okl k x z = true -> rep x z.
  Proof.
    destruct FC. intros x z H. unfold okl in H. apply andb_prop in H. destruct H as [H H3]. apply andb_prop in H. destruct H as [H1 H2].
    split; [apply limb_ok, H1|]. split; [apply Nat.eqb_eq, H2|]. unfold isval in H3. apply Z.eqb_eq in H3. apply Z.mod_divide in H3; [exact H3|lia].
  Qed.
  Lemma r_is : forall x a b, rep x a -> isval k x b = true -> (N | a - b).
  Proof. destruct FC. intros x a b. apply rep_isval; auto. Qed.
  Lemma r_isnt : forall x a, rep x a -> isval k x 0 = false -> ~ (N | a).
  Proof.
    destruct FC. intros x a (_ & _ & [c C]) H [d D]. unfold isval in H. apply Z.eqb_neq in H. apply H. apply Z.mod_divide; [lia|].
    subst a. exists (c + d * W ^ Z.of_nat (length (cm k))). fold N in C |- *. lia.
  Qed.

  Ltac step :=
    match goal with
    | E : Prime63.bind (cmm k ?x ?x) _ = Some _, H1 : rep ?x ?a |- _ =>
        let E1 := fresh "E" in let r := fresh "r" in let R := fresh "R" in
        destruct (cmm k x x) as [r|] eqn:E1; [|discriminate E]; cbn [Prime63.bind] in E; pose proof (r_mm _ _ _ _ _ H1 H1 E1) as R; clear E1
    | E : Prime63.bind (add0 ?x ?x) _ = Some _, H1 : rep ?x ?a |- _ =>
        let E1 := fresh "E" in let r := fresh "r" in let R := fresh "R" in
        destruct (add0 x x) as [r|] eqn:E1; [|discriminate E]; cbn [Prime63.bind] in E; pose proof (r_add _ _ _ _ _ H1 H1 E1) as R; clear E1
    | E : Prime63.bind (cmm k ?x ?y) _ = Some _, H1 : rep ?x ?a, H2 : rep ?y ?b |- _ =>
        let E1 := fresh "E" in let r := fresh "r" in let R := fresh "R" in
        destruct (cmm k x y) as [r|] eqn:E1; [|discriminate E]; cbn [Prime63.bind] in E; pose proof (r_mm _ _ _ _ _ H1 H2 E1) as R; clear E1
    | E : Prime63.bind (add0 ?x ?y) _ = Some _, H1 : rep ?x ?a, H2 : rep ?y ?b |- _ =>
        let E1 := fresh "E" in let r := fresh "r" in let R := fresh "R" in
        destruct (add0 x y) as [r|] eqn:E1; [|discriminate E]; cbn [Prime63.bind] in E; pose proof (r_add _ _ _ _ _ H1 H2 E1) as R; clear E1
    | E : Prime63.bind (csub k ?x ?y) _ = Some _, H1 : rep ?x ?a, H2 : rep ?y ?b |- _ =>
        let E1 := fresh "E" in let r := fresh "r" in let R := fresh "R" in
        destruct (csub k x y) as [r|] eqn:E1; [|discriminate E]; cbn [Prime63.bind] in E; pose proof (r_sub _ _ _ _ _ H1 H2 E1) as R; clear E1
    end.
  Ltac fit H := match type of H with rep ?r ?a => match goal with |- rep r ?b => replace b with a by ring; exact H end end.

  Lemma esqN_ok : forall u v m a b c r, rep u a -> rep v b -> rep m c -> c = - b -> esqN k u v m = Some r -> erep r (gmul (a, b) (a, b)).
  Proof.
    intros u v m a b c r H1 H2 H3 -> E. unfold esqN in E. repeat step. injection E as <-. split; unfold gmul; cbn [fst snd].
    - match goal with H : rep ?x _ |- rep ?x _ => fit H end.
    - match goal with H : rep ?x _ |- rep ?x _ => fit H end.
  Qed.
  Lemma emulN_ok : forall x0 x1 m y a b c g r, rep x0 a -> rep x1 b -> rep m c -> c = - b -> erep y g -> emulN k x0 x1 m y = Some r ->
    erep r (gmul (a, b) g).
  Proof.
    intros x0 x1 m [y0 y1] a b c [d e] r H1 H2 H3 -> [H4 H5] E. unfold emulN in E. cbn [fst snd] in *. repeat step. injection E as <-.
    split; unfold gmul; cbn [fst snd]; match goal with H : rep ?x _ |- rep ?x _ => fit H end.
  Qed.

  Definition dblG (p : G * G) : G * G :=
    let '(X, T) := p in
    let V := gmul (gsub X T) (gsub X T) in let Q := gmul (gadd X T) (gadd X T) in let c := gsub Q V in
    (gmul Q V, gmul c (gadd V (gadd c c))).
  Definition prep (x : el * el) (p : G * G) : Prop := erep (fst x) (fst p) /\ erep (snd x) (snd p).
  Lemma dblc_ok : forall x p r, prep x p -> dblc k x = Some r -> prep r (dblG p).
  Proof.
    intros [[X0 X1] [T0 T1]] [[x0 x1] [t0 t1]] r [[H1 H2] [H3 H4]] E. cbn [fst snd] in *. unfold dblc in E. pose proof r_zero as RZ.
    step. step. step.
    destruct (esqN k r0 r1 r2) as [V|] eqn:EV; [|discriminate E]. cbn [Prime63.bind] in E.
    assert (RV : erep V (gmul (x0 - t0, x1 - t1) (x0 - t0, x1 - t1))) by (eapply esqN_ok; [eassumption..| |exact EV]; ring).
    step. step. step.
    destruct (esqN k r3 r4 r5) as [Q|] eqn:EQ; [|discriminate E]. cbn [Prime63.bind] in E.
    assert (RQ : erep Q (gmul (x0 + t0, x1 + t1) (x0 + t0, x1 + t1))) by (eapply esqN_ok; [eassumption..| |exact EQ]; ring).
    set (gV := gmul (x0 - t0, x1 - t1) (x0 - t0, x1 - t1)) in *. set (gQ := gmul (x0 + t0, x1 + t1) (x0 + t0, x1 + t1)) in *.
    destruct V as [V0 V1], Q as [Q0 Q1]. destruct RV as [RV0 RV1], RQ as [RQ0 RQ1]. cbn [fst snd] in *.
    step.
    destruct (emulN k Q0 Q1 r6 (V0, V1)) as [X'|] eqn:EX; [|discriminate E]. cbn [Prime63.bind] in E.
    assert (RX : erep X' (gmul (fst gQ, snd gQ) gV)) by (apply (emulN_ok _ _ _ (V0, V1) _ _ _ gV _ RQ0 RQ1 R5); [ring|split; assumption|exact EX]).
    do 7 step.
    match type of E with Prime63.bind ?o _ = _ => destruct o as [Z'|] eqn:EZ; [|discriminate E] end. cbn [Prime63.bind] in E. injection E as <-.
    assert (RT : erep Z' (gmul (gsub gQ gV) (gadd gV (gadd (gsub gQ gV) (gsub gQ gV))))).
    { eapply (emulN_ok r7 r8 r9 _ _ _ _ (gadd gV (gadd (gsub gQ gV) (gsub gQ gV))) _ R6 R7 R8); [ring| |exact EZ].
      split; cbn [fst snd]; unfold gadd, gsub; cbn [fst snd]; eassumption. }
    split; cbn [fst snd]; unfold dblG; unfold gsub, gadd in *; cbn [fst snd] in *; fold gV gQ.
    - rewrite <- surjective_pairing in RX. exact RX.
    - exact RT.
  Qed.
  Lemma dblsc_ok : forall e x p r, prep x p -> dblsc k e x = Some r -> prep r (Nat.iter e dblG p).
  Proof.
    induction e; intros x p r H E; cbn [dblsc] in E; [injection E as <-; exact H|].
    destruct (dblsc k e x) as [q|] eqn:E1; [|discriminate E]. cbn [Prime63.bind] in E.
    change (Nat.iter (S e) dblG p) with (dblG (Nat.iter e dblG p)). eapply dblc_ok; [|exact E]. eapply IHe; eassumption.
  Qed.
  Definition tplZ (p : Z * Z) : Z * Z :=
    let '(X, T) := p in let x := X * X in let z := T * T in let w := X * T in
    let n := x * x - z * (6 * x + 24 * w + 3 * z) in let d := x * (3 * x + 24 * w + 6 * z) - z * z in
    (X * (n * n), T * (d * d)).
  Definition zrep (x : list int * list int) (p : Z * Z) : Prop := rep (fst x) (fst p) /\ rep (snd x) (snd p).
  Lemma tplc_ok : forall x p r, zrep x p -> tplc k x = Some r -> zrep r (tplZ p).
  Proof.
    intros [X T] [x t] r [H1 H2] E. cbn [fst snd] in *. unfold tplc in E. repeat step. injection E as <-.
    split; unfold tplZ; cbn [fst snd]; match goal with H : rep ?x _ |- rep ?x _ => fit H end.
  Qed.
  Lemma tplsc_ok : forall e x p r, zrep x p -> tplsc k e x = Some r -> zrep r (Nat.iter e tplZ p).
  Proof.
    induction e; intros x p r H E; cbn [tplsc] in E; [injection E as <-; exact H|].
    destruct (tplsc k e x) as [q|] eqn:E1; [|discriminate E]. cbn [Prime63.bind] in E.
    change (Nat.iter (S e) tplZ p) with (tplZ (Nat.iter e tplZ p)). eapply tplc_ok; [|exact E]. eapply IHe; eassumption.
  Qed.

  Hypothesis pp : prime N.
  Hypothesis p34 : N mod 4 = 3.
  Notation F := (Fp2 N pp p34).
  Notation phi := (phi N pp p34).
  Add Field FF : (k_th F).
  Notation "6f" := (kmul (kadd k1 k1) (kadd (kadd k1 k1) k1) : F).
  Definition phi2 (p : G * G) : pt F := (phi (fst p), phi (snd p)).
  Lemma phi2_dbl : forall p, phi2 (dblG p) = dbl F 6f (phi2 p).
  Proof.
    intros [X T]. unfold phi2, dblG, dbl, dblX, dblZ. cbn [fst snd]. rewrite ?phi_mul, ?phi_add, ?phi_sub, ?phi_mul, ?phi_add, ?phi_sub.
    set (x := phi X). set (t := phi T). f_equal; ring.
  Qed.
  Lemma phi2_dbls : forall e p, phi2 (Nat.iter e dblG p) = dbls F 6f e (phi2 p).
  Proof. induction e; intros p; [reflexivity|]. change (phi2 (dblG (Nat.iter e dblG p)) = dbl F 6f (dbls F 6f e (phi2 p))). rewrite phi2_dbl, IHe. reflexivity. Qed.
  Definition emb (z : Z) : F := phi (z, 0).
  Lemma emb_add : forall x y, emb (x + y) = kadd (emb x) (emb y).
  Proof. intros. unfold emb. rewrite <- phi_add. reflexivity. Qed.
  Lemma emb_sub : forall x y, emb (x - y) = ksub (emb x) (emb y).
  Proof. intros. unfold emb. rewrite <- phi_sub. reflexivity. Qed.
  Lemma emb_mul : forall x y, emb (x * y) = kmul (emb x) (emb y).
  Proof. intros. unfold emb. rewrite <- phi_mul. unfold gmul. cbn [fst snd]. f_equal. f_equal; ring. Qed.
  Lemma emb_1 : emb 1 = k1. Proof. reflexivity. Qed.
  Lemma emb_3 : emb 3 = kadd (kadd k1 k1) k1. Proof. rewrite <- !emb_1, <- !emb_add. reflexivity. Qed.
  Lemma emb_6 : emb 6 = 6f. Proof. rewrite <- !emb_1, <- !emb_add, <- emb_mul. reflexivity. Qed.
  Lemma emb_24 : emb 24 = kmul (kmul (kadd k1 k1) (kadd k1 k1)) 6f. Proof. rewrite <- !emb_1, <- !emb_add, <- !emb_mul. reflexivity. Qed.
  Definition emb2 (p : Z * Z) : pt F := (emb (fst p), emb (snd p)).
  Lemma emb2_tpl : forall p, emb2 (tplZ p) = tpl F 6f (emb2 p).
  Proof.
    intros [X T]. unfold emb2, tplZ, tpl. cbn [fst snd].
    repeat rewrite ?emb_mul, ?emb_sub, ?emb_add. rewrite emb_3, emb_6, emb_24.
    set (x := emb X). set (t := emb T). f_equal; ring.
  Qed.
  Lemma emb2_tpls : forall e p, emb2 (Nat.iter e tplZ p) = tpls F 6f e (emb2 p).
  Proof. induction e; intros p; [reflexivity|]. change (emb2 (tplZ (Nat.iter e tplZ p)) = tpl F 6f (tpls F 6f e (emb2 p))). rewrite emb2_tpl, IHe. reflexivity. Qed.
  Lemma emb_0 : forall x, (N | x) -> emb x = k0.
  Proof. intros x H. unfold emb. rewrite <- phi_0. apply phi_eq; cbn [fst snd]; [rewrite Z.sub_0_r; exact H|exists 0; reflexivity]. Qed.
  Lemma emb_n0 : forall x, ~ (N | x) -> emb x <> k0.
  Proof.
    intros x H E. apply H. apply (f_equal fst) in E. apply (f_equal (fpv N)) in E. change (x mod N = 0 mod N) in E.
    assert (N0 : N <> 0) by (destruct FC; unfold N; lia). rewrite Z.mod_0_l in E by exact N0. apply Z.mod_divide; [exact N0|exact E].
  Qed.
  Lemma r_E : forall x g, erep x g -> isE k x g0 = true -> phi g = k0.
  Proof.
    intros x g [H1 H2] H. unfold isE in H. apply andb_prop in H. destruct H as [E1 E2]. rewrite <- phi_0.
    apply phi_eq; cbn [fst snd g0] in *; [exact (r_is _ _ _ H1 E1)|exact (r_is _ _ _ H2 E2)].
  Qed.
  Lemma r_okE : forall x g, okE k x g = true -> erep x g.
  Proof. intros x g H. unfold okE in H. apply andb_prop in H. destruct H. split; apply r_okl; assumption. Qed.

  Theorem checkA_ok : forall P Q e, checkA k P Q e = true ->
    fst (dbls F 6f e (phi Q, k1)) = k0 /\ q2h F 6f (dbls F 6f e (phi P, k1)) = k0.
  Proof.
    intros P Q e H. unfold checkA in H. apply andb_prop in H. destruct H as [H H5]. apply andb_prop in H. destruct H as [H H4].
    apply andb_prop in H. destruct H as [H H3]. apply andb_prop in H. destruct H as [H1 H2].
    apply r_okE in H1, H2, H3. split.
    - destruct (dblsc k e (injE k Q, injE k g1)) as [[X T]|] eqn:E; [|discriminate]. clear H5.
      assert (R : prep (X, T) (Nat.iter e dblG (Q, g1))) by (eapply dblsc_ok; [|exact E]; split; assumption).
      destruct R as [R _]. cbn [fst] in R. pose proof (r_E _ _ R H4) as G.
      change (phi Q, k1) with (phi2 (Q, g1)). rewrite <- phi2_dbls. exact G.
    - destruct (dblsc k e (injE k P, injE k g1)) as [[X T]|] eqn:E; [|discriminate]. clear H4.
      assert (R : prep (X, T) (Nat.iter e dblG (P, g1))) by (eapply dblsc_ok; [|exact E]; split; assumption).
      change (phi P, k1) with (phi2 (P, g1)). rewrite <- phi2_dbls. set (g := Nat.iter e dblG (P, g1)) in *. destruct g as [x t].
      destruct R as [R1 R2]. cbn [fst snd] in R1, R2. clear E.
      match type of H5 with match ?o with _ => _ end = true => destruct o as [r|] eqn:E; [|discriminate] end.
      destruct (emul k X X) as [a|] eqn:E1; [|discriminate]. cbn [Prime63.bind] in E.
      destruct (emul k X T) as [b|] eqn:E2; [|discriminate]. cbn [Prime63.bind] in E.
      destruct (emul k T T) as [c|] eqn:E3; [|discriminate]. cbn [Prime63.bind] in E.
      assert (EM : forall x y r g h, erep x g -> erep y h -> emul k x y = Some r -> erep r (gmul g h)).
      { destruct FC. intros. eapply emul_ok; eauto. }
      pose proof (EM _ _ _ _ _ R1 R1 E1) as [A1 A2]. pose proof (EM _ _ _ _ _ R1 R2 E2) as [B1 B2]. pose proof (EM _ _ _ _ _ R2 R2 E3) as [C1 C2].
      clear E1 E2 E3. repeat step. injection E as <-.
      assert (RE : erep (r8, r9) (gadd (gadd (gmul x x) (gmul t t)) (gadd (gadd (gmul x t) (gmul x t)) (gadd (gadd (gmul x t) (gmul x t)) (gadd (gmul x t) (gmul x t)))))).
      { split; cbn [fst snd]; assumption. }
      pose proof (r_E _ _ RE H5) as G. unfold q2h, phi2. cbn [fst snd]. rewrite <- G.
      rewrite ?phi_add, ?phi_mul. set (x' := phi x). set (t' := phi t). ring.
  Qed.
  Theorem checkB_ok : forall P Q e, checkB k P Q e = true ->
    snd (tpls F 6f (S e) (emb P, k1)) = k0 /\ snd (tpls F 6f (S e) (emb Q, k1)) = k0 /\
    snd (tpls F 6f e (emb P, k1)) <> k0 /\ snd (tpls F 6f e (emb Q, k1)) <> k0 /\
    kmul (fst (tpls F 6f e (emb P, k1))) (snd (tpls F 6f e (emb Q, k1))) <> kmul (fst (tpls F 6f e (emb Q, k1))) (snd (tpls F 6f e (emb P, k1))).
  Proof.
    intros P Q e H. unfold checkB in H. apply andb_prop in H. destruct H as [H H4].
    apply andb_prop in H. destruct H as [H H3]. apply andb_prop in H. destruct H as [H1 H2]. apply r_okl in H1, H2, H3.
    destruct (tplsc k e (inj k P, inj k 1)) as [[X T]|] eqn:E1; [|discriminate].
    destruct (tplsc k e (inj k Q, inj k 1)) as [[X' T']|] eqn:E2; [|discriminate].
    apply andb_prop in H4. destruct H4 as [H4 H5]. apply andb_prop in H4. destruct H4 as [N1 N2].
    assert (R1 : zrep (X, T) (Nat.iter e tplZ (P, 1))) by (eapply tplsc_ok; [|exact E1]; split; assumption).
    assert (R2 : zrep (X', T') (Nat.iter e tplZ (Q, 1))) by (eapply tplsc_ok; [|exact E2]; split; assumption). clear E1 E2.
    change (tpls F 6f (S e) (emb P, k1)) with (tpl F 6f (tpls F 6f e (emb P, k1))).
    change (tpls F 6f (S e) (emb Q, k1)) with (tpl F 6f (tpls F 6f e (emb Q, k1))).
    change (emb P, k1) with (emb2 (P, 1)). change (emb Q, k1) with (emb2 (Q, 1)). rewrite <- !emb2_tpls, <- !emb2_tpl.
    set (g := Nat.iter e tplZ (P, 1)) in *. set (g' := Nat.iter e tplZ (Q, 1)) in *.
    destruct (tplc k (X, T)) as [[y z]|] eqn:E3; [|discriminate]. destruct (tplc k (X', T')) as [[y' z']|] eqn:E4; [|discriminate].
    match type of H5 with match ?o with _ => _ end = true => destruct o as [c|] eqn:E5; [|discriminate] end.
    apply andb_prop in H5. destruct H5 as [H5 N3]. apply andb_prop in H5. destruct H5 as [Z1 Z2].
    apply negb_true_iff in N1, N2, N3.
    pose proof (tplc_ok _ _ _ R1 E3) as [_ R3]. pose proof (tplc_ok _ _ _ R2 E4) as [_ R4]. cbn [fst snd] in R3, R4.
    destruct R1 as [A1 A2], R2 as [B1 B2]. cbn [fst snd] in A1, A2, B1, B2.
    destruct (cmm k X T') as [u|] eqn:E6; [|discriminate]. cbn [Prime63.bind] in E5. pose proof (r_mm _ _ _ _ _ A1 B2 E6) as R5.
    destruct (cmm k X' T) as [v|] eqn:E7; [|discriminate]. cbn [Prime63.bind] in E5. pose proof (r_mm _ _ _ _ _ B1 A2 E7) as R6.
    pose proof (r_sub _ _ _ _ _ R5 R6 E5) as R7.
    unfold emb2. cbn [fst snd]. split; [|split; [|split; [|split]]].
    - apply emb_0. pose proof (r_is _ _ _ R3 Z1) as G. rewrite Z.sub_0_r in G. exact G.
    - apply emb_0. pose proof (r_is _ _ _ R4 Z2) as G. rewrite Z.sub_0_r in G. exact G.
    - apply emb_n0. exact (r_isnt _ _ A2 N1).
    - apply emb_n0. exact (r_isnt _ _ B2 N2).
    - intros G. apply (emb_n0 _ (r_isnt _ _ R7 N3)). rewrite emb_sub, !emb_mul, G. ring.
  Qed.
End Sound.
