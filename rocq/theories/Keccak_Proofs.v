From Coq Require Import ZArith List Lia Bool.
From Verif Require Import Lib Keccak_Spec.
From Verif Require Keccak_Model.
Import ListNotations.
Open Scope Z_scope.

Lemma RotateLeft64_rol : forall x k, 0 <= k <= 64 -> Keccak_Model.RotateLeft64 x k = rol64 k x.
Proof.
  intros. unfold Keccak_Model.RotateLeft64, rol64, wrap64.
  rewrite Z.shiftl_mul_pow2, Z.shiftr_div_pow2 by lia. auto.
Qed.
Lemma bic_land : forall x y, Keccak_Model.bic x y = Z.land (Z.lnot y) x.
Proof. intros. unfold Keccak_Model.bic. apply Z.land_comm. Qed.

(* where logical lane k is stored before rounds 1..4 of the unrolled loop *)
Definition sigma0 : list nat := seq 0 25.
Definition sigma1 : list nat := [0;6;12;18;24;10;16;22;3;9;20;1;7;13;19;5;11;17;23;4;15;21;2;8;14]%nat.
Definition sigma2 : list nat := [0;16;7;23;14;20;11;2;18;9;15;6;22;13;4;10;1;17;8;24;5;21;12;3;19]%nat.
Definition sigma3 : list nat := [0;11;22;8;19;15;1;12;23;9;5;16;2;13;24;20;6;17;3;14;10;21;7;18;4]%nat.
Definition view (s : list nat) (a : list Z) : list Z := map (fun k => nth k a 0) s.

(* Rnd with the round constant as a parameter *)
Definition Rnd' (c : Z) (A : list Z) : list Z :=
  let A := chi (pi (rho (theta A))) in
  make (fun x y => if (Nat.eqb x 0 && Nat.eqb y 0)%bool then Z.lxor (lane A x y) c else lane A x y).
Lemma Rnd_Rnd' : forall ir A, Rnd ir A = Rnd' (RC ir) A.
Proof. reflexivity. Qed.

Ltac destr25 a H :=
  do 25 (destruct a as [|? a]; [discriminate H|]); destruct a; [|discriminate H].

(* theta on the stored order: columns are the same sets of lanes *)
Definition theta_phys (s : list nat) (a : list Z) : list Z :=
  make (fun x y => Z.lxor (lane (view s a) x y) (colD a x)).
Lemma theta_view : forall s a,
  (forall x, (x < 5)%nat -> colC (view s a) x = colC a x) ->
  theta (view s a) = theta_phys s a.
Proof.
  intros s a H. unfold theta, theta_phys, make. apply map_ext. intros k.
  f_equal. unfold colD. rewrite !H by (apply Nat.mod_upper_bound; lia). reflexivity.
Qed.

Ltac lxor_ac :=
  apply Z.bits_inj'; intros n _; rewrite !Z.lxor_spec;
  repeat match goal with |- context [Z.testbit ?v n] => destruct (Z.testbit v n) end; reflexivity.

Lemma cols_ok : forall s a, length a = 25%nat -> (s = sigma1 \/ s = sigma2 \/ s = sigma3) ->
  forall x, (x < 5)%nat -> colC (view s a) x = colC a x.
Proof.
  intros s a H Hs x Hx. destr25 a H.
  destruct Hs as [->|[->| ->]];
  (do 5 (destruct x as [|x]; [cbv -[Z.lxor]; lxor_ac|])); lia.
Qed.

Ltac solve_round :=
  cbv -[Z.lxor Z.land Z.lnot rol64 Keccak_Model.RotateLeft64 Keccak_Model.bic];
  rewrite !RotateLeft64_rol by lia; rewrite !bic_land; reflexivity.

Lemma round1_ok : forall c a, length a = 25%nat ->
  view sigma1 (Keccak_Model.round1 c a) = Rnd' c (view sigma0 a).
Proof. intros c a H; destr25 a H. solve_round. Qed.
Lemma round2_ok : forall c a, length a = 25%nat ->
  view sigma2 (Keccak_Model.round2 c a) = Rnd' c (view sigma1 a).
Proof.
  intros c a H. unfold Rnd'. rewrite theta_view by (apply cols_ok; auto). destr25 a H. solve_round.
Qed.
Lemma round3_ok : forall c a, length a = 25%nat ->
  view sigma3 (Keccak_Model.round3 c a) = Rnd' c (view sigma2 a).
Proof.
  intros c a H. unfold Rnd'. rewrite theta_view by (apply cols_ok; auto). destr25 a H. solve_round.
Qed.
Lemma round4_ok : forall c a, length a = 25%nat ->
  view sigma0 (Keccak_Model.round4 c a) = Rnd' c (view sigma3 a).
Proof.
  intros c a H. unfold Rnd'. rewrite theta_view by (apply cols_ok; auto). destr25 a H. solve_round.
Qed.

Lemma view_id : forall a, length a = 25%nat -> view sigma0 a = a.
Proof. intros a H. destr25 a H. reflexivity. Qed.

Lemma make_length : forall f, length (make f) = 25%nat.
Proof. reflexivity. Qed.
Lemma Rnd_length : forall ir A, length (Rnd ir A) = 25%nat.
Proof. intros. apply make_length. Qed.

Lemma view_length_inv : forall s a, length (view s a) = length s.
Proof. intros. apply map_length. Qed.

Lemma round1_length : forall c a, length a = 25%nat -> length (Keccak_Model.round1 c a) = 25%nat.
Proof. intros c a H. destr25 a H. reflexivity. Qed.
Lemma round2_length : forall c a, length a = 25%nat -> length (Keccak_Model.round2 c a) = 25%nat.
Proof. intros c a H. destr25 a H. reflexivity. Qed.
Lemma round3_length : forall c a, length a = 25%nat -> length (Keccak_Model.round3 c a) = 25%nat.
Proof. intros c a H. destr25 a H. reflexivity. Qed.
Lemma round4_length : forall c a, length a = 25%nat -> length (Keccak_Model.round4 c a) = 25%nat.
Proof. intros c a H. destr25 a H. reflexivity. Qed.
Lemma quad_ok : forall a i, length a = 25%nat ->
  Keccak_Model.quad a i =
  Rnd' (nth (i + 3) Keccak_Model.rc 0) (Rnd' (nth (i + 2) Keccak_Model.rc 0)
    (Rnd' (nth (i + 1) Keccak_Model.rc 0) (Rnd' (nth i Keccak_Model.rc 0) a))).
Proof.
  intros a i H. unfold Keccak_Model.quad.
  pose proof (round1_length (nth i Keccak_Model.rc 0) a H) as L1.
  pose proof (round2_length (nth (i + 1) Keccak_Model.rc 0) _ L1) as L2.
  pose proof (round3_length (nth (i + 2) Keccak_Model.rc 0) _ L2) as L3.
  pose proof (round4_length (nth (i + 3) Keccak_Model.rc 0) _ L3) as L4.
  rewrite <- (view_id _ L4).
  rewrite (round4_ok _ _ L3), (round3_ok _ _ L2), (round2_ok _ _ L1).
  rewrite round1_ok, view_id by auto. reflexivity.
Qed.

Lemma rc_ok : Keccak_Model.rc = map RC (seq 0 24).
Proof. vm_compute. reflexivity. Qed.
Lemma rc_nth : forall i, (i < 24)%nat -> nth i Keccak_Model.rc 0 = RC i.
Proof.
  intros. rewrite rc_ok. rewrite nth_indep with (d' := RC 0) by (rewrite map_length, seq_length; auto).
  rewrite map_nth, seq_nth by auto. reflexivity.
Qed.

Opaque Rnd.
Lemma keccakF1600_ok : forall a, length a = 25%nat -> Keccak_Model.keccakF1600 a = keccak_p a.
Proof.
  intros a H. unfold Keccak_Model.keccakF1600, keccak_p.
  cbn [fold_left seq].
  assert (Q : forall b i, length b = 25%nat -> (i + 3 < 24)%nat -> Keccak_Model.quad b i =
     Rnd (i + 3) (Rnd (i + 2) (Rnd (i + 1) (Rnd i b)))).
  { intros. rewrite quad_ok by auto. rewrite !rc_nth by lia. rewrite !Rnd_Rnd'. reflexivity. }
  rewrite (Q a 0%nat H ltac:(lia)).
  rewrite (Q _ 4%nat (Rnd_length _ _) ltac:(lia)).
  rewrite (Q _ 8%nat (Rnd_length _ _) ltac:(lia)).
  rewrite (Q _ 12%nat (Rnd_length _ _) ltac:(lia)).
  rewrite (Q _ 16%nat (Rnd_length _ _) ltac:(lia)).
  rewrite (Q _ 20%nat (Rnd_length _ _) ltac:(lia)).
  cbn [Nat.add]. reflexivity.
Qed.
Transparent Rnd.

Lemma keccak_p_length : forall a, length a = 25%nat -> length (keccak_p a) = 25%nat.
Proof. intros. unfold keccak_p. cbn [seq fold_left]. apply Rnd_length. Qed.

(* ranges *)
Lemma rol64_w64 : forall k x, 0 <= k <= 64 -> is_w64 x -> is_w64 (rol64 k x).
Proof.
  intros k x Hk Hx. unfold is_w64, rol64 in *. apply lor_bound; [lia| |].
  - apply Z.mod_pos_bound. lia.
  - assert (0 < 2 ^ (64 - k)) by (apply Z.pow_pos_nonneg; lia).
    split. { apply Z.div_pos; lia. }
    apply Z.le_lt_trans with x; [|lia]. apply Z.div_le_upper_bound; nia.
Qed.

Lemma nth_w64 : forall A i, Forall is_w64 A -> is_w64 (nth i A 0).
Proof.
  intros A i H. destruct (Nat.lt_ge_cases i (length A)).
  - rewrite Forall_forall in H. apply H. apply nth_In; auto.
  - rewrite nth_overflow by auto. unfold is_w64. lia.
Qed.
Lemma lane_w64 : forall A x y, Forall is_w64 A -> is_w64 (lane A x y).
Proof. intros. apply nth_w64; auto. Qed.

Lemma make_w64 : forall f, (forall x y, is_w64 (f x y)) -> Forall is_w64 (make f).
Proof. intros. unfold make. apply Forall_forall. intros v Hv. apply in_map_iff in Hv.
  destruct Hv as (k & <- & _). auto. Qed.

Lemma lxor_w64 : forall x y, is_w64 x -> is_w64 y -> is_w64 (Z.lxor x y).
Proof. intros. apply lxor_bound; auto. lia. Qed.

Lemma land_lnot_w64 : forall x y, is_w64 y -> is_w64 (Z.land (Z.lnot x) y).
Proof. intros. rewrite Z.land_comm. apply land_bound; auto. lia. Qed.

Lemma RC_w64 : forall ir, is_w64 (RC ir).
Proof.
  intros. unfold RC, is_w64. cbn [seq fold_left].
  repeat match goal with |- context [rc_bit ?n] => destruct (rc_bit n) end; vm_compute; split; congruence.
Qed.

Lemma lookup_range : forall x y k, lookup (rho_offsets 24 0 1 0) x y = Some k -> 0 <= k <= 64.
Proof.
  intros x y k H.
  assert (G : forall l, Forall (fun e => 0 <= snd e <= 64) l -> lookup l x y = Some k -> 0 <= k <= 64).
  { induction l as [|[[x' y'] k'] l IH]; intros HF HL; [discriminate|].
    inversion HF; subst. cbn [lookup] in HL.
    destruct (Nat.eqb x x' && Nat.eqb y y')%bool; [inversion HL; subst; auto|auto]. }
  apply (G (rho_offsets 24 0 1 0)); auto.
  assert (F : forallb (fun e : nat * nat * Z => (0 <=? snd e) && (snd e <=? 64))%bool (rho_offsets 24 0 1 0) = true)
    by (vm_compute; reflexivity).
  rewrite forallb_forall in F. apply Forall_forall. intros e He. specialize (F e He). lia.
Qed.

Lemma Rnd_w64 : forall ir A, Forall is_w64 A -> Forall is_w64 (Rnd ir A).
Proof.
  intros ir A H.
  assert (Ht : Forall is_w64 (theta A)).
  { apply make_w64. intros. apply lxor_w64; [apply lane_w64; auto|].
    assert (HC : forall x, is_w64 (colC A x))
      by (intros; unfold colC; repeat apply lxor_w64; apply lane_w64; auto).
    apply lxor_w64; auto. apply rol64_w64; auto. lia. }
  assert (Hr : Forall is_w64 (rho (theta A))).
  { apply make_w64. intros. destruct (lookup _ x y) eqn:E.
    - apply rol64_w64. { eapply lookup_range; eauto. } apply lane_w64; auto.
    - apply lane_w64; auto. }
  assert (Hp : Forall is_w64 (pi (rho (theta A)))) by (apply make_w64; intros; apply lane_w64; auto).
  assert (Hc : Forall is_w64 (chi (pi (rho (theta A))))).
  { apply make_w64. intros. apply lxor_w64; [apply lane_w64; auto|].
    apply land_lnot_w64. apply lane_w64; auto. }
  apply make_w64. intros. destruct (_ && _)%bool.
  - apply lxor_w64; [apply lane_w64; auto|apply RC_w64].
  - apply lane_w64; auto.
Qed.

Lemma keccak_p_w64 : forall A, Forall is_w64 A -> Forall is_w64 (keccak_p A).
Proof.
  intros A H. unfold keccak_p. generalize (seq 0 24). intros l. revert A H.
  induction l; intros; simpl; auto. apply IHl. apply Rnd_w64; auto.
Qed.
