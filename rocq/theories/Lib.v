(* Shared vocabulary: bytes and words as Z, Go-style array/slice primitives on lists,
   little/big-endian codecs, splitting into blocks.  Nothing here is specific to /repo. *)
From Coq Require Import ZArith List Lia Bool.
Import ListNotations.
Open Scope Z_scope.

(* ---------- ranges ---------- *)
Definition is_byte (b : Z) : Prop := 0 <= b < 256.
Definition is_w32 (x : Z) : Prop := 0 <= x < 2 ^ 32.
Definition is_w64 (x : Z) : Prop := 0 <= x < 2 ^ 64.
Definition bytes (l : list Z) : Prop := Forall is_byte l.

(* ---------- fixed-width arithmetic ---------- *)
Definition wrap32 (x : Z) : Z := x mod 2 ^ 32.
Definition wrap64 (x : Z) : Z := x mod 2 ^ 64.
Definition add32 (x y : Z) : Z := wrap32 (x + y).
Definition add64w (x y : Z) : Z := wrap64 (x + y).

(* ---------- slices ---------- *)
(* l[i:i+n] *)
Definition slice (l : list Z) (i n : nat) : list Z := firstn n (skipn i l).
(* l[i] = v; out of range is a no-op (callers are in range) *)
Fixpoint upd (l : list Z) (i : nat) (v : Z) : list Z :=
  match l, i with
  | [], _ => []
  | _ :: t, O => v :: t
  | x :: t, S i' => x :: upd t i' v
  end.
(* Go copy(dst[off:], src): overwrites min(len(dst)-off, len(src)) bytes *)
Definition blit (dst : list Z) (off : nat) (src : list Z) : list Z :=
  firstn off dst ++ firstn (length dst - off) src ++ skipn (off + length src) dst.

Fixpoint xor_list (a b : list Z) : list Z :=
  match a, b with
  | x :: a', y :: b' => Z.lxor x y :: xor_list a' b'
  | _, _ => []
  end.

(* ---------- blocks ---------- *)
Definition chunk (n : nat) (l : list Z) (k : nat) : list Z := slice l (k * n) n.
Definition chunks (n : nat) (l : list Z) : list (list Z) :=
  map (chunk n l) (seq 0 (length l / n)).

(* ---------- codecs ---------- *)
Fixpoint le_enc (n : nat) (x : Z) : list Z :=
  match n with
  | O => []
  | S n' => x mod 256 :: le_enc n' (x / 256)
  end.
Fixpoint le_dec (l : list Z) : Z :=
  match l with
  | [] => 0
  | b :: t => b + 256 * le_dec t
  end.
Definition be_enc (n : nat) (x : Z) : list Z := rev (le_enc n x).
Definition be_dec (l : list Z) : Z := le_dec (rev l).

(* =============== lemmas =============== *)

Lemma slice_length : forall l i n, (i + n <= length l)%nat -> length (slice l i n) = n.
Proof. intros. unfold slice. rewrite firstn_length, skipn_length. lia. Qed.

Lemma upd_length : forall l i v, length (upd l i v) = length l.
Proof. induction l; intros [|i] v; simpl; auto. Qed.

Lemma upd_nth_same : forall l i v d, (i < length l)%nat -> nth i (upd l i v) d = v.
Proof. induction l; intros [|i] v d H; simpl in *; try lia; auto. apply IHl. lia. Qed.

Lemma upd_nth_other : forall l i j v d, i <> j -> nth j (upd l i v) d = nth j l d.
Proof. induction l; intros [|i] [|j] v d H; simpl in *; try lia; auto. Qed.

Lemma upd_app : forall l i v, (i < length l)%nat ->
  upd l i v = firstn i l ++ v :: skipn (S i) l.
Proof. induction l; intros [|i] v H; simpl in *; try lia; auto. f_equal. apply IHl. lia. Qed.

Lemma blit_length : forall dst off src,
  (off <= length dst)%nat -> length (blit dst off src) = length dst.
Proof.
  intros. unfold blit. rewrite !app_length, !firstn_length, skipn_length. lia.
Qed.

Lemma xor_list_length : forall a b, length (xor_list a b) = Nat.min (length a) (length b).
Proof. induction a; destruct b; simpl; auto. Qed.

Lemma Forall_firstn : forall (A : Type) (P : A -> Prop) n l, Forall P l -> Forall P (firstn n l).
Proof. induction n; intros [|x l] H; simpl; auto. inversion H; subst. constructor; auto. Qed.

Lemma Forall_skipn : forall (A : Type) (P : A -> Prop) n l, Forall P l -> Forall P (skipn n l).
Proof. induction n; intros [|x l] H; simpl; auto. inversion H; subst. auto. Qed.

Lemma Forall_repeat : forall (A : Type) (P : A -> Prop) (x : A) n, P x -> Forall P (repeat x n).
Proof. induction n; simpl; auto. Qed.

Lemma bytes_slice : forall l i n, bytes l -> bytes (slice l i n).
Proof. intros. apply Forall_firstn, Forall_skipn; auto. Qed.

Lemma bytes_blit : forall dst off src, bytes dst -> bytes src -> bytes (blit dst off src).
Proof.
  intros. unfold blit, bytes. rewrite !Forall_app.
  repeat split; auto using Forall_firstn, Forall_skipn.
Qed.

Lemma bytes_app : forall a b, bytes a -> bytes b -> bytes (a ++ b).
Proof. intros. apply Forall_app; auto. Qed.

(* ----- chunks ----- *)
Lemma skipn_skipn' : forall (A : Type) x y (l : list A), skipn x (skipn y l) = skipn (y + x) l.
Proof. induction y; intros; simpl; auto. destruct l; simpl; auto. now rewrite skipn_nil. Qed.

Lemma chunk_app_l : forall n a b k, ((k + 1) * n <= length a)%nat ->
  chunk n (a ++ b) k = chunk n a k.
Proof.
  intros. unfold chunk, slice. rewrite skipn_app, firstn_app, skipn_length.
  replace (n - (length a - k * n))%nat with 0%nat by lia. simpl. now rewrite app_nil_r.
Qed.

Lemma chunk_app_r : forall n a b j k, length a = (j * n)%nat ->
  chunk n (a ++ b) (j + k) = chunk n b k.
Proof.
  intros. unfold chunk, slice. rewrite skipn_app.
  rewrite skipn_all2 by lia. simpl. f_equal. f_equal. lia.
Qed.

Lemma chunks_app : forall n a b j, (n <> 0)%nat -> length a = (j * n)%nat ->
  chunks n (a ++ b) = chunks n a ++ chunks n b.
Proof.
  intros n a b j Hn Ha. unfold chunks.
  rewrite app_length, Ha.
  replace ((j * n + length b) / n)%nat with (j + length b / n)%nat
    by (rewrite Nat.div_add_l; lia).
  rewrite Nat.div_mul by lia.
  rewrite seq_app, map_app. f_equal.
  - apply map_ext_in. intros k Hk. apply in_seq in Hk. apply chunk_app_l. nia.
  - rewrite <- (Nat.add_0_r (0 + j)). simpl.
    assert (E : forall s m, map (chunk n (a ++ b)) (seq (j + s) m) = map (chunk n b) (seq s m)).
    { intros s m. revert s. induction m; intros; simpl; auto.
      f_equal. { apply chunk_app_r; auto. }
      rewrite <- (IHm (S s)). f_equal. f_equal. lia. }
    apply E.
Qed.

Lemma chunks_short : forall n l, (length l < n)%nat -> chunks n l = [].
Proof. intros. unfold chunks. rewrite Nat.div_small; auto. Qed.

Lemma chunks_one : forall n l, (n <> 0)%nat -> length l = n -> chunks n l = [l].
Proof.
  intros. unfold chunks. rewrite H0, Nat.div_same by auto. simpl.
  unfold chunk, slice. simpl. rewrite firstn_all2 by lia. auto.
Qed.

Lemma chunks_cons : forall n l, (n <> 0)%nat -> (n <= length l)%nat ->
  chunks n l = firstn n l :: chunks n (skipn n l).
Proof.
  intros. rewrite <- (firstn_skipn n l) at 1.
  rewrite chunks_app with (j := 1%nat); auto.
  - rewrite (chunks_one n (firstn n l)); auto. rewrite firstn_length. lia.
  - rewrite firstn_length. lia.
Qed.

Lemma chunks_nil : forall n, chunks n [] = [].
Proof. intros. unfold chunks. destruct n; auto. Qed.

Lemma chunks_length : forall n l, length (chunks n l) = (length l / n)%nat.
Proof. intros. unfold chunks. now rewrite map_length, seq_length. Qed.

(* ----- xor lists ----- *)
Lemma xor_list_nil_r : forall a, xor_list a [] = [].
Proof. destruct a; auto. Qed.

Lemma xor_list_app : forall a b c d, length a = length c ->
  xor_list (a ++ b) (c ++ d) = xor_list a c ++ xor_list b d.
Proof. induction a; intros b [|y c] d H; simpl in *; try lia; auto. f_equal. apply IHa; lia. Qed.

Lemma xor_list_comm : forall a b, xor_list a b = xor_list b a.
Proof. induction a; destruct b; simpl; auto. rewrite Z.lxor_comm. f_equal. auto. Qed.

Lemma xor_list_zeros : forall a n, (length a <= n)%nat -> xor_list a (repeat 0 n) = a.
Proof.
  induction a; intros [|n] H; simpl in *; auto; try lia.
  rewrite Z.lxor_0_r. f_equal. apply IHa. lia.
Qed.

Lemma xor_list_nth : forall a b i, (i < length a)%nat -> (i < length b)%nat ->
  nth i (xor_list a b) 0 = Z.lxor (nth i a 0) (nth i b 0).
Proof.
  induction a; intros [|y b] [|i] H1 H2; simpl in *; try lia; auto.
  apply IHa; lia.
Qed.

Lemma xor_list_invol : forall a b, (length a <= length b)%nat -> xor_list (xor_list a b) b = a.
Proof.
  induction a; intros [|y b] H; simpl in *; auto; try lia.
  rewrite Z.lxor_assoc, Z.lxor_nilpotent, Z.lxor_0_r. f_equal. apply IHa. lia.
Qed.

(* ----- bounds through bit operations ----- *)
Lemma bound_log2 : forall x n, 0 <= n -> 0 <= x -> (x < 2 ^ n <-> (x = 0 \/ Z.log2 x < n)).
Proof.
  intros x n Hn Hx. split.
  - intros. destruct (Z.eq_dec x 0); auto. right. apply Z.log2_lt_pow2; lia.
  - intros [->|H]. { apply Z.pow_pos_nonneg; lia. }
    destruct (Z.eq_dec x 0). { subst. apply Z.pow_pos_nonneg; lia. }
    apply Z.log2_lt_pow2; lia.
Qed.

Lemma testbit_bound : forall x n, 0 <= n -> 0 <= x ->
  (forall i, n <= i -> Z.testbit x i = false) -> x < 2 ^ n.
Proof.
  intros x n Hn Hx H. apply bound_log2; auto.
  destruct (Z.eq_dec x 0); auto. right.
  destruct (Z_lt_ge_dec (Z.log2 x) n); auto.
  assert (E := H (Z.log2 x) ltac:(lia)). rewrite Z.bit_log2 in E; [discriminate|lia].
Qed.

Lemma bound_testbit : forall x n i, 0 <= x < 2 ^ n -> n <= i -> Z.testbit x i = false.
Proof.
  intros x n i H Hi.
  assert (0 <= n). { destruct (Z_lt_ge_dec n 0); try lia. rewrite Z.pow_neg_r in H by lia. lia. }
  destruct (Z.eq_dec x 0). { subst. apply Z.bits_0. }
  apply Z.bits_above_log2; try lia.
  apply Z.lt_le_trans with n; auto. apply Z.log2_lt_pow2; lia.
Qed.

Lemma lxor_bound : forall x y n, 0 <= n -> 0 <= x < 2 ^ n -> 0 <= y < 2 ^ n ->
  0 <= Z.lxor x y < 2 ^ n.
Proof.
  intros. assert (0 <= Z.lxor x y) by (apply Z.lxor_nonneg; lia).
  split; auto. apply testbit_bound; auto. intros.
  rewrite Z.lxor_spec, (bound_testbit x n), (bound_testbit y n); auto.
Qed.

Lemma lor_bound : forall x y n, 0 <= n -> 0 <= x < 2 ^ n -> 0 <= y < 2 ^ n ->
  0 <= Z.lor x y < 2 ^ n.
Proof.
  intros. assert (0 <= Z.lor x y) by (apply Z.lor_nonneg; lia).
  split; auto. apply testbit_bound; auto. intros.
  rewrite Z.lor_spec, (bound_testbit x n), (bound_testbit y n); auto.
Qed.

Lemma land_bound : forall x y n, 0 <= n -> 0 <= x < 2 ^ n -> 0 <= Z.land x y < 2 ^ n.
Proof.
  intros. assert (0 <= Z.land x y) by (apply Z.land_nonneg; lia).
  split; auto. apply testbit_bound; auto. intros.
  rewrite Z.land_spec, (bound_testbit x n); auto.
Qed.

Lemma lxor_byte : forall x y, is_byte x -> is_byte y -> is_byte (Z.lxor x y).
Proof. intros x y Hx Hy. unfold is_byte in *. change 256 with (2 ^ 8) in *. apply lxor_bound; lia. Qed.

Lemma bytes_xor : forall a b, bytes a -> bytes b -> bytes (xor_list a b).
Proof.
  unfold bytes. induction a; intros [|y b] Ha Hb; simpl; auto.
  inversion Ha; inversion Hb; subst. constructor; auto. apply lxor_byte; auto.
Qed.

(* ----- codecs ----- *)
Lemma le_enc_length : forall n x, length (le_enc n x) = n.
Proof. induction n; intros; simpl; auto. Qed.
Lemma be_enc_length : forall n x, length (be_enc n x) = n.
Proof. intros. unfold be_enc. now rewrite rev_length, le_enc_length. Qed.

Lemma le_enc_bytes : forall n x, bytes (le_enc n x).
Proof.
  induction n; intros; simpl; constructor; [apply Z.mod_pos_bound; lia|]. apply IHn.
Qed.
Lemma be_enc_bytes : forall n x, bytes (be_enc n x).
Proof. intros. apply Forall_rev, le_enc_bytes. Qed.

Lemma pow256_S : forall n, 256 ^ Z.of_nat (S n) = 256 * 256 ^ Z.of_nat n.
Proof. intros. rewrite Nat2Z.inj_succ, Z.pow_succ_r; lia. Qed.
Lemma pow256_pos : forall n, 0 < 256 ^ Z.of_nat n.
Proof. intros. apply Z.pow_pos_nonneg; lia. Qed.

Lemma le_dec_enc : forall n x, le_dec (le_enc n x) = x mod 256 ^ Z.of_nat n.
Proof.
  induction n; intros.
  - simpl. now rewrite Z.mod_1_r.
  - cbn [le_enc le_dec]. rewrite IHn, pow256_S.
    rewrite Z.rem_mul_r; [reflexivity | lia | apply pow256_pos].
Qed.

Lemma le_dec_bound : forall l, bytes l -> 0 <= le_dec l < 256 ^ Z.of_nat (length l).
Proof.
  induction l; intros H.
  - simpl. lia.
  - inversion H; subst. cbn [le_dec length]. rewrite pow256_S.
    specialize (IHl H3). unfold is_byte in H2. nia.
Qed.

Lemma le_enc_dec : forall l, bytes l -> le_enc (length l) (le_dec l) = l.
Proof.
  induction l; intros H; auto.
  inversion H; subst. cbn [le_dec length le_enc].
  unfold is_byte in H2. f_equal.
  - replace (a + 256 * le_dec l) with (a + le_dec l * 256) by lia.
    rewrite Z.mod_add by lia. apply Z.mod_small; lia.
  - replace (a + 256 * le_dec l) with (a + le_dec l * 256) by lia.
    rewrite Z.div_add by lia. rewrite Z.div_small by lia. simpl. auto.
Qed.

Lemma be_dec_enc : forall n x, be_dec (be_enc n x) = x mod 256 ^ Z.of_nat n.
Proof. intros. unfold be_dec, be_enc. rewrite rev_involutive. apply le_dec_enc. Qed.
Lemma be_enc_dec : forall l, bytes l -> be_enc (length l) (be_dec l) = l.
Proof.
  intros. unfold be_dec, be_enc. rewrite <- (rev_length l), le_enc_dec.
  apply rev_involutive. apply Forall_rev; auto.
Qed.
Lemma be_dec_bound : forall l, bytes l -> 0 <= be_dec l < 256 ^ Z.of_nat (length l).
Proof. intros. unfold be_dec. rewrite <- rev_length. apply le_dec_bound, Forall_rev; auto. Qed.

Lemma le_enc_mod : forall n x, le_enc n (x mod 256 ^ Z.of_nat n) = le_enc n x.
Proof.
  induction n; intros; auto.
  cbn [le_enc]. rewrite pow256_S.
  rewrite Z.rem_mul_r; [| lia | apply pow256_pos].
  f_equal.
  - rewrite (Z.mul_comm 256), Z.mod_add by lia. apply Z.mod_mod. lia.
  - rewrite (Z.mul_comm 256 (_ mod _)), Z.div_add by lia.
    rewrite (Z.div_small (x mod 256)) by (apply Z.mod_pos_bound; lia).
    simpl. apply IHn.
Qed.

Lemma le_dec_inj : forall a b, bytes a -> bytes b -> length a = length b ->
  le_dec a = le_dec b -> a = b.
Proof.
  intros. rewrite <- (le_enc_dec a), <- (le_enc_dec b) by auto. now rewrite H1, H2.
Qed.

Lemma le_dec_app : forall a b, le_dec (a ++ b) = le_dec a + 256 ^ Z.of_nat (length a) * le_dec b.
Proof.
  induction a; intros.
  - cbn [app le_dec length]. change (256 ^ Z.of_nat 0) with 1. lia.
  - cbn [app le_dec length]. rewrite IHa, pow256_S. ring.
Qed.

(* ----- induction on number of blocks ----- *)
Lemma nth_firstn_lt : forall (A : Type) (l : list A) n i d, (i < n)%nat -> nth i (firstn n l) d = nth i l d.
Proof. induction l; intros [|n] [|i] d H; simpl; auto; try lia. apply IHl; lia. Qed.

Lemma nth_skipn' : forall (A : Type) (l : list A) n i d, nth i (skipn n l) d = nth (n + i) l d.
Proof. induction l; intros [|n] i d; simpl; auto. destruct i; auto. Qed.

Lemma nth_slice : forall l i n k, (k < n)%nat -> nth k (slice l i n) 0 = nth (i + k) l 0.
Proof. intros. unfold slice. rewrite nth_firstn_lt by auto. apply nth_skipn'. Qed.

Lemma list_eq_nth : forall (l l' : list Z), length l = length l' ->
  (forall i, (i < length l)%nat -> nth i l 0 = nth i l' 0) -> l = l'.
Proof. intros. apply nth_ext with (d := 0) (d' := 0); auto. Qed.

(* ----- disjoint or is addition ----- *)
Lemma land_low_high : forall a b n, 0 <= n -> 0 <= a < 2 ^ n -> Z.land a (b * 2 ^ n) = 0.
Proof.
  intros. apply Z.bits_inj'. intros i Hi. rewrite Z.land_spec, Z.bits_0.
  destruct (Z_lt_ge_dec i n).
  - rewrite Z.mul_pow2_bits_low by lia. apply andb_false_r.
  - rewrite (bound_testbit a n) by lia. reflexivity.
Qed.

Lemma lor_low_high : forall a b n, 0 <= n -> 0 <= a < 2 ^ n -> Z.lor a (b * 2 ^ n) = a + b * 2 ^ n.
Proof.
  intros. assert (L := land_low_high a b n H H0).
  rewrite Z.add_nocarry_lxor by auto. symmetry. apply Z.lxor_lor; auto.
Qed.

Lemma lxor_low_high : forall a b n, 0 <= n -> 0 <= a < 2 ^ n -> Z.lxor a (b * 2 ^ n) = a + b * 2 ^ n.
Proof.
  intros. assert (L := land_low_high a b n H H0).
  rewrite Z.add_nocarry_lxor by auto. reflexivity.
Qed.

(* ----- deciding disequality of byte strings by computation (for concrete instances) ----- *)
Fixpoint zlist_eqb (a b : list Z) : bool :=
  match a, b with
  | [], [] => true
  | x :: a', y :: b' => ((x =? y) && zlist_eqb a' b')%bool
  | _, _ => false
  end.
Lemma zlist_eqb_refl : forall a, zlist_eqb a a = true.
Proof. induction a; simpl; auto. rewrite Z.eqb_refl. auto. Qed.
Lemma zlist_neq : forall a b, zlist_eqb a b = false -> a <> b.
Proof. intros a b H ->. now rewrite zlist_eqb_refl in H. Qed.
