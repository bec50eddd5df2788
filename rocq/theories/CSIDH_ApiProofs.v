(* Lemmas about dh/csidh/csidh.go: key encodings, sampling, key generation. *)
From Coq Require Import ZArith List Lia Bool.
From Verif Require Import Lib MP Instr CSIDH_Field CSIDH_FieldProofs CSIDH_FieldProofs2 CSIDH_Curve CSIDH_Model.
Import ListNotations.
Open Scope Z_scope.

(* ---------- byte packing ---------- *)
Definition limb8 (v : Z) (b : list Z) : Z :=
  fold_left (fun v k => Z.lor v (shl64 (nth k b 0) (8 * Z.of_nat k))) (seq 0 8) v.

Lemma orBytes_eq : forall v b, length v = 8%nat -> length b = 64%nat ->
  orBytes v b = map (fun j => limb8 (nth j v 0) (slice b (8 * j) 8)) (seq 0 8).
Proof.
  intros v b Hv Hb.
  do 8 (destruct v as [|? v]; [discriminate|]). destruct v; [|discriminate]. clear Hv.
  do 64 (destruct b as [|? b]; [discriminate|]). destruct b; [|discriminate]. clear Hb.
  reflexivity.
Qed.

Lemma shl_byte : forall b k, is_byte b -> (k < 8)%nat -> shl64 b (8 * Z.of_nat k) = b * 2 ^ (8 * Z.of_nat k).
Proof.
  intros b k Hb Hk. unfold shl64, wrap64. rewrite Z.shiftl_mul_pow2 by lia. apply Z.mod_small.
  unfold is_byte in Hb. split; [apply Z.mul_nonneg_nonneg; [lia | apply Z.pow_nonneg; lia]|].
  apply Z.lt_le_trans with (256 * 2 ^ (8 * Z.of_nat k)).
  - apply Z.mul_lt_mono_pos_r; [apply Z.pow_pos_nonneg; lia | lia].
  - change 256 with (2 ^ 8). rewrite <- Z.pow_add_r by lia. apply Z.pow_le_mono_r; lia.
Qed.

Lemma lor_dec_fold : forall b k v, bytes b -> (k + length b <= 8)%nat ->
  fold_left (fun v i => Z.lor v (shl64 (nth (i - k) b 0) (8 * Z.of_nat i))) (seq k (length b)) v
  = Z.lor v (le_dec b * 2 ^ (8 * Z.of_nat k)).
Proof.
  induction b as [|x b IH]; intros k v Hb Hk.
  - cbn [length seq fold_left le_dec]. rewrite Z.mul_0_l, Z.lor_0_r. reflexivity.
  - inversion Hb as [|? ? Hx Hb']; subst. cbn [length] in Hk. cbn [length seq fold_left].
    rewrite Nat.sub_diag. cbn [nth].
    assert (E : forall acc, fold_left (fun v i => Z.lor v (shl64 (nth (i - k) (x :: b) 0) (8 * Z.of_nat i))) (seq (S k) (length b)) acc
      = fold_left (fun v i => Z.lor v (shl64 (nth (i - S k) b 0) (8 * Z.of_nat i))) (seq (S k) (length b)) acc).
    { clear IH. intros acc.
      assert (G : forall l acc, Forall (fun i => (S k <= i)%nat) l ->
        fold_left (fun v i => Z.lor v (shl64 (nth (i - k) (x :: b) 0) (8 * Z.of_nat i))) l acc =
        fold_left (fun v i => Z.lor v (shl64 (nth (i - S k) b 0) (8 * Z.of_nat i))) l acc).
      { induction l as [|i l IHl]; intros acc' F; [reflexivity|]. inversion F; subst. cbn [fold_left].
        replace (i - k)%nat with (S (i - S k)) by lia. cbn [nth]. apply IHl. assumption. }
      apply G. apply Forall_forall. intros i Hi. apply in_seq in Hi. lia. }
    rewrite E, IH by (assumption || lia). rewrite shl_byte by (assumption || lia).
    rewrite <- Z.lor_assoc. f_equal. cbn [le_dec].
    rewrite Nat2Z.inj_succ. replace (8 * Z.succ (Z.of_nat k)) with (8 + 8 * Z.of_nat k) by lia.
    rewrite Z.pow_add_r by lia. change (2 ^ 8) with 256.
    replace (x * 2 ^ (8 * Z.of_nat k)) with (Z.shiftl x (8 * Z.of_nat k)) by (rewrite Z.shiftl_mul_pow2 by lia; ring).
    replace (le_dec b * (256 * 2 ^ (8 * Z.of_nat k))) with (Z.shiftl (le_dec b * 256) (8 * Z.of_nat k)) by (rewrite Z.shiftl_mul_pow2 by lia; ring).
    rewrite <- Z.shiftl_lor. replace ((x + 256 * le_dec b) * 2 ^ (8 * Z.of_nat k)) with (Z.shiftl (x + 256 * le_dec b) (8 * Z.of_nat k)) by (rewrite Z.shiftl_mul_pow2 by lia; ring).
    f_equal. change 256 with (2 ^ 8). rewrite lor_low_high by (unfold is_byte in Hx; lia). ring.
Qed.

Lemma limb8_ok : forall v b, bytes b -> length b = 8%nat -> limb8 v b = Z.lor v (le_dec b).
Proof.
  intros v b Hb L. unfold limb8.
  pose proof (lor_dec_fold b 0 v Hb ltac:(lia)) as H. rewrite L in H.
  rewrite Z.mul_0_r, Z.pow_0_r, Z.mul_1_r in H. rewrite <- H. reflexivity.
Qed.

Lemma slice8_dec : forall b j, bytes b -> (8 * j + 8 <= length b)%nat ->
  is_w64 (le_dec (slice b (8 * j) 8)).
Proof.
  intros b j Hb L. pose proof (le_dec_bound (slice b (8 * j) 8) (bytes_slice _ _ _ Hb)) as H.
  rewrite slice_length in H by exact L. exact H.
Qed.

Lemma slice_cat : forall b i n m, slice b i (n + m) = slice b i n ++ slice b (i + n) m.
Proof.
  intros. unfold slice. rewrite <- (firstn_skipn n (firstn (n + m) (skipn i b))).
  rewrite firstn_firstn, Nat.min_l by lia. f_equal.
  rewrite skipn_firstn_comm, skipn_skipn'. f_equal. lia.
Qed.
Lemma firstn_S_slice : forall b n m, firstn (n + m) b = firstn n b ++ slice b n m.
Proof. intros. pose proof (slice_cat b 0 n m) as H. unfold slice in *. cbn [skipn] in H. exact H. Qed.

Lemma val_slices : forall b, bytes b -> forall n, (8 * n <= length b)%nat ->
  val (map (fun j => le_dec (slice b (8 * j) 8)) (seq 0 n)) = le_dec (firstn (8 * n) b).
Proof.
  intros b Hb. induction n; intros L; [reflexivity|].
  rewrite seq_S, map_app, val_app, IHn by lia. rewrite map_length, seq_length. cbn [map val].
  replace (8 * S n)%nat with (8 * n + 8)%nat by lia. rewrite firstn_S_slice, le_dec_app.
  rewrite firstn_length, Nat.min_l by lia. cbn [Nat.add].
  replace (256 ^ Z.of_nat (8 * n)) with (B ^ Z.of_nat n).
  - ring.
  - rewrite Nat2Z.inj_mul. change (Z.of_nat 8) with 8. rewrite Z.pow_mul_r by lia. reflexivity.
Qed.

Lemma lor_block : forall a b c d, 0 <= a < B -> 0 <= b < B ->
  Z.lor (a + B * c) (b + B * d) = Z.lor a b + B * Z.lor c d.
Proof.
  intros a b c d Ha Hb. rewrite (Z.mul_comm B c), (Z.mul_comm B d), (Z.mul_comm B (Z.lor c d)).
  rewrite <- !lor_low_high; try lia; try (apply lor_bound; lia).
  rewrite <- !Z.shiftl_mul_pow2, Z.shiftl_lor by lia. apply Z.bits_inj'. intros n Hn.
  rewrite !Z.lor_spec. destruct (Z.testbit a n), (Z.testbit b n), (Z.testbit (Z.shiftl c 64) n); reflexivity.
Qed.

Lemma val_lor : forall v w, words v -> words w -> length v = length w ->
  val (map (fun j => Z.lor (nth j v 0) (nth j w 0)) (seq 0 (length v))) = Z.lor (val v) (val w).
Proof.
  induction v as [|x v IH]; intros [|y w] Hv Hw L; try discriminate; [reflexivity|].
  inversion Hv; inversion Hw; subst. cbn [length seq map nth]. rewrite <- seq_shift, map_map.
  cbn [nth]. rewrite !val_cons. rewrite IH; [|assumption|assumption|injection L; auto].
  symmetry. apply lor_block; assumption.
Qed.

Lemma nth_map_seq : forall (f : nat -> Z) n i d, (i < n)%nat -> nth i (map f (seq 0 n)) d = f i.
Proof.
  intros f n i d H. rewrite (nth_indep _ d (f 0%nat)) by (rewrite map_length, seq_length; exact H).
  rewrite map_nth, seq_nth by exact H. reflexivity.
Qed.

(* orBytes is a bitwise OR of the whole 512-bit value *)
Lemma orBytes_ok : forall v b, fp_ok v -> bytes b -> length b = 64%nat ->
  fp_ok (orBytes v b) /\ val (orBytes v b) = Z.lor (val v) (le_dec b).
Proof.
  intros v b [Wv Lv] Hb Lb. rewrite orBytes_eq by assumption.
  assert (E : map (fun j => limb8 (nth j v 0) (slice b (8 * j) 8)) (seq 0 8)
            = map (fun j => Z.lor (nth j v 0) (nth j (map (fun j => le_dec (slice b (8 * j) 8)) (seq 0 8)) 0)) (seq 0 (length v))).
  { rewrite Lv. apply map_ext_in. intros j Hj. apply in_seq in Hj.
    rewrite limb8_ok; [|apply bytes_slice; assumption|rewrite slice_length; lia].
    rewrite nth_map_seq by lia. reflexivity. }
  rewrite E.
  assert (W : words (map (fun j => le_dec (slice b (8 * j) 8)) (seq 0 8))).
  { apply Forall_forall. intros z Hz. apply in_map_iff in Hz. destruct Hz as (j & <- & Hj). apply in_seq in Hj.
    apply slice8_dec; [assumption|lia]. }
  rewrite val_lor; [|assumption|exact W|rewrite map_length, seq_length; exact Lv].
  rewrite (val_slices b Hb 8) by lia. rewrite firstn_all2 by lia. split; [|reflexivity].
  split; [|rewrite map_length, seq_length; exact Lv].
  apply Forall_forall. intros z Hz. apply in_map_iff in Hz. destruct Hz as (j & <- & Hj).
  apply lor_is_w64; apply words_nth; assumption.
Qed.

Lemma fp_zero_ok : fp_ok (repeat 0 8).
Proof. split; [apply words_repeat_0 | reflexivity]. Qed.

Lemma orBytes_zero : forall b, bytes b -> length b = 64%nat ->
  fp_ok (orBytes (repeat 0 8) b) /\ val (orBytes (repeat 0 8) b) = le_dec b.
Proof.
  intros b Hb L. destruct (orBytes_ok _ b fp_zero_ok Hb L) as [H1 H2]. split; [exact H1|].
  rewrite H2, val_repeat_0. reflexivity.
Qed.

Lemma le_enc_nth : forall n x i, (i < n)%nat -> nth i (le_enc n x) 0 = (x / 256 ^ Z.of_nat i) mod 256.
Proof.
  induction n; intros x i H; [lia|]. destruct i.
  - cbn [le_enc nth]. change (Z.of_nat 0) with 0. rewrite Z.pow_0_r, Z.div_1_r. reflexivity.
  - cbn [le_enc nth]. rewrite IHn by lia. rewrite pow256_S. rewrite Z.div_div by (try apply pow256_pos; lia). reflexivity.
Qed.

Lemma export_eq : forall a, fp_ok a ->
  map (fun i => wrap8 (Z.shiftr (nth (i / limbByteSize) a 0) (8 * Z.of_nat (i mod 8)))) (seq 0 64) = le_enc 64 (val a).
Proof.
  intros a [W L]. apply list_eq_nth; [rewrite map_length, seq_length, le_enc_length; reflexivity|].
  intros i Hi. rewrite map_length, seq_length in Hi.
  rewrite le_enc_nth by exact Hi.
  rewrite nth_map_seq by exact Hi.
  unfold wrap8. change limbByteSize with 8%nat.
  pose proof (Nat.div_mod i 8 ltac:(lia)) as D. pose proof (Nat.mod_upper_bound i 8 ltac:(lia)) as U.
  set (q := (i / 8)%nat) in *. set (r := (i mod 8)%nat) in *.
  assert (N : nth q a 0 = (val a / B ^ Z.of_nat q) mod B).
  { apply nth_digit. exact W. }
  rewrite N, Z.shiftr_div_pow2 by lia.
  assert (E : 256 ^ Z.of_nat i = B ^ Z.of_nat q * 2 ^ (8 * Z.of_nat r)).
  { change 256 with (2 ^ 8). rewrite <- !Z.pow_mul_r, <- Z.pow_add_r by lia. f_equal. lia. }
  rewrite E, <- Z.div_div by (try apply Z.pow_nonzero; try apply Z.pow_pos_nonneg; lia).
  set (v := val a / B ^ Z.of_nat q).
  assert (H : B = 2 ^ (8 * Z.of_nat r) * 2 ^ (64 - 8 * Z.of_nat r)).
  { rewrite <- Z.pow_add_r by lia. f_equal. lia. }
  rewrite H at 1.
  assert (p1 : 0 < 2 ^ (8 * Z.of_nat r)) by (apply Z.pow_pos_nonneg; lia).
  assert (p2 : 0 < 2 ^ (64 - 8 * Z.of_nat r)) by (apply Z.pow_pos_nonneg; lia).
  rewrite Z.rem_mul_r by lia.
  rewrite (Z.mul_comm (2 ^ (8 * Z.of_nat r)) ((v / _) mod _)), Z.div_add by lia. rewrite Z.div_small by (apply Z.mod_pos_bound; lia).
  rewrite Z.add_0_l. symmetry. apply Znumtheory.Zmod_div_mod; [lia|lia|].
  exists (2 ^ (56 - 8 * Z.of_nat r)). change 256 with (2 ^ 8). rewrite <- Z.pow_add_r by lia. f_equal. lia.
Qed.

(* ---------- randFp ---------- *)
Lemma fpMask_val : fpMask = 2 ^ 63 - 1. Proof. reflexivity. Qed.

Lemma randFp_cand_ok : forall b, bytes b -> length b = 64%nat ->
  fp_ok (randFp_cand b) /\ val (randFp_cand b) = le_dec b mod 2 ^ 511.
Proof.
  intros b Hb L. unfold randFp_cand. change numWords with 8%nat.
  destruct (orBytes_zero b Hb L) as [F V]. destruct (fp_ok_ex _ F) as (x0 & x1 & x2 & x3 & x4 & x5 & x6 & x7 & E & W0 & W1 & W2 & W3 & W4 & W5 & W6 & W7).
  rewrite E in *. cbn [firstn nth app]. rewrite fpMask_val.
  assert (M : Z.land x7 (2 ^ 63 - 1) = x7 mod 2 ^ 63) by (exact (Z.land_ones x7 63 ltac:(lia))).
  rewrite M. pose proof (Z.mod_pos_bound x7 (2 ^ 63) ltac:(lia)) as Bm. split.
  - split; [|reflexivity]. unfold words. repeat (apply Forall_cons; [assumption|]). apply Forall_cons; [unfold is_w64; lia|apply Forall_nil].
  - rewrite <- V. rewrite !val_cons. cbn [val]. rewrite !Z.mul_0_r, !Z.add_0_r.
    pose proof (Z.div_mod x7 (2 ^ 63) ltac:(lia)) as D.
    apply Z.mod_unique_pos with (q := x7 / 2 ^ 63).
    + unfold is_w64 in *. lia.
    + rewrite D at 1. ring.
Qed.

Definition cand (rng : list Z) (k : nat) : Z := le_dec (slice rng (64 * k) 64) mod 2 ^ 511.

Lemma slice_skipn : forall l k i n, slice (skipn k l) i n = slice l (k + i) n.
Proof. intros. unfold slice. rewrite skipn_skipn'. reflexivity. Qed.

Lemma randFp_loop_ok : forall f rng, bytes rng -> (length rng < 64 * f)%nat ->
  match randFp_loop f rng with
  | Some (v, rest) => exists k, (64 * (k + 1) <= length rng)%nat /\ rest = skipn (64 * (k + 1)) rng /\
        fp_red v /\ val v = cand rng k /\ forall j, (j < k)%nat -> P <= cand rng j
  | None => forall j, (64 * (j + 1) <= length rng)%nat -> P <= cand rng j
  end.
Proof.
  induction f; intros rng Hb L; [lia|]. cbn [randFp_loop]. unfold readFull64.
  destruct (Nat.ltb_spec (length rng) 64) as [h|h].
  - intros j Hj. lia.
  - assert (Hs : bytes (firstn 64 rng)) by (apply Forall_firstn; exact Hb).
    assert (Ls : length (firstn 64 rng) = 64%nat) by (rewrite firstn_length; lia).
    destruct (randFp_cand_ok _ Hs Ls) as [F V].
    assert (C0 : val (randFp_cand (firstn 64 rng)) = cand rng 0).
    { rewrite V. unfold cand, slice. rewrite Nat.mul_0_r. reflexivity. }
    rewrite (isLess_ok _ _ F p_ok). fold P.
    destruct (Z.ltb_spec (val (randFp_cand (firstn 64 rng))) P) as [c|c].
    + exists 0%nat. change (64 * (0 + 1))%nat with 64%nat. split; [exact h|]. split; [reflexivity|].
      split; [split; [exact F|exact c]|]. split; [exact C0|]. intros j Hj. lia.
    + assert (Hb' : bytes (skipn 64 rng)) by (apply Forall_skipn; exact Hb).
      specialize (IHf (skipn 64 rng) Hb'). rewrite skipn_length in IHf.
      specialize (IHf ltac:(lia)).
      assert (CS : forall j, cand (skipn 64 rng) j = cand rng (S j)).
      { intros j. unfold cand. rewrite slice_skipn. do 3 f_equal. lia. }
      destruct (randFp_loop f (skipn 64 rng)) as [[v rest]|].
      * destruct IHf as (k & K1 & K2 & K3 & K4 & K5). exists (S k). split; [lia|]. split.
        { rewrite K2, skipn_skipn'. f_equal. lia. }
        split; [exact K3|]. split; [rewrite K4; apply CS|]. intros j Hj. destruct j; [lia|].
        rewrite <- CS. apply K5. lia.
      * intros j Hj. destruct j; [lia|]. rewrite <- CS. apply IHf. lia.
Qed.

(* ---------- private key sampling ---------- *)
Definition s4 (n : Z) : Z := if n <? 8 then n else n - 16.
Definition nib (e : list Z) (i : nat) : Z :=
  if Nat.even i then nth (i / 2) e 0 mod 16 else nth (i / 2) e 0 / 16.

Lemma forall_byte : forall (Q : Z -> bool), forallb Q (map Z.of_nat (seq 0 256)) = true -> forall b, is_byte b -> Q b = true.
Proof.
  intros Q H b Hb. rewrite forallb_forall in H. apply H. apply in_map_iff. exists (Z.to_nat b).
  unfold is_byte in Hb. split; [lia|]. apply in_seq. lia.
Qed.

Lemma expOf_ok : forall e i, bytes e -> 
  expOf e i = s4 (if Nat.even i then nth (i / 2) e 0 / 16 else nth (i / 2) e 0 mod 16).
Proof.
  intros e i He. assert (Hx : is_byte (nth (i / 2) e 0)).
  { destruct (Nat.lt_ge_cases (i / 2) (length e)) as [h|h].
    - unfold bytes in He. rewrite Forall_forall in He. apply He. apply nth_In. exact h.
    - rewrite nth_overflow by exact h. unfold is_byte. lia. }
  unfold expOf. generalize dependent (nth (i / 2) e 0). intros x Hx.
  destruct (Nat.even i) eqn:E.
  - assert (M : (i mod 2)%nat = 0%nat).
    { apply Nat.even_spec in E. destruct E as [m ->]. rewrite Nat.mul_comm. apply Nat.mod_mul. lia. }
    rewrite M. change (Z.of_nat 0 * 4) with 0.
    apply Z.eqb_eq. revert x Hx. apply forall_byte. vm_compute. reflexivity.
  - assert (M : (i mod 2)%nat = 1%nat).
    { assert (O : Nat.odd i = true) by (unfold Nat.odd; rewrite E; reflexivity). apply Nat.odd_spec in O. destruct O as [m ->].
      rewrite Nat.add_comm, Nat.mul_comm, Nat.mod_add by lia. reflexivity. }
    rewrite M. change (Z.of_nat 1 * 4) with 4.
    apply Z.eqb_eq. revert x Hx. apply forall_byte. vm_compute. reflexivity.
Qed.

(* the key holds the nibbles of the accepted bytes a, the rest is zero *)
Definition packed (a e : list Z) : Prop :=
  bytes e /\ length e = 37%nat /\ forall i, (i < 74)%nat -> nib e i = nth i a 0 mod 16.

Lemma accept_byte : forall b, is_byte b -> accept b = true <-> -5 <= s8 b <= 5.
Proof. intros b Hb. unfold accept, expMax. rewrite andb_true_iff, !Z.leb_le. lia. Qed.

Lemma lor_lo : forall x b, is_byte x -> is_byte b -> x mod 16 = 0 ->
  is_byte (Z.lor x (wrap8 (Z.shiftl (Z.land b 15) 0))) /\
  Z.lor x (wrap8 (Z.shiftl (Z.land b 15) 0)) mod 16 = b mod 16 /\
  Z.lor x (wrap8 (Z.shiftl (Z.land b 15) 0)) / 16 = x / 16.
Proof.
  intros x b Hx Hb H0. rewrite Z.shiftl_0_r. change 15 with (Z.ones 4). rewrite Z.land_ones by lia. change (2 ^ 4) with 16.
  unfold is_byte in *. pose proof (Z.mod_pos_bound b 16 ltac:(lia)). unfold wrap8. rewrite Z.mod_small by lia.
  pose proof (Z.div_mod x 16 ltac:(lia)) as D. rewrite H0, Z.add_0_r in D.
  assert (E : Z.lor x (b mod 16) = b mod 16 + (x / 16) * 16).
  { rewrite Z.lor_comm. rewrite D at 1. rewrite (Z.mul_comm 16). change 16 with (2 ^ 4) at 2 3. rewrite lor_low_high by (change (2 ^ 4) with 16; lia). reflexivity. }
  rewrite E. assert (0 <= x / 16 < 16) by (split; [apply Z.div_pos; lia | apply Z.div_lt_upper_bound; lia]).
  split; [lia|]. split.
  - rewrite Z_mod_plus_full. apply Z.mod_mod. lia.
  - rewrite Z.div_add by lia. rewrite Z.div_small by lia. reflexivity.
Qed.
Lemma lor_hi : forall x b, is_byte x -> is_byte b -> x / 16 = 0 ->
  is_byte (Z.lor x (wrap8 (Z.shiftl (Z.land b 15) 4))) /\
  Z.lor x (wrap8 (Z.shiftl (Z.land b 15) 4)) mod 16 = x mod 16 /\
  Z.lor x (wrap8 (Z.shiftl (Z.land b 15) 4)) / 16 = b mod 16.
Proof.
  intros x b Hx Hb H0. rewrite Z.shiftl_mul_pow2 by lia. change 15 with (Z.ones 4). rewrite Z.land_ones by lia.
  unfold is_byte in *. pose proof (Z.mod_pos_bound b (2 ^ 4) ltac:(lia)) as Bb.
  change (2 ^ 4) with 16 in *. unfold wrap8. rewrite (Z.mod_small (b mod 16 * 16)) by lia.
  pose proof (Z.div_mod x 16 ltac:(lia)) as D. rewrite H0 in D. pose proof (Z.mod_pos_bound x 16 ltac:(lia)).
  assert (E : Z.lor x (b mod 16 * 16) = x + b mod 16 * 16).
  { change 16 with (2 ^ 4) at 2 4. apply lor_low_high; change (2 ^ 4) with 16; lia. }
  rewrite E. split; [lia|]. split.
  - apply Z_mod_plus_full.
  - rewrite Z.div_add by lia. rewrite H0. reflexivity.
Qed.

Lemma orNibble_nth : forall e i b j, (i / 2 < length e)%nat ->
  nth j (orNibble e i b) 0 = if (j =? i / 2)%nat
     then Z.lor (nth (i / 2) e 0) (wrap8 (Z.shiftl (Z.land b 15) (Z.of_nat (i mod 2) * 4))) else nth j e 0.
Proof.
  intros e i b j H. unfold orNibble. cbv zeta. set (q := (i / 2)%nat) in *.
  destruct (Nat.eqb_spec j q) as [->|ne].
  - rewrite app_nth2 by (rewrite firstn_length; lia). rewrite firstn_length, Nat.min_l, Nat.sub_diag by lia. reflexivity.
  - destruct (Nat.lt_ge_cases j q) as [h|h].
    + rewrite app_nth1 by (rewrite firstn_length; lia). apply nth_firstn_lt. exact h.
    + rewrite app_nth2 by (rewrite firstn_length; lia). rewrite firstn_length, Nat.min_l by lia.
      destruct (j - q)%nat as [|d] eqn:D; [lia|]. cbn [app nth]. rewrite nth_skipn'. f_equal. lia.
Qed.
Lemma orNibble_length : forall e i b, (i / 2 < length e)%nat -> length (orNibble e i b) = length e.
Proof. intros. unfold orNibble. cbv zeta. rewrite !app_length, firstn_length, skipn_length. cbn [length]. lia. Qed.

Lemma even_div : forall i, Nat.even i = true -> (i = 2 * (i / 2) /\ i mod 2 = 0)%nat.
Proof.
  intros i E. apply Nat.even_spec in E. destruct E as [m ->].
  rewrite Nat.mul_comm, Nat.div_mul, Nat.mod_mul by lia. lia.
Qed.
Lemma odd_div : forall i, Nat.even i = false -> (i = 2 * (i / 2) + 1 /\ i mod 2 = 1)%nat.
Proof.
  intros i E. assert (O : Nat.odd i = true) by (unfold Nat.odd; rewrite E; reflexivity). apply Nat.odd_spec in O. destruct O as [m ->].
  rewrite Nat.add_comm, Nat.mul_comm. rewrite Nat.div_add, Nat.mod_add by lia.
  change (1 / 2)%nat with 0%nat. change (1 mod 2)%nat with 1%nat. lia.
Qed.
Lemma half_lt : forall i n, (i < 2 * n)%nat -> (i / 2 < n)%nat.
Proof. intros. apply Nat.div_lt_upper_bound; lia. Qed.
Opaque Nat.div Nat.modulo.

Lemma orNibble_packed : forall a e b, packed a e -> (length a < 74)%nat -> is_byte b ->
  packed (a ++ [b]) (orNibble e (length a) b).
Proof.
  intros a e b (He & Le & Hn) La Hb. set (i := length a) in *.
  assert (Hi : (i / 2 < 37)%nat) by (apply half_lt; lia).
  assert (Hx : is_byte (nth (i / 2) e 0)) by (unfold bytes in He; rewrite Forall_forall in He; apply He, nth_In; lia).
  pose proof (Hn i La) as Ni. unfold nib in Ni. rewrite (nth_overflow a) in Ni by (unfold i; lia). rewrite Zmod_0_l in Ni.
  assert (A : forall j, (j < 74)%nat -> j <> i -> nth j (a ++ [b]) 0 = nth j a 0).
  { intros j Hj ne. destruct (Nat.lt_ge_cases j i) as [h|h].
    - apply app_nth1. exact h.
    - rewrite !nth_overflow; [reflexivity|fold i; lia|rewrite app_length; cbn [length]; fold i; lia]. }
  assert (Ai : nth i (a ++ [b]) 0 = b) by (rewrite app_nth2 by (unfold i; lia); unfold i; rewrite Nat.sub_diag; reflexivity).
  destruct (Nat.even i) eqn:E.
  - destruct (even_div i E) as [E1 E2]. destruct (lor_lo _ b Hx Hb Ni) as (L1 & L2 & L3).
    split; [|split].
    + apply Forall_forall. intros z Hz. apply (In_nth _ _ 0) in Hz. destruct Hz as (j & _ & <-).
      rewrite orNibble_nth by lia. destruct (Nat.eqb_spec j (i / 2)).
      * rewrite E2. exact L1.
      * destruct (Nat.lt_ge_cases j (length e)) as [h|h]; [|rewrite nth_overflow by exact h; unfold is_byte; lia].
        unfold bytes in He. rewrite Forall_forall in He. apply He, nth_In. exact h.
    + rewrite orNibble_length by lia. exact Le.
    + intros j Hj. unfold nib. rewrite !orNibble_nth by lia.
      destruct (Nat.eqb_spec (j / 2) (i / 2)) as [q|q].
      * rewrite E2. change (Z.of_nat 0 * 4) with 0. destruct (Nat.even j) eqn:Ej.
        -- destruct (even_div j Ej). assert (j = i) by lia. subst j. rewrite Ai. exact L2.
        -- destruct (odd_div j Ej). rewrite L3. rewrite A by lia. rewrite <- Hn by lia. unfold nib. rewrite Ej, q. reflexivity.
      * rewrite A by (try lia; intros ->; apply q; reflexivity). rewrite <- Hn by lia. reflexivity.
  - destruct (odd_div i E) as [E1 E2]. destruct (lor_hi _ b Hx Hb Ni) as (L1 & L2 & L3).
    split; [|split].
    + apply Forall_forall. intros z Hz. apply (In_nth _ _ 0) in Hz. destruct Hz as (j & _ & <-).
      rewrite orNibble_nth by lia. destruct (Nat.eqb_spec j (i / 2)).
      * rewrite E2. exact L1.
      * destruct (Nat.lt_ge_cases j (length e)) as [h|h]; [|rewrite nth_overflow by exact h; unfold is_byte; lia].
        unfold bytes in He. rewrite Forall_forall in He. apply He, nth_In. exact h.
    + rewrite orNibble_length by lia. exact Le.
    + intros j Hj. unfold nib. rewrite !orNibble_nth by lia.
      destruct (Nat.eqb_spec (j / 2) (i / 2)) as [q|q].
      * rewrite E2. change (Z.of_nat 1 * 4) with 4. destruct (Nat.even j) eqn:Ej.
        -- destruct (even_div j Ej). rewrite L2. rewrite A by lia. rewrite <- Hn by lia. unfold nib. rewrite Ej, q. reflexivity.
        -- destruct (odd_div j Ej). assert (j = i) by lia. subst j. rewrite Ai. exact L3.
      * rewrite A by (try lia; intros ->; apply q; reflexivity). rewrite <- Hn by lia. reflexivity.
Qed.

Lemma genBuf_ok : forall buf a e, bytes buf -> packed a e -> (length a < 74)%nat ->
  exists a', genBuf buf (length a) e = (length a', snd (genBuf buf (length a) e)) /\
             a' = firstn 74 (a ++ filter accept buf) /\ packed a' (snd (genBuf buf (length a) e)).
Proof.
  induction buf as [|b buf IH]; intros a e Hb Hp La.
  - exists a. cbn [genBuf filter snd]. rewrite app_nil_r, firstn_all2 by lia. tauto.
  - inversion Hb as [|? ? Hb1 Hb2]; subst. cbn [genBuf filter]. destruct (accept b) eqn:A.
    + pose proof (orNibble_packed a e b Hp La Hb1) as Hp'.
      destruct (Nat.eqb_spec (S (length a)) primeCount) as [h|h]; unfold primeCount in h.
      * exists (a ++ [b]). cbn [snd]. split; [|split].
        -- rewrite app_length. cbn [length]. rewrite Nat.add_comm. reflexivity.
        -- replace (a ++ b :: filter accept buf) with ((a ++ [b]) ++ filter accept buf) by (rewrite <- app_assoc; reflexivity).
           rewrite firstn_app, firstn_all2 by (rewrite app_length; cbn [length]; lia).
           replace (74 - length (a ++ [b]))%nat with 0%nat by (rewrite app_length; cbn [length]; lia).
           rewrite firstn_O, app_nil_r. reflexivity.
        -- exact Hp'.
      * specialize (IH (a ++ [b]) (orNibble e (length a) b) Hb2 Hp').
        rewrite app_length in IH. cbn [length] in IH. rewrite Nat.add_comm in IH. cbn [Nat.add] in IH.
        destruct (IH ltac:(lia)) as (a' & E1 & E2 & E3). exists a'. split; [exact E1|]. split; [|exact E3].
        rewrite E2, <- app_assoc. reflexivity.
    + apply (IH a e Hb2 Hp La).
Qed.

Lemma filter_split : forall (f : Z -> bool) n l, filter f l = filter f (firstn n l) ++ filter f (skipn n l).
Proof. intros. rewrite <- filter_app, firstn_skipn. reflexivity. Qed.

Lemma genLoop_done : forall f i e rng, (74 <= i)%nat -> genLoop (S f) i e rng = (false, e, rng).
Proof. intros f i e rng H. cbn [genLoop]. unfold primeCount. destruct (Nat.ltb_spec i 74); [lia|reflexivity]. Qed.

Lemma firstn_cat : forall (l : list Z) n m, (n <= length l)%nat -> firstn (n + m) l = firstn n l ++ firstn m (skipn n l).
Proof. intros l n m H. rewrite firstn_S_slice. reflexivity. Qed.

Lemma genLoop_ok : forall f a e rng, bytes rng -> packed a e -> (length a < 74)%nat -> (length rng + 64 < 64 * f)%nat ->
  match genLoop f (length a) e rng with
  | (false, e', rest) => exists k, (1 <= k)%nat /\ (64 * k <= length rng)%nat /\ rest = skipn (64 * k) rng /\
        (74 <= length (a ++ filter accept (firstn (64 * k) rng)))%nat /\
        (length (a ++ filter accept (firstn (64 * (k - 1)) rng)) < 74)%nat /\
        packed (firstn 74 (a ++ filter accept (firstn (64 * k) rng))) e'
  | (true, _, _) => forall k, (64 * k <= length rng)%nat -> (length (a ++ filter accept (firstn (64 * k) rng)) < 74)%nat
  end.
Proof.
  induction f; intros a e rng Hb Hp La Hf; [lia|]. cbn [genLoop].
  change primeCount with 74%nat. destruct (Nat.ltb_spec (length a) 74) as [_|h]; [|lia].
  unfold readFull64. destruct (Nat.ltb_spec (length rng) 64) as [h|h].
  - intros k Hk. assert (k = 0)%nat by lia. subst k. rewrite Nat.mul_0_r. cbn [firstn filter]. rewrite app_nil_r. exact La.
  - assert (Hs : bytes (firstn 64 rng)) by (apply Forall_firstn; exact Hb).
    destruct (genBuf_ok (firstn 64 rng) a e Hs Hp La) as (a' & E1 & E2 & E3). rewrite E1.
    set (e1 := snd (genBuf (firstn 64 rng) (length a) e)) in *. clearbody e1.
    set (F := filter accept (firstn 64 rng)) in *.
    assert (LA : length a' = Nat.min 74 (length a + length F)) by (rewrite E2, firstn_length, app_length; reflexivity).
    assert (Hb' : bytes (skipn 64 rng)) by (apply Forall_skipn; exact Hb).
    destruct (Nat.lt_ge_cases (length a') 74) as [c|c].
    + assert (EA : a' = a ++ F) by (rewrite E2; apply firstn_all2; rewrite app_length; lia).
      specialize (IHf a' e1 (skipn 64 rng) Hb' E3 c). rewrite skipn_length in IHf. specialize (IHf ltac:(lia)).
      assert (C : forall k, a' ++ filter accept (firstn (64 * k) (skipn 64 rng)) = a ++ filter accept (firstn (64 * S k) rng)).
      { intros k. replace (64 * S k)%nat with (64 + 64 * k)%nat by lia. rewrite (firstn_cat rng) by exact h.
        rewrite filter_app, EA, <- app_assoc. reflexivity. }
      destruct (genLoop f (length a') e1 (skipn 64 rng)) as [[err e'] rest]. destruct err.
      * intros k Hk. destruct k.
        -- rewrite Nat.mul_0_r. cbn [firstn filter]. rewrite app_nil_r. exact La.
        -- rewrite <- C. apply IHf. lia.
      * destruct IHf as (k & K0 & K1 & K2 & K3 & K4 & K5). exists (S k).
        split; [lia|]. split; [lia|]. split.
        { rewrite K2, skipn_skipn'. f_equal. lia. }
        rewrite C in K3, K5. split; [exact K3|]. split; [|exact K5].
        rewrite C in K4. replace (S k - 1)%nat with (S (k - 1)) by lia. exact K4.
    + destruct f; [lia|]. rewrite genLoop_done by lia.
      exists 1%nat. change (64 * 1)%nat with 64%nat. change (64 * (1 - 1))%nat with 0%nat.
      split; [lia|]. split; [lia|]. split; [reflexivity|].
      fold F. rewrite app_length. split; [lia|]. split; [cbn [firstn filter]; rewrite app_nil_r; exact La|].
      rewrite <- E2. exact E3.
Qed.

Lemma packed_nil : packed [] (repeat 0 37).
Proof.
  split; [|split].
  - apply Forall_repeat. unfold is_byte. lia.
  - reflexivity.
  - intros i Hi. unfold nib.
    assert (H : forall j, nth j (repeat 0 37) 0 = 0).
    { intros j. destruct (Nat.lt_ge_cases j 37) as [h|h]; [apply nth_repeat|apply nth_overflow; rewrite repeat_length; exact h]. }
    rewrite H. destruct (Nat.even i); destruct i; reflexivity.
Qed.
