(* Inverse cipher, key expansion and the cipher object. *)
From Coq Require Import ZArith List Bool Lia.
From Verif Require Import Lib AES_Tables AES_Spec AES_Model AES_Proofs.
Import ListNotations.
Open Scope Z_scope.

(** * Inverses *)
Lemma map_id_on : forall (f : Z -> Z) l, bytes l -> (forall x, is_byte x -> f x = x) -> map f l = l.
Proof. induction l; intros H E; auto. inversion H; subst. cbn. rewrite E, IHl; auto. Qed.
Lemma inv_sub : forall s, bytes s -> InvSubBytes (SubBytes s) = s.
Proof. intros. unfold InvSubBytes, SubBytes. rewrite map_map. apply map_id_on; auto. apply S1_S0. Qed.
Lemma sub_inv : forall s, bytes s -> SubBytes (InvSubBytes s) = s.
Proof. intros. unfold InvSubBytes, SubBytes. rewrite map_map. apply map_id_on; auto. apply S0_S1. Qed.
Lemma inv_shift : forall s, length s = 16%nat -> InvShiftRows (ShiftRows s) = s.
Proof. intros s L. destruct (list16 _ L) as (?&?&?&?&?&?&?&?&?&?&?&?&?&?&?&?&->). reflexivity. Qed.
Lemma shift_inv : forall s, length s = 16%nat -> ShiftRows (InvShiftRows s) = s.
Proof. intros s L. destruct (list16 _ L) as (?&?&?&?&?&?&?&?&?&?&?&?&?&?&?&?&->). reflexivity. Qed.

Definition x4 (p q r t : Z) := Z.lxor p (Z.lxor q (Z.lxor r t)).
Lemma x4_lxor : forall a b c d a' b' c' d',
  x4 (Z.lxor a a') (Z.lxor b b') (Z.lxor c c') (Z.lxor d d') = Z.lxor (x4 a b c d) (x4 a' b' c' d').
Proof. intros. unfold x4. rewrite (lxor_swap4 c), (lxor_swap4 b), (lxor_swap4 a). reflexivity. Qed.
Lemma x4_swap : forall a b c d e f g h i j k l m n o p,
  x4 (x4 a b c d) (x4 e f g h) (x4 i j k l) (x4 m n o p) = x4 (x4 a e i m) (x4 b f j n) (x4 c g k o) (x4 d h l p).
Proof.
  intros. unfold x4 at 2 3 4 5. rewrite !x4_lxor. reflexivity.
Qed.

Definition comb (a0 a1 a2 a3 b0 b1 b2 b3 x : Z) : Z :=
  x4 (gmul a0 (gmul b0 x)) (gmul a1 (gmul b1 x)) (gmul a2 (gmul b2 x)) (gmul a3 (gmul b3 x)).

Lemma gmul_x4 : forall c p q r t, is_byte p -> is_byte q -> is_byte r -> is_byte t ->
  gmul c (x4 p q r t) = x4 (gmul c p) (gmul c q) (gmul c r) (gmul c t).
Proof. intros. unfold x4. rewrite !gmul_lxor by bytesolve. reflexivity. Qed.

Ltac comb_tac v := intros x H; apply Z.eqb_eq; revert x H; apply (forall_bytes v); vm_compute; reflexivity.
Lemma comb_i0 : forall x, is_byte x -> comb 14 11 13 9 2 1 1 3 x = x.
Proof. comb_tac (fun x => comb 14 11 13 9 2 1 1 3 x =? x). Qed.
Lemma comb_i1 : forall x, is_byte x -> comb 14 11 13 9 3 2 1 1 x = 0.
Proof. comb_tac (fun x => comb 14 11 13 9 3 2 1 1 x =? 0). Qed.
Lemma comb_i2 : forall x, is_byte x -> comb 14 11 13 9 1 3 2 1 x = 0.
Proof. comb_tac (fun x => comb 14 11 13 9 1 3 2 1 x =? 0). Qed.
Lemma comb_i3 : forall x, is_byte x -> comb 14 11 13 9 1 1 3 2 x = 0.
Proof. comb_tac (fun x => comb 14 11 13 9 1 1 3 2 x =? 0). Qed.
Lemma comb_m0 : forall x, is_byte x -> comb 2 3 1 1 14 9 13 11 x = x.
Proof. comb_tac (fun x => comb 2 3 1 1 14 9 13 11 x =? x). Qed.
Lemma comb_m1 : forall x, is_byte x -> comb 2 3 1 1 11 14 9 13 x = 0.
Proof. comb_tac (fun x => comb 2 3 1 1 11 14 9 13 x =? 0). Qed.
Lemma comb_m2 : forall x, is_byte x -> comb 2 3 1 1 13 11 14 9 x = 0.
Proof. comb_tac (fun x => comb 2 3 1 1 13 11 14 9 x =? 0). Qed.
Lemma comb_m3 : forall x, is_byte x -> comb 2 3 1 1 9 13 11 14 x = 0.
Proof. comb_tac (fun x => comb 2 3 1 1 9 13 11 14 x =? 0). Qed.

(* rotating both rows of coefficients does not change comb *)
Lemma comb_rot : forall a0 a1 a2 a3 b0 b1 b2 b3 x, comb a0 a1 a2 a3 b0 b1 b2 b3 x = comb a3 a0 a1 a2 b3 b0 b1 b2 x.
Proof.
  intros. unfold comb, x4. generalize (gmul a0 (gmul b0 x)) (gmul a1 (gmul b1 x)) (gmul a2 (gmul b2 x)) (gmul a3 (gmul b3 x)).
  intros p q r t. rewrite (Z.lxor_comm t). rewrite !Z.lxor_assoc. reflexivity.
Qed.
Lemma x4_0 : forall x, x4 x 0 0 0 = x /\ x4 0 x 0 0 = x /\ x4 0 0 x 0 = x /\ x4 0 0 0 x = x.
Proof. intros. unfold x4. rewrite ?Z.lxor_0_r, ?Z.lxor_0_l. auto. Qed.

Lemma mixcol_row : forall m n o p a0 a1 a2 a3 s0 s1 s2 s3,
  is_byte s0 -> is_byte s1 -> is_byte s2 -> is_byte s3 ->
  x4 (gmul m (x4 (gmul a0 s0) (gmul a1 s1) (gmul a2 s2) (gmul a3 s3)))
     (gmul n (x4 (gmul a3 s0) (gmul a0 s1) (gmul a1 s2) (gmul a2 s3)))
     (gmul o (x4 (gmul a2 s0) (gmul a3 s1) (gmul a0 s2) (gmul a1 s3)))
     (gmul p (x4 (gmul a1 s0) (gmul a2 s1) (gmul a3 s2) (gmul a0 s3))) =
  x4 (comb m n o p a0 a3 a2 a1 s0) (comb m n o p a1 a0 a3 a2 s1) (comb m n o p a2 a1 a0 a3 s2) (comb m n o p a3 a2 a1 a0 s3).
Proof. intros. rewrite !gmul_x4 by bytesolve. unfold comb. apply x4_swap. Qed.

Lemma mixcol_unfold : forall a0 a1 a2 a3 p q r t, mixcol a0 a1 a2 a3 [p; q; r; t] =
  [x4 (gmul a0 p) (gmul a1 q) (gmul a2 r) (gmul a3 t); x4 (gmul a3 p) (gmul a0 q) (gmul a1 r) (gmul a2 t);
   x4 (gmul a2 p) (gmul a3 q) (gmul a0 r) (gmul a1 t); x4 (gmul a1 p) (gmul a2 q) (gmul a3 r) (gmul a0 t)].
Proof. reflexivity. Qed.

Lemma inv_mixcol : forall p q r t, bytes [p; q; r; t] -> mixcol 14 11 13 9 (mixcol 2 3 1 1 [p; q; r; t]) = [p; q; r; t].
Proof.
  intros p q r t H. inv_bytes. rewrite (mixcol_unfold 2 3 1 1), (mixcol_unfold 14 11 13 9).
  rewrite !mixcol_row by assumption.
  rewrite !(comb_rot 9), !(comb_rot 13), !(comb_rot 11).
  rewrite !comb_i0, !comb_i1, !comb_i2, !comb_i3 by assumption.
  repeat rewrite ?(proj1 (x4_0 _)), ?(proj1 (proj2 (x4_0 _))), ?(proj1 (proj2 (proj2 (x4_0 _)))), ?(proj2 (proj2 (proj2 (x4_0 _)))).
  reflexivity.
Qed.
Lemma mixcol_inv : forall p q r t, bytes [p; q; r; t] -> mixcol 2 3 1 1 (mixcol 14 11 13 9 [p; q; r; t]) = [p; q; r; t].
Proof.
  intros p q r t H. inv_bytes. rewrite (mixcol_unfold 14 11 13 9), (mixcol_unfold 2 3 1 1).
  rewrite !mixcol_row by assumption.
  rewrite !(comb_rot 1 2), !(comb_rot 1 1), !(comb_rot 3).
  rewrite !comb_m0, !comb_m1, !comb_m2, !comb_m3 by assumption.
  repeat rewrite ?(proj1 (x4_0 _)), ?(proj1 (proj2 (x4_0 _))), ?(proj1 (proj2 (proj2 (x4_0 _)))), ?(proj2 (proj2 (proj2 (x4_0 _)))).
  reflexivity.
Qed.

Lemma mixcol_len : forall a b c d s, length (mixcol a b c d s) = 4%nat. Proof. reflexivity. Qed.
Lemma columns_4 : forall p q r t, length p = 4%nat -> length q = 4%nat -> length r = 4%nat -> length t = 4%nat ->
  columns (p ++ q ++ r ++ t) = [p; q; r; t].
Proof.
  intros p q r t Hp Hq Hr Ht.
  destruct (list4 _ Hp) as (?&?&?&?&->), (list4 _ Hq) as (?&?&?&?&->), (list4 _ Hr) as (?&?&?&?&->), (list4 _ Ht) as (?&?&?&?&->).
  reflexivity.
Qed.
Lemma inv_mix : forall s, block_ok s -> InvMixColumns (MixColumns s) = s.
Proof.
  intros s [Bs Ls]. destruct (list16 _ Ls) as (?&?&?&?&?&?&?&?&?&?&?&?&?&?&?&?&->). inv_bytes.
  unfold InvMixColumns, MixColumns. rewrite cols16, columns_4 by apply mixcol_len.
  cbn [map concat]. rewrite !inv_mixcol by mkbytes. reflexivity.
Qed.
Lemma mix_inv : forall s, block_ok s -> MixColumns (InvMixColumns s) = s.
Proof.
  intros s [Bs Ls]. destruct (list16 _ Ls) as (?&?&?&?&?&?&?&?&?&?&?&?&?&?&?&?&->). inv_bytes.
  unfold InvMixColumns, MixColumns. rewrite cols16, columns_4 by apply mixcol_len.
  cbn [map concat]. rewrite !mixcol_inv by mkbytes. reflexivity.
Qed.
Lemma inv_mix_xor : forall s k, block_ok s -> block_ok k ->
  InvMixColumns (xor_list s k) = xor_list (InvMixColumns s) (InvMixColumns k).
Proof.
  intros s k [Bs Ls] [Bk Lk].
  destruct (list16 _ Ls) as (?&?&?&?&?&?&?&?&?&?&?&?&?&?&?&?&->).
  destruct (list16 _ Lk) as (?&?&?&?&?&?&?&?&?&?&?&?&?&?&?&?&->). inv_bytes.
  cbn [xor_list]. unfold InvMixColumns. rewrite !cols16, !mixcol_unfold.
  rewrite !gmul_lxor by assumption. rewrite !x4_lxor. reflexivity.
Qed.

(** * InvCipher inverts Cipher *)
Lemma block_16 : forall s, block_ok s -> length s = 16%nat. Proof. intros s [_ H]; auto. Qed.
Lemma block_b : forall s, block_ok s -> bytes s. Proof. intros s [H _]; auto. Qed.
Lemma xor_twice : forall s k, block_ok s -> block_ok k -> xor_list (xor_list s k) k = s.
Proof. intros s k [_ Ls] [_ Lk]. apply xor_list_invol. lia. Qed.

Definition U s := ShiftRows (SubBytes s).
Definition V s := InvSubBytes (InvShiftRows s).
Lemma U_ok : forall s, block_ok s -> block_ok (U s). Proof. intros. apply ShiftRows_ok, SubBytes_ok, H. Qed.
Lemma V_ok : forall s, block_ok s -> block_ok (V s). Proof. intros. apply InvSubBytes_ok, InvShiftRows_ok, H. Qed.
Lemma V_U : forall s, block_ok s -> V (U s) = s.
Proof. intros s H. unfold U, V. rewrite inv_shift, inv_sub; auto; [apply H|]. apply block_16, SubBytes_ok, H. Qed.
Lemma U_V : forall s, block_ok s -> U (V s) = s.
Proof.
  intros s H. unfold U, V. rewrite sub_inv by (apply block_b, InvShiftRows_ok, H).
  apply shift_inv, H.
Qed.
Definition iround (w : list (list Z)) s r := InvMixColumns (AddRoundKey w r (InvSubBytes (InvShiftRows s))).

Lemma eround_ok : forall w s r, wok w -> (4 * r + 4 <= length w)%nat -> block_ok s -> block_ok (eround w s r).
Proof. intros. apply AddRoundKey_ok; auto. apply MixColumns_ok. apply (U_ok s); auto. Qed.
Lemma iround_ok : forall w s r, wok w -> (4 * r + 4 <= length w)%nat -> block_ok s -> block_ok (iround w s r).
Proof. intros. apply InvMixColumns_ok, AddRoundKey_ok; auto. apply (V_ok s); auto. Qed.
Lemma iround_eround : forall w s r, wok w -> (4 * r + 4 <= length w)%nat -> block_ok s ->
  iround w (U (eround w s r)) r = U s.
Proof.
  intros w s r Hw L Hs. unfold iround. fold (V (U (eround w s r))). rewrite V_U by (apply eround_ok; auto).
  unfold eround, AddRoundKey. fold (U s).
  rewrite xor_twice by (try (apply round_key_ok; auto); apply MixColumns_ok, U_ok, Hs).
  apply inv_mix, U_ok, Hs.
Qed.
Lemma eround_iround : forall w s r, wok w -> (4 * r + 4 <= length w)%nat -> block_ok s ->
  eround w (V (iround w s r)) r = V s.
Proof.
  intros w s r Hw L Hs. unfold eround. fold (U (V (iround w s r))). rewrite U_V by (apply iround_ok; auto).
  unfold iround. fold (V s). rewrite mix_inv by (apply AddRoundKey_ok; auto; apply V_ok, Hs).
  unfold AddRoundKey. apply xor_twice; [apply V_ok, Hs | apply round_key_ok; auto].
Qed.
Lemma eround_fold_ok : forall w n r s, wok w -> (4 * (r + n) <= length w)%nat -> block_ok s ->
  block_ok (fold_left (eround w) (seq r n) s).
Proof.
  induction n; intros r s Hw L Hs; cbn [seq fold_left]; auto. apply IHn; auto; [lia|]. apply eround_ok; auto. lia.
Qed.
Lemma iround_fold_ok : forall w l s, wok w -> (forall r, In r l -> (4 * r + 4 <= length w)%nat) -> block_ok s ->
  block_ok (fold_left (iround w) l s).
Proof.
  induction l; intros s Hw L Hs; cbn [fold_left]; auto. apply IHl; auto. { intros; apply L; right; auto. }
  apply iround_ok; auto. apply L; left; auto.
Qed.
Lemma inv_fold : forall w n s, wok w -> (4 * (n + 1) <= length w)%nat -> block_ok s ->
  fold_left (iround w) (rev (seq 1 n)) (U (fold_left (eround w) (seq 1 n) s)) = U s.
Proof.
  induction n; intros s Hw L Hs; auto.
  rewrite seq_S, rev_app_distr, !fold_left_app. cbn [rev app fold_left].
  rewrite iround_eround; auto; [|lia|apply eround_fold_ok; auto; lia].
  apply IHn; auto. lia.
Qed.
Lemma fold_inv : forall w n s, wok w -> (4 * (n + 1) <= length w)%nat -> block_ok s ->
  fold_left (eround w) (seq 1 n) (V (fold_left (iround w) (rev (seq 1 n)) s)) = V s.
Proof.
  induction n; intros s Hw L Hs; auto.
  rewrite seq_S, rev_app_distr, !fold_left_app. cbn [rev app fold_left].
  rewrite IHn; auto; [|lia|apply iround_ok; auto; lia].
  apply eround_iround; auto. lia.
Qed.
Lemma InvCipher_Cipher : forall Nr w s, wok w -> length w = (4 * (Nr + 1))%nat -> (1 <= Nr)%nat -> block_ok s ->
  InvCipher Nr w (Cipher Nr w s) = s.
Proof.
  intros Nr w s Hw L HN Hs. unfold InvCipher, Cipher.
  set (a := AddRoundKey w 0 s).
  assert (Ha : block_ok a) by (apply AddRoundKey_ok; auto; lia).
  change (fun s r => AddRoundKey w r (MixColumns (ShiftRows (SubBytes s)))) with (eround w).
  change (fun s r => InvMixColumns (AddRoundKey w r (InvSubBytes (InvShiftRows s)))) with (iround w).
  set (b := fold_left (eround w) (seq 1 (Nr - 1)) a).
  assert (Hb : block_ok b) by (apply eround_fold_ok; auto; lia).
  fold (U b). unfold AddRoundKey at 2 3.
  rewrite xor_twice by (try (apply round_key_ok; auto; lia); apply U_ok; auto).
  unfold b. rewrite inv_fold by (auto; lia). fold (V (U a)). rewrite V_U by auto.
  unfold a, AddRoundKey. apply xor_twice; auto. apply round_key_ok; auto. lia.
Qed.
Lemma Cipher_InvCipher : forall Nr w s, wok w -> length w = (4 * (Nr + 1))%nat -> (1 <= Nr)%nat -> block_ok s ->
  Cipher Nr w (InvCipher Nr w s) = s.
Proof.
  intros Nr w s Hw L HN Hs. unfold InvCipher, Cipher.
  set (a := AddRoundKey w Nr s).
  assert (Ha : block_ok a) by (apply AddRoundKey_ok; auto; lia).
  change (fun s r => AddRoundKey w r (MixColumns (ShiftRows (SubBytes s)))) with (eround w).
  change (fun s r => InvMixColumns (AddRoundKey w r (InvSubBytes (InvShiftRows s)))) with (iround w).
  set (b := fold_left (iround w) (rev (seq 1 (Nr - 1))) a).
  assert (Hb : block_ok b).
  { apply iround_fold_ok; auto. intros r Hr. rewrite <- in_rev in Hr. apply in_seq in Hr. lia. }
  fold (V b). unfold AddRoundKey at 2 3.
  rewrite xor_twice by (try (apply round_key_ok; auto; lia); apply V_ok; auto).
  unfold b. rewrite fold_inv by (auto; lia). fold (U (V a)). rewrite U_V by auto.
  unfold a, AddRoundKey. apply xor_twice; auto. apply round_key_ok; auto. lia.
Qed.

(** * decryptBlockGo *)
Lemma td_word_ok : forall c, bytes c -> length c = 4%nat -> td_word (be_dec c) = be_dec (mixcol 14 11 13 9 c).
Proof.
  intros c Hc L. destruct (list4 _ L) as (a&b&d&e&->). inv_bytes.
  unfold td_word. rewrite !ff_u8. change (be_dec [a; b; d; e]) with (W a b d e).
  rewrite W_hi by assumption. destruct (W_u8 a b d e) as (_&->&->&->); try assumption.
  rewrite !S0_ok by assumption. rewrite td0_ok, td1_ok, td2_ok, td3_ok by bytesolve.
  rewrite !S1_S0 by assumption. unfold col0. rewrite !W_lxor by bytesolve.
  unfold W. cbn [mixcol nth]. rewrite !Z.lxor_assoc. reflexivity.
Qed.

(* the equivalent-inverse schedule of FIPS-197 5.3.5 *)
Definition dec_sched (w : list (list Z)) : list (list Z) :=
  let n := length w in
  map (fun m => let i := (4 * (m / 4))%nat in let j := (m mod 4)%nat in
                let x := nth (n - i - 4 + j) w [] in
                if ((0 <? i) && (i + 4 <? n))%nat then mixcol 14 11 13 9 x else x) (seq 0 n).

Lemma expand_dec_ok : forall Nr w, wok w -> length w = (4 * (Nr + 1))%nat ->
  expand_dec (map be_dec w) = map be_dec (dec_sched w).
Proof.
  intros Nr w Hw L. unfold expand_dec, dec_sched. rewrite map_length, map_map.
  apply map_ext_in. intros m Hm. apply in_seq in Hm. cbv zeta.
  assert (I : (length w - 4 * (m / 4) - 4 + m mod 4 < length w)%nat).
  { pose proof (Nat.div_mod m 4). pose proof (Nat.mod_upper_bound m 4). lia. }
  change 0 with (be_dec []). rewrite map_nth.
  destruct ((0 <? 4 * (m / 4)) && (4 * (m / 4) + 4 <? length w))%nat; auto.
  assert (G : bytes (nth (length w - 4 * (m / 4) - 4 + m mod 4) w []) /\ length (nth (length w - 4 * (m / 4) - 4 + m mod 4) w []) = 4%nat).
  { unfold wok in Hw. rewrite Forall_forall in Hw. apply Hw, nth_In, I. }
  apply td_word_ok; apply G.
Qed.
Lemma dec_sched_wok : forall Nr w, wok w -> length w = (4 * (Nr + 1))%nat -> wok (dec_sched w).
Proof.
  intros Nr w Hw L. unfold wok, dec_sched. apply Forall_map, Forall_forall. intros m Hm. apply in_seq in Hm.
  assert (I : (length w - 4 * (m / 4) - 4 + m mod 4 < length w)%nat).
  { pose proof (Nat.div_mod m 4). pose proof (Nat.mod_upper_bound m 4). lia. }
  assert (G : bytes (nth (length w - 4 * (m / 4) - 4 + m mod 4) w []) /\ length (nth (length w - 4 * (m / 4) - 4 + m mod 4) w []) = 4%nat).
  { unfold wok in Hw. rewrite Forall_forall in Hw. apply Hw, nth_In, I. }
  cbv zeta. destruct ((0 <? 4 * (m / 4)) && (4 * (m / 4) + 4 <? length w))%nat; auto.
  destruct G as [B L4]. destruct (list4 _ L4) as (?&?&?&?&E). rewrite E in *. inv_bytes.
  split; [|reflexivity]. cbn [mixcol nth]. unfold bytes. repeat (apply Forall_cons; [bytesolve|]). apply Forall_nil.
Qed.
Lemma dec_sched_length : forall w, length (dec_sched w) = length w.
Proof. intros. unfold dec_sched. rewrite map_length, seq_length. reflexivity. Qed.

Lemma firstn4 : forall (l : list (list Z)) k, (k + 4 <= length l)%nat ->
  firstn 4 (skipn k l) = [nth k l []; nth (k + 1) l []; nth (k + 2) l []; nth (k + 3) l []].
Proof.
  intros l k H.
  assert (E : forall j, (j < 4)%nat -> nth (k + j) l [] = nth j (firstn 4 (skipn k l)) []).
  { intros j Hj. rewrite nth_firstn_lt, nth_skipn' by auto. reflexivity. }
  pose proof (E 0%nat ltac:(lia)) as E0. rewrite Nat.add_0_r in E0. rewrite E0, !E by lia.
  assert (G : length (firstn 4 (skipn k l)) = 4%nat) by (rewrite firstn_length, skipn_length; lia).
  clear E E0. revert G. generalize (firstn 4 (skipn k l)). intros f G.
  do 4 (destruct f as [|? f]; [discriminate|]). destruct f; [|discriminate]. reflexivity.
Qed.
Lemma nth_map_seq : forall (f : nat -> list Z) n k, (k < n)%nat -> nth k (map f (seq 0 n)) [] = f k.
Proof.
  intros. rewrite (nth_indep _ [] (f 0%nat)) by (rewrite map_length, seq_length; auto).
  rewrite map_nth, seq_nth by auto. reflexivity.
Qed.
Lemma dec_sched_nth : forall Nr w r j, length w = (4 * (Nr + 1))%nat -> (r <= Nr)%nat -> (j < 4)%nat ->
  nth (4 * r + j) (dec_sched w) [] =
  (if ((0 <? r) && (r <? Nr))%nat then mixcol 14 11 13 9 (nth (4 * (Nr - r) + j) w []) else nth (4 * (Nr - r) + j) w []).
Proof.
  intros Nr w r j L Hr Hj. unfold dec_sched. rewrite nth_map_seq by lia. cbv zeta.
  replace ((4 * r + j) / 4)%nat with r by (apply (Nat.div_unique _ 4 r j); lia).
  replace ((4 * r + j) mod 4)%nat with j by (apply (Nat.mod_unique _ 4 r j); lia).
  replace (length w - 4 * r - 4 + j)%nat with (4 * (Nr - r) + j)%nat by lia.
  replace ((0 <? 4 * r) && (4 * r + 4 <? length w))%nat with ((0 <? r) && (r <? Nr))%nat; auto.
  rewrite L. destruct (Nat.ltb_spec 0 r), (Nat.ltb_spec 0 (4 * r)), (Nat.ltb_spec r Nr), (Nat.ltb_spec (4 * r + 4) (4 * (Nr + 1))); try lia; auto.
Qed.
Lemma dec_sched_round : forall Nr w r, wok w -> length w = (4 * (Nr + 1))%nat -> (r <= Nr)%nat ->
  round_key (dec_sched w) r =
  (if ((0 <? r) && (r <? Nr))%nat then InvMixColumns (round_key w (Nr - r)) else round_key w (Nr - r)).
Proof.
  intros Nr w r Hw L Hr. unfold round_key. rewrite !firstn4 by (rewrite ?dec_sched_length; lia).
  pose proof (dec_sched_nth Nr w r 0 L Hr ltac:(lia)) as E0. rewrite !Nat.add_0_r in E0.
  rewrite E0, !(dec_sched_nth Nr) by (auto; lia).
  destruct ((0 <? r) && (r <? Nr))%nat; [|reflexivity].
  assert (G : forall k, (k < length w)%nat -> length (nth k w []) = 4%nat).
  { intros k Hk. unfold wok in Hw. rewrite Forall_forall in Hw. apply Hw, nth_In, Hk. }
  unfold InvMixColumns. cbn [concat]. rewrite !app_nil_r.
  rewrite columns_4 by (apply G; lia). reflexivity.
Qed.

Lemma dec_rounds_ok : forall Nr w n r s, wok w -> length w = (4 * (Nr + 1))%nat -> block_ok s ->
  (1 <= r)%nat -> (r + n <= Nr)%nat ->
  dec_rounds n (map be_dec (dec_sched w)) (4 * r)%nat (qw s) (qw s) =
    (qw (fold_left (iround w) (map (fun r => Nr - r)%nat (seq r n)) s), 4 * (r + n))%nat /\
  block_ok (fold_left (iround w) (map (fun r => Nr - r)%nat (seq r n)) s).
Proof.
  induction n; intros r s Hw L Hs H1 H2.
  - cbn [dec_rounds seq map fold_left]. split; [f_equal; lia | auto].
  - rewrite dec_rounds_S. cbv zeta. cbn [seq map fold_left].
    destruct (round_key_ok (dec_sched w) r (dec_sched_wok Nr w Hw L)) as [B E]; [rewrite dec_sched_length; lia|].
    rewrite E, dec_step_ok by auto. rewrite (dec_sched_round Nr) by (auto; lia).
    replace ((0 <? r) && (r <? Nr))%nat with true
      by (destruct (Nat.ltb_spec 0 r), (Nat.ltb_spec r Nr); try lia; auto).
    fold (V s). rewrite <- inv_mix_xor by (try (apply V_ok; auto); apply round_key_ok; auto; lia).
    change (InvMixColumns (xor_list (V s) (round_key w (Nr - r)))) with (iround w s (Nr - r)).
    replace (4 * r + 4)%nat with (4 * S r)%nat by lia.
    destruct (IHn (S r) (iround w s (Nr - r)) Hw L) as [I1 I2]; try lia.
    { apply iround_ok; auto. lia. }
    rewrite I1. split; [f_equal; lia | auto].
Qed.
Lemma rev_seq_sub : forall n k, map (fun r => S k + n - r)%nat (seq (S k) n) = rev (seq 1 n).
Proof.
  induction n; intros k; auto. rewrite (seq_S n 1). rewrite rev_app_distr. cbn [seq map rev app].
  f_equal; [lia|]. rewrite <- (IHn (S k)). apply map_ext. intros. lia.
Qed.
Lemma decryptBlockGo_ok : forall Nr w src, wok w -> length w = (4 * (Nr + 1))%nat -> (2 <= Nr)%nat -> block_ok src ->
  decryptBlockGo (expand_dec (map be_dec w)) src = InvCipher Nr w src /\ block_ok (InvCipher Nr w src).
Proof.
  intros Nr w src Hw L HN Hs. rewrite (expand_dec_ok Nr) by auto.
  rewrite decryptBlockGo_unfold, map_length, dec_sched_length, L.
  replace (4 * (Nr + 1) / 4 - 2)%nat with (Nr - 1)%nat
    by (rewrite Nat.mul_comm, Nat.div_mul by lia; lia).
  destruct (round_key_ok (dec_sched w) 0 (dec_sched_wok Nr w Hw L)) as [B0 E0]; [rewrite dec_sched_length; lia|].
  change (4 * 0 + 0)%nat with 0%nat in E0. change (4 * 0 + 1)%nat with 1%nat in E0.
  change (4 * 0 + 2)%nat with 2%nat in E0. change (4 * 0 + 3)%nat with 3%nat in E0.
  rewrite E0, first_step_ok by auto.
  rewrite (dec_sched_round Nr) by (auto; lia). cbn [Nat.ltb Nat.leb andb]. rewrite Nat.sub_0_r.
  fold (AddRoundKey w Nr src).
  assert (BA : block_ok (AddRoundKey w Nr src)) by (apply AddRoundKey_ok; auto; lia).
  destruct (dec_rounds_ok Nr w (Nr - 1) 1 _ Hw L BA) as [E1 B1]; [lia|lia|].
  replace (map (fun r => Nr - r)%nat (seq 1 (Nr - 1))) with (rev (seq 1 (Nr - 1))) in E1, B1
    by (rewrite <- (rev_seq_sub (Nr - 1) 0); apply map_ext; intros; lia).
  unfold InvCipher.
  change (fun s r => InvMixColumns (AddRoundKey w r (InvSubBytes (InvShiftRows s)))) with (iround w).
  cbv zeta.
  destruct (Nr - 1)%nat as [|m] eqn:Em; [lia|].
  rewrite (dec_rounds_t m _ _ _ _ (qw (AddRoundKey w Nr src))). change 4%nat with (4 * 1)%nat at 1.
  rewrite E1. replace (1 + S m)%nat with Nr by lia.
  destruct (round_key_ok (dec_sched w) Nr (dec_sched_wok Nr w Hw L)) as [B2 E2]; [rewrite dec_sched_length; lia|].
  rewrite E2, last_stepd_ok by auto. rewrite (dec_sched_round Nr) by (auto; lia).
  rewrite Nat.ltb_irrefl, andb_false_r, Nat.sub_diag. split; [reflexivity|].
  apply AddRoundKey_ok; auto; [lia|]. apply (V_ok _ B1).
Qed.

(** * Key expansion *)
Lemma W_xor4 : forall a b, length a = 4%nat -> length b = 4%nat -> bytes a -> bytes b ->
  Z.lxor (be_dec a) (be_dec b) = be_dec (xor_list a b).
Proof.
  intros a b La Lb Ha Hb. destruct (list4 _ La) as (?&?&?&?&->), (list4 _ Lb) as (?&?&?&?&->). inv_bytes.
  cbn [xor_list]. apply W_lxor; assumption.
Qed.
Lemma SubWord_ok : forall c, bytes c -> length c = 4%nat -> bytes (SubWord c) /\ length (SubWord c) = 4%nat.
Proof.
  intros c H L. unfold SubWord. rewrite map_length. split; auto. unfold bytes. apply Forall_map.
  eapply Forall_impl; [|exact H]. apply S0_byte.
Qed.
Lemma RotWord_ok : forall c, bytes c -> length c = 4%nat -> bytes (RotWord c) /\ length (RotWord c) = 4%nat.
Proof.
  intros c H L. destruct (list4 _ L) as (?&?&?&?&->). inv_bytes. cbn. split; [mkbytes|reflexivity].
Qed.
Lemma subw_ok : forall c, bytes c -> length c = 4%nat -> subw (be_dec c) = be_dec (SubWord c).
Proof.
  intros c H L. destruct (list4 _ L) as (a&b&d&e&->).
  change (subw (be_dec [a; b; d; e])) with
    (smix sbox0 (be_dec [a; b; d; e]) (be_dec [a; b; d; e]) (be_dec [a; b; d; e]) (be_dec [a; b; d; e])).
  rewrite (smix_ok _ _ _ _ _ _ _ _ _ _ _ _ _ _ _ _ _ _ S0_ok S0_byte) by auto. reflexivity.
Qed.
Lemma rotw_ok : forall c, bytes c -> length c = 4%nat -> rotw (be_dec c) = be_dec (RotWord c).
Proof.
  intros c H L. destruct (list4 _ L) as (a&b&d&e&->). inv_bytes. cbn [RotWord skipn firstn app].
  change (be_dec [a; b; d; e]) with (W a b d e). change (be_dec [b; d; e; a]) with (W b d e a).
  unfold rotw. rewrite W_hi by assumption. rewrite !W_eq. unfold wrap32, is_byte in *.
  rewrite Z.shiftl_mul_pow2 by lia.
  replace ((a * 2 ^ 24 + b * 2 ^ 16 + d * 2 ^ 8 + e) * 2 ^ 8) with
    ((b * 2 ^ 16 + d * 2 ^ 8 + e) * 2 ^ 8 + a * 2 ^ 32) by lia.
  rewrite Z.mod_add, Z.mod_small by lia. rewrite Z.lor_comm, lor_low_high by lia. lia.
Qed.
Lemma powx_ok : powx = map xpow (seq 0 16). Proof. reflexivity. Qed.
Lemma Rcon_ok : forall i, (1 <= i <= 16)%nat ->
  shl (tab powx (Z.of_nat (i - 1))) 24 = be_dec (Rcon i) /\ bytes (Rcon i) /\ length (Rcon i) = 4%nat.
Proof.
  intros i H. unfold tab. rewrite Nat2Z.id, powx_ok.
  rewrite (nth_indep _ 0 (xpow 0)) by (rewrite map_length, seq_length; lia).
  rewrite map_nth, seq_nth by lia. cbn [Nat.add]. unfold Rcon.
  assert (B : is_byte (xpow (i - 1))).
  { generalize (i - 1)%nat. clear. induction n; cbn [xpow]; [unfold is_byte; lia | apply xtime_byte, IHn]. }
  assert (Z0 : is_byte 0) by (unfold is_byte; lia).
  change (be_dec [xpow (i - 1); 0; 0; 0]) with (W (xpow (i - 1)) 0 0 0).
  split; [|split; [mkbytes|reflexivity]].
  rewrite W_eq. unfold shl, wrap32, is_byte in *. rewrite Z.shiftl_mul_pow2, Z.mod_small by lia. lia.
Qed.

Lemma wok_nth : forall w k, wok w -> (k < length w)%nat -> bytes (nth k w []) /\ length (nth k w []) = 4%nat.
Proof. intros w k Hw Hk. unfold wok in Hw. rewrite Forall_forall in Hw. apply Hw, nth_In, Hk. Qed.

Lemma xor4_ok : forall a b, bytes a /\ length a = 4%nat -> bytes b /\ length b = 4%nat ->
  Z.lxor (be_dec a) (be_dec b) = be_dec (xor_list a b) /\ bytes (xor_list a b) /\ length (xor_list a b) = 4%nat.
Proof.
  intros a b [Ba La] [Bb Lb]. split; [apply W_xor4; auto|]. split; [apply bytes_xor; auto|].
  rewrite xor_list_length. lia.
Qed.

Lemma expand_loop_ok : forall Nk n w, (4 <= Nk)%nat -> wok w -> (Nk <= length w)%nat -> (length w + n <= 15 * Nk)%nat ->
  expand_loop Nk n (map be_dec w) = map be_dec (expand Nk n w) /\ wok (expand Nk n w) /\
  length (expand Nk n w) = (length w + n)%nat.
Proof.
  intros Nk n. induction n; intros w HN Hw L1 L2; cbn [expand_loop expand].
  { split; auto. }
  rewrite map_length.
  assert (E : forall k, nth k (map be_dec w) 0 = be_dec (nth k w [])).
  { intros. change 0 with (be_dec []). apply map_nth. }
  rewrite !E.
  destruct (wok_nth w (length w - 1) Hw) as [Bt Lt]; [lia|].
  pose proof (wok_nth w (length w - Nk) Hw ltac:(lia)) as Bp.
  set (i := length w) in *.
  assert (Q : (1 <= i / Nk <= 16)%nat).
  { split. - apply Nat.div_le_lower_bound; lia. - apply Nat.div_le_upper_bound; lia. }
  assert (T : Z.lxor (be_dec (nth (i - Nk) w []))
     (if (i mod Nk =? 0)%nat then Z.lxor (subw (rotw (be_dec (nth (i - 1) w [])))) (shl (tab powx (Z.of_nat (i / Nk - 1))) 24)
      else if ((6 <? Nk) && (i mod Nk =? 4))%nat then subw (be_dec (nth (i - 1) w [])) else be_dec (nth (i - 1) w [])) =
     be_dec (next_word Nk w) /\ bytes (next_word Nk w) /\ length (next_word Nk w) = 4%nat).
  { unfold next_word. fold i. destruct (i mod Nk =? 0)%nat.
    - destruct (RotWord_ok _ Bt Lt) as [B1 L1']. destruct (SubWord_ok _ B1 L1') as [B2 L2'].
      destruct (Rcon_ok _ Q) as (R1 & R2 & R3).
      rewrite rotw_ok, subw_ok, R1 by auto.
      destruct (xor4_ok (SubWord (RotWord (nth (i - 1) w []))) (Rcon (i / Nk))) as (X1 & X2); auto.
      rewrite X1. apply xor4_ok; auto.
    - destruct ((6 <? Nk) && (i mod Nk =? 4))%nat.
      + rewrite subw_ok by auto. apply xor4_ok; auto. apply SubWord_ok; auto.
      + apply xor4_ok; auto. }
  destruct T as [T1 T2]. cbv zeta. rewrite T1.
  replace (map be_dec w ++ [be_dec (next_word Nk w)]) with (map be_dec (w ++ [next_word Nk w])) by apply map_app.
  destruct (IHn (w ++ [next_word Nk w]) HN) as (I1 & I2 & I3).
  - apply Forall_app. auto.
  - rewrite app_length. lia.
  - rewrite app_length. cbn. lia.
  - split; [exact I1|]. split; [exact I2|]. rewrite I3, app_length. cbn. lia.
Qed.

Lemma chunks_map : forall n key, map (fun i => be32 key (4 * i)) (seq 0 n) = map be_dec (map (fun i => slice key (4 * i) 4) (seq 0 n)).
Proof. intros. rewrite map_map. reflexivity. Qed.

Lemma expand_ok : forall key, key_ok key ->
  expand_enc key (length key + 28) = map be_dec (KeyExpansion key) /\ wok (KeyExpansion key) /\
  length (KeyExpansion key) = (length key + 28)%nat /\
  length (KeyExpansion key) = (4 * (length key / 4 + 6 + 1))%nat /\ (4 <= length key / 4)%nat.
Proof.
  intros key [B L]. unfold expand_enc, KeyExpansion.
  set (Nk := (length key / 4)%nat).
  assert (E : (length key = 4 * Nk)%nat /\ (4 <= Nk <= 8)%nat).
  { unfold Nk. destruct L as [L|[L|L]]; rewrite L; cbn; lia. }
  destruct E as [E EN].
  assert (C : map (fun i => be32 key (4 * i)) (seq 0 Nk) = map be_dec (chunks 4 key)).
  { rewrite chunks_map. f_equal. unfold chunks. fold Nk. apply map_ext. intros. unfold chunk. f_equal. lia. }
  rewrite C.
  assert (Hw : wok (chunks 4 key) /\ length (chunks 4 key) = Nk).
  { split; [|apply chunks_length]. unfold wok, chunks. fold Nk. apply Forall_map, Forall_forall.
    intros i Hi. apply in_seq in Hi. unfold chunk. split; [apply bytes_slice; auto|]. apply slice_length. lia. }
  destruct Hw as [Hw Lw].
  replace (4 * (Nk + 7) - Nk)%nat with (length key + 28 - Nk)%nat by lia.
  destruct (expand_loop_ok Nk (length key + 28 - Nk) (chunks 4 key)) as (I1 & I2 & I3); auto; try lia.
  split; [exact I1|]. split; [exact I2|]. rewrite I3. lia.
Qed.

(** * The cipher object *)
Definition keyed (key : list Z) (c : AES) : Prop := exists c0, c = fst (SetKey c0 key).

Lemma key_ok_test : forall key, key_ok key -> ((length key =? 16) || (length key =? 24) || (length key =? 32))%nat = true.
Proof. intros key [_ [L|[L|L]]]; rewrite L; reflexivity. Qed.

Lemma SetKey_fields : forall c key, key_ok key ->
  let e := map be_dec (KeyExpansion key) in
  firstn (keyLen (fst (SetKey c key)) + 28) (enc (fst (SetKey c key))) = e /\
  firstn (keyLen (fst (SetKey c key)) + 28) (dec (fst (SetKey c key))) = expand_dec e.
Proof.
  intros c key K e. unfold SetKey. rewrite key_ok_test by auto. cbn [fst enc dec keyLen].
  destruct (expand_ok key K) as (E1 & E2 & E3 & _). rewrite E1. fold e.
  assert (Le : length e = (length key + 28)%nat) by (unfold e; rewrite map_length; auto).
  split.
  - rewrite <- Le, firstn_app, firstn_all, Nat.sub_diag, firstn_O, app_nil_r. reflexivity.
  - assert (Ld : length (expand_dec e) = (length key + 28)%nat)
      by (unfold expand_dec; rewrite map_length, seq_length; auto).
    rewrite <- Ld, firstn_app, firstn_all, Nat.sub_diag, firstn_O, app_nil_r. reflexivity.
Qed.

Lemma be32_first16 : forall s i, (16 <= length s)%nat -> (i + 4 <= 16)%nat -> be32 (firstn 16 s) i = be32 s i.
Proof.
  intros s i L H. unfold be32, slice. f_equal. rewrite skipn_firstn_comm, firstn_firstn. f_equal. lia.
Qed.
Lemma enc_first16 : forall xk s, (16 <= length s)%nat -> encryptBlockGo xk s = encryptBlockGo xk (firstn 16 s).
Proof. intros xk s L. rewrite !encryptBlockGo_unfold. unfold qw. rewrite !be32_first16 by lia. reflexivity. Qed.
Lemma dec_first16 : forall xk s, (16 <= length s)%nat -> decryptBlockGo xk s = decryptBlockGo xk (firstn 16 s).
Proof. intros xk s L. rewrite !decryptBlockGo_unfold. unfold qw. rewrite !be32_first16 by lia. reflexivity. Qed.

Lemma AES_encrypt_ok : forall key s, key_ok key -> block_ok s ->
  encryptBlockGo (map be_dec (KeyExpansion key)) s = AES_encrypt key s /\ block_ok (AES_encrypt key s).
Proof.
  intros key s K Hs. destruct (expand_ok key K) as (_ & E2 & _ & E4 & E5).
  exact (encryptBlockGo_ok _ _ s E2 E4 ltac:(lia) Hs).
Qed.
Lemma AES_decrypt_ok : forall key s, key_ok key -> block_ok s ->
  decryptBlockGo (expand_dec (map be_dec (KeyExpansion key))) s = AES_decrypt key s /\ block_ok (AES_decrypt key s).
Proof.
  intros key s K Hs. destruct (expand_ok key K) as (_ & E2 & _ & E4 & E5).
  exact (decryptBlockGo_ok _ _ s E2 E4 ltac:(lia) Hs).
Qed.
