From Coq Require Import ZArith List Lia Bool.
From Verif Require Import Lib SM3_Iface SM3_Spec.
From Verif Require SM3_Model.
Import ListNotations.
Open Scope Z_scope.

(* ---------- word level ---------- *)
Lemma rotl32_rol : forall k x, 0 <= k <= 32 -> SM3_Model.rotl32 k x = rol k x.
Proof.
  intros. unfold SM3_Model.rotl32, rol, wrap32. rewrite Z.shiftl_mul_pow2, Z.shiftr_div_pow2 by lia. auto.
Qed.
Lemma p0_P0 : forall x, SM3_Model.p0 x = P0 x.
Proof. intros. unfold SM3_Model.p0, P0. rewrite !rotl32_rol by lia. auto. Qed.
Lemma p1_P1 : forall x, SM3_Model.p1 x = P1 x.
Proof. intros. unfold SM3_Model.p1, P1. rewrite !rotl32_rol by lia. auto. Qed.

Lemma maj_FF : forall x y z,
  SM3_Model.maj x y z = Z.lor (Z.lor (Z.land x y) (Z.land x z)) (Z.land y z).
Proof.
  intros. unfold SM3_Model.maj, SM3_Model.ch. apply Z.bits_inj'. intros n _.
  repeat (rewrite ?Z.lxor_spec, ?Z.land_spec, ?Z.lor_spec).
  destruct (Z.testbit x n), (Z.testbit y n), (Z.testbit z n); reflexivity.
Qed.
Lemma ch_GG : forall x y z,
  SM3_Model.ch x y z = Z.lor (Z.land x y) (Z.land (Z.lnot x) z).
Proof.
  intros. unfold SM3_Model.ch. apply Z.bits_inj'. intros n Hn.
  repeat (rewrite ?Z.lxor_spec, ?Z.land_spec, ?Z.lor_spec, ?Z.lnot_spec by lia).
  destruct (Z.testbit x n), (Z.testbit y n), (Z.testbit z n); reflexivity.
Qed.

Lemma add32_3 : forall a b c, SM3_Model.rotl32 7 (add32 (add32 a b) c) = rol 7 ((a + b + c) mod 2 ^ 32).
Proof.
  intros. rewrite rotl32_rol by lia. unfold add32, wrap32. now rewrite Zplus_mod_idemp_l.
Qed.
Lemma add32_4 : forall a b c d, add32 (add32 (add32 a b) c) d = (a + b + c + d) mod 2 ^ 32.
Proof.
  intros. unfold add32, wrap32. rewrite Zplus_mod_idemp_l.
  rewrite <- Z.add_assoc, Zplus_mod_idemp_l. f_equal. lia.
Qed.

(* ---------- one compression ---------- *)
Section Block.
Variable B : list Z.
Variable r0 : regs.

Notation rs j := (rounds B j r0).
Definition K (j : nat) : Z := rol (Z.of_nat j mod 32) (T j).

Definition rfun (r : Z -> Z -> Z -> Z -> Z -> Z -> Z -> Z -> Z -> Z -> Z -> Z * Z * Z * Z) (j : nat) :=
  forall v,
  r (rA v) (rB v) (rC v) (rD v) (rE v) (rF v) (rG v) (rH v) (K j) (Wj B j) (Z.lxor (Wj B j) (Wj B (j + 4)))
  = (rC (round B j v), rA (round B j v), rG (round B j v), rE (round B j v)).

Lemma r1_ok : forall j, (j <? 16)%nat = true -> rfun SM3_Model.r1 j.
Proof.
  intros j Hj v. unfold SM3_Model.r1, round, K. cbn [rA rB rC rD rE rF rG rH].
  rewrite add32_3, !add32_4, p0_P0, !rotl32_rol by lia.
  unfold FF, GG, W'j. rewrite Hj. reflexivity.
Qed.
Lemma r2_ok : forall j, (j <? 16)%nat = false -> rfun SM3_Model.r2 j.
Proof.
  intros j Hj v. unfold SM3_Model.r2, round, K. cbn [rA rB rC rD rE rF rG rH].
  rewrite add32_3, !add32_4, p0_P0, !rotl32_rol, maj_FF, ch_GG by lia.
  unfold FF, GG, W'j. rewrite Hj. reflexivity.
Qed.

(* the four register rotations used by the unrolled code *)
Definition ph0 v := [rA v; rB v; rC v; rD v; rE v; rF v; rG v; rH v].
Definition ph1 v := [rB v; rC v; rD v; rA v; rF v; rG v; rH v; rE v].
Definition ph2 v := [rC v; rD v; rA v; rB v; rG v; rH v; rE v; rF v].
Definition ph3 v := [rD v; rA v; rB v; rC v; rH v; rE v; rF v; rG v].

Lemma rB_round : forall j v, rB (round B j v) = rA v. Proof. reflexivity. Qed.
Lemma rD_round : forall j v, rD (round B j v) = rC v. Proof. reflexivity. Qed.
Lemma rF_round : forall j v, rF (round B j v) = rE v. Proof. reflexivity. Qed.
Lemma rH_round : forall j v, rH (round B j v) = rG v. Proof. reflexivity. Qed.

Ltac phase :=
  intros r j k W wi wj wk Hr Hk Hi Hj Hw; subst k;
  change (rounds B (S j) r0) with (round B j (rounds B j r0));
  generalize (rounds B j r0); intro v;
  unfold SM3_Model.st_r, ph0, ph1, ph2, ph3;
  cbn [nth SM3_Model.A SM3_Model.B SM3_Model.C SM3_Model.D SM3_Model.E SM3_Model.F SM3_Model.G SM3_Model.H];
  rewrite Hi, Hj, Hw; rewrite Hr; cbn [upd];
  rewrite rB_round, rD_round, rF_round, rH_round; reflexivity.

Definition phase_stmt a b c d e f g h (p q : regs -> list Z) : Prop :=
  forall r j k W wi wj wk, rfun r j -> k = K j ->
  nth wi W 0 = Wj B j -> nth wj W 0 = Wj B j -> nth wk W 0 = Wj B (j + 4) ->
  SM3_Model.st_r r a b c d e f g h k wi wj wk (p (rs j), W) = (q (rs (S j)), W).

Lemma phase0 : phase_stmt SM3_Model.A SM3_Model.B SM3_Model.C SM3_Model.D SM3_Model.E SM3_Model.F SM3_Model.G SM3_Model.H ph0 ph1. Proof. phase. Qed.
Lemma phase1 : phase_stmt SM3_Model.D SM3_Model.A SM3_Model.B SM3_Model.C SM3_Model.H SM3_Model.E SM3_Model.F SM3_Model.G ph1 ph2. Proof. phase. Qed.
Lemma phase2 : phase_stmt SM3_Model.C SM3_Model.D SM3_Model.A SM3_Model.B SM3_Model.G SM3_Model.H SM3_Model.E SM3_Model.F ph2 ph3. Proof. phase. Qed.
Lemma phase3 : phase_stmt SM3_Model.B SM3_Model.C SM3_Model.D SM3_Model.A SM3_Model.F SM3_Model.G SM3_Model.H SM3_Model.E ph3 ph0. Proof. phase. Qed.

(* message expansion *)
Lemma extend_prefix : forall n W i, (i < length W)%nat -> nth i (extend n W) 0 = nth i W 0.
Proof.
  induction n; intros; simpl; auto.
  rewrite IHn by (rewrite app_length; simpl; lia). apply app_nth1; auto.
Qed.
Lemma extend_length : forall n W, length (extend n W) = (length W + n)%nat.
Proof. induction n; intros; simpl; auto. rewrite IHn, app_length. simpl. lia. Qed.

Lemma extend_next : forall n W j, (16 <= length W)%nat -> (length W <= j < length W + n)%nat ->
  nth j (extend n W) 0 = next_word (extend n W) j.
Proof.
  induction n; intros W j HW Hj. { lia. }
  simpl. destruct (Nat.eq_dec j (length W)) as [->|Hne].
  - rewrite extend_prefix by (rewrite app_length; simpl; lia).
    rewrite app_nth2, Nat.sub_diag by lia. simpl.
    unfold next_word.
    rewrite !(extend_prefix n) by (rewrite app_length; simpl; lia).
    rewrite !app_nth1 by lia. reflexivity.
  - apply IHn; rewrite app_length; simpl; lia.
Qed.

Hypothesis HB : length B = 64%nat.

Lemma words_length : length (words B) = 16%nat.
Proof. unfold words. rewrite map_length, chunks_length, HB. reflexivity. Qed.

Lemma Wj_unfold : forall j, Wj B j = nth j (extend 52 (words B)) 0.
Proof. reflexivity. Qed.

Lemma Wj_next : forall j, (j < 52)%nat ->
  SM3_Model.sm3e (Wj B j) (Wj B (j + 7)) (Wj B (j + 13)) (Wj B (j + 3)) (Wj B (j + 10)) = Wj B (j + 16).
Proof.
  intros. unfold SM3_Model.sm3e. rewrite p1_P1, !rotl32_rol by lia.
  rewrite !Wj_unfold. rewrite (extend_next 52 (words B) (j + 16)) by (rewrite words_length; lia).
  unfold next_word. generalize (extend 52 (words B)). intros W.
  replace (j + 16 - 16)%nat with j by lia. replace (j + 16 - 9)%nat with (j + 7)%nat by lia.
  replace (j + 16 - 3)%nat with (j + 13)%nat by lia. replace (j + 16 - 13)%nat with (j + 3)%nat by lia.
  replace (j + 16 - 6)%nat with (j + 10)%nat by lia. reflexivity.
Qed.

Lemma st_e_ok : forall j R W dst w0 w7 w13 w3 w10 W', (j < 52)%nat ->
  nth w0 W 0 = Wj B j -> nth w7 W 0 = Wj B (j + 7) -> nth w13 W 0 = Wj B (j + 13) ->
  nth w3 W 0 = Wj B (j + 3) -> nth w10 W 0 = Wj B (j + 10) ->
  upd W dst (Wj B (j + 16)) = W' ->
  SM3_Model.st_e dst w0 w7 w13 w3 w10 (R, W) = (R, W').
Proof.
  intros. unfold SM3_Model.st_e. rewrite H0, H1, H2, H3, H4, Wj_next by auto. now rewrite H5.
Qed.

Notation runb l s := (fold_left (fun (x : SM3_Model.vars) (g : SM3_Model.vars -> SM3_Model.vars) => g x) l s).
Lemma runb_cons : forall f l v w x, f v = w -> runb l w = x -> runb (f :: l) v = x.
Proof. intros. subst. reflexivity. Qed.

Ltac step_round j :=
  let ph := eval compute in (Nat.modulo j 4) in
  let lo := eval compute in (Nat.ltb j 16) in
  eapply runb_cons;
  [ match ph with
    | 0%nat => apply (phase0 _ j) | 1%nat => apply (phase1 _ j)
    | 2%nat => apply (phase2 _ j) | _ => apply (phase3 _ j) end;
    [ match lo with true => apply r1_ok; reflexivity | false => apply r2_ok; reflexivity end
    | vm_compute; reflexivity | reflexivity | reflexivity | reflexivity ] | ].
Ltac step_exp j :=
  eapply runb_cons;
  [ apply (st_e_ok j); [ lia | reflexivity | reflexivity | reflexivity | reflexivity | reflexivity
                       | reflexivity ] | ].
Ltac go_exp j n :=
  match n with
  | O => idtac
  | S ?n' => step_round j; step_exp j; cbn [upd Nat.add]; let j' := eval compute in (S j) in go_exp j' n'
  end.
Ltac go_noexp j n :=
  match n with
  | O => idtac
  | S ?n' => step_round j; let j' := eval compute in (S j) in go_noexp j' n'
  end.

Opaque rounds Wj words.
Lemma body_ok : exists W',
  runb SM3_Model.compress_body (ph0 r0, map (Wj B) (seq 0 16)) = (ph0 (rs 64), W').
Proof.
  eexists. cbn [map seq]. unfold SM3_Model.compress_body.
  replace (ph0 r0) with (ph0 (rs 0)) by reflexivity.
  go_exp 0%nat 52%nat.
  go_noexp 52%nat 12%nat.
  reflexivity.
Qed.
End Block.

(* ---------- load / store ---------- *)
Lemma loadBe32_dec : forall b0 b1 b2 b3 t, bytes [b0; b1; b2; b3] ->
  SM3_Model.loadBe32 (b0 :: b1 :: b2 :: b3 :: t) = be_dec [b0; b1; b2; b3].
Proof.
  intros b0 b1 b2 b3 t H. unfold bytes in H.
  repeat match goal with H : Forall _ (_ :: _) |- _ => inversion H; clear H; subst end.
  unfold is_byte in *.
  unfold SM3_Model.loadBe32, wrap32. cbn [nth].
  rewrite !Z.shiftl_mul_pow2 by lia.
  change (2 ^ 8) with 256. change (2 ^ 16) with 65536. change (2 ^ 24) with 16777216.
  change (2 ^ 32) with 4294967296.
  rewrite (Z.mod_small (b2 * _)), (Z.mod_small (b1 * _)), (Z.mod_small (b0 * _)) by lia.
  change 256 with (2 ^ 8). change 65536 with (2 ^ 16). change 16777216 with (2 ^ 24).
  rewrite (lor_low_high b3 b2 8) by lia.
  rewrite (lor_low_high _ b1 16) by lia.
  rewrite (lor_low_high _ b0 24) by lia.
  unfold be_dec. cbn [rev app le_dec]. lia.
Qed.

Lemma loadBe32_chunk : forall l i, bytes l -> (4 * i + 4 <= length l)%nat ->
  SM3_Model.loadBe32 (skipn (4 * i) l) = be_dec (chunk 4 l i).
Proof.
  intros. unfold chunk, slice. rewrite (Nat.mul_comm i 4).
  assert (Hb : bytes (skipn (4 * i) l)) by (apply Forall_skipn; auto).
  assert (Hl : (4 <= length (skipn (4 * i) l))%nat) by (rewrite skipn_length; lia).
  destruct (skipn (4 * i) l) as [|b0 [|b1 [|b2 [|b3 t]]]]; simpl in Hl; try lia.
  cbn [firstn]. apply loadBe32_dec.
  apply (Forall_firstn _ is_byte 4) in Hb. exact Hb.
Qed.

Lemma byte_at_div : forall x s, 0 <= s -> SM3_Model.byte_at x s = (x / 2 ^ s) mod 256.
Proof. intros. unfold SM3_Model.byte_at. rewrite Z.shiftr_div_pow2; auto. Qed.

Lemma store32Be_enc : forall x, SM3_Model.store32Be x = be_enc 4 x.
Proof.
  intros. unfold SM3_Model.store32Be. rewrite !byte_at_div by lia.
  unfold be_enc. cbn [le_enc rev app]. rewrite !Z.div_div by lia.
  change (2 ^ 0) with 1. rewrite Z.div_1_r. reflexivity.
Qed.
Lemma store64Be_enc : forall x, SM3_Model.store64Be x = be_enc 8 x.
Proof.
  intros. unfold SM3_Model.store64Be. rewrite !byte_at_div by lia.
  unfold be_enc. cbn [le_enc rev app]. rewrite !Z.div_div by lia.
  change (2 ^ 0) with 1. rewrite Z.div_1_r. reflexivity.
Qed.

(* ---------- compress ---------- *)
Lemma Wj_low : forall B i, length B = 64%nat -> (i < 16)%nat ->
  Wj B i = be_dec (chunk 4 B i).
Proof.
  intros. rewrite Wj_unfold, extend_prefix by (rewrite words_length; lia).
  unfold words. rewrite nth_indep with (d' := be_dec (chunk 4 B 0))
    by (rewrite map_length, chunks_length, H; cbn; lia).
  rewrite (map_nth be_dec). f_equal.
  unfold chunks. rewrite (map_nth (chunk 4 B) _ 0%nat).
  rewrite seq_nth by (rewrite H; cbn; lia). reflexivity.
Qed.

Lemma chunk_firstn : forall n l i k, (i * n + n <= k)%nat -> chunk n (firstn k l) i = chunk n l i.
Proof.
  intros. unfold chunk, slice. rewrite skipn_firstn_comm, firstn_firstn. f_equal. lia.
Qed.

Lemma ph0_of_list : forall h, length h = 8%nat -> ph0 (of_list h) = h.
Proof.
  intros h Hh.
  destruct h as [|h0 [|h1 [|h2 [|h3 [|h4 [|h5 [|h6 [|h7 [|]]]]]]]]]; try discriminate Hh. reflexivity.
Qed.
Lemma xor_out : forall h v, length h = 8%nat ->
  map (fun i => Z.lxor (nth i h 0) (nth i (ph0 v) 0)) (seq 0 8) = xor_list h (to_list v).
Proof.
  intros h v Hh.
  destruct h as [|h0 [|h1 [|h2 [|h3 [|h4 [|h5 [|h6 [|h7 [|]]]]]]]]]; try discriminate Hh. reflexivity.
Qed.

Lemma compress_block_CF : forall h blk, length h = 8%nat -> bytes blk -> (64 <= length blk)%nat ->
  SM3_Model.compress_block h blk = CF h (firstn 64 blk).
Proof.
  intros h blk Hh Hb Hl.
  remember (firstn 64 blk) as B eqn:EB.
  assert (HB : length B = 64%nat) by (subst B; rewrite firstn_length; lia).
  unfold SM3_Model.compress_block.
  replace (map (fun i => SM3_Model.loadBe32 (skipn (4 * i) blk)) (seq 0 16))
     with (map (Wj B) (seq 0 16)).
  2:{ apply map_ext_in. intros i Hi. apply in_seq in Hi.
      rewrite Wj_low, loadBe32_chunk by (auto; lia).
      subst B. rewrite chunk_firstn by lia. reflexivity. }
  destruct (body_ok B (of_list h) HB) as [W' E].
  rewrite (ph0_of_list h Hh) in E.
  rewrite E. unfold CF. cbn [fst]. apply xor_out. auto.
Qed.

Lemma CF_length : forall h B, length h = 8%nat -> length (CF h B) = 8%nat.
Proof. intros. unfold CF. rewrite xor_list_length, H. reflexivity. Qed.

Lemma iterate_length : forall bs h, length h = 8%nat -> length (iterate h bs) = 8%nat.
Proof. induction bs; intros; simpl; auto. apply IHbs. apply CF_length; auto. Qed.

Lemma compress_ok : forall n h input, length h = 8%nat -> bytes input -> (n * 64 <= length input)%nat ->
  SM3_Model.compress h input n = iterate h (chunks 64 (firstn (n * 64) input)).
Proof.
  induction n; intros h input Hh Hb Hl.
  - reflexivity.
  - cbn [SM3_Model.compress].
    rewrite compress_block_CF by (auto; lia).
    rewrite IHn; [ | apply CF_length; auto | apply Forall_skipn; auto | rewrite skipn_length; lia ].
    rewrite (chunks_cons 64 (firstn (S n * 64) input)) by (rewrite ?firstn_length; lia).
    cbn [iterate fold_left]. rewrite firstn_firstn.
    replace (Nat.min 64 (S n * 64)) with 64%nat by lia.
    rewrite skipn_firstn_comm. replace (S n * 64 - 64)%nat with (n * 64)%nat by lia. reflexivity.
Qed.

Lemma compress_one : forall h b, length h = 8%nat -> bytes b -> length b = 64%nat ->
  SM3_Model.compress h b 1 = iterate h (chunks 64 b).
Proof.
  intros. rewrite compress_ok by (auto; lia).
  rewrite firstn_all2 by lia. reflexivity.
Qed.

Lemma iterate_app : forall a b h, iterate h (a ++ b) = iterate (iterate h a) b.
Proof. intros. unfold iterate. apply fold_left_app. Qed.

(* ---------- buffering ---------- *)
Definition Inv (d : SM3_Model.digest) (m : list Z) : Prop :=
  exists q m1 m2 rest, m = m1 ++ m2 /\ length m1 = (q * 64)%nat /\ (length m2 < 64)%nat /\
    SM3_Model.db d = m2 ++ rest /\ length (SM3_Model.db d) = 64%nat /\
    SM3_Model.dh d = iterate IV (chunks 64 m1) /\
    SM3_Model.dlen d = wrap64 (Z.of_nat (length m)).

Lemma idx_ok : forall n, Z.land (wrap64 n) 63 = n mod 64.
Proof.
  intros. change 63 with (Z.ones 6). rewrite Z.land_ones by lia. unfold wrap64.
  change (2 ^ 6) with 64.
  rewrite <- Znumtheory.Zmod_div_mod; try lia.
  exists (2 ^ 58). reflexivity.
Qed.

Lemma idx_inv : forall q n2, (n2 < 64)%nat ->
  Z.to_nat (Z.land (wrap64 (Z.of_nat (q * 64 + n2))) 63) = n2.
Proof.
  intros. rewrite idx_ok. rewrite Nat2Z.inj_add, Nat2Z.inj_mul.
  change (Z.of_nat 64) with 64. rewrite Z.add_comm, Z.mod_add, Z.mod_small by lia. lia.
Qed.

Lemma wrap64_add : forall a b, wrap64 (wrap64 a + b) = wrap64 (a + b).
Proof. intros. unfold wrap64. apply Zplus_mod_idemp_l. Qed.

Lemma Inv_new : Inv SM3_Model.New [].
Proof.
  exists 0%nat, [], [], (repeat 0 64). repeat split; simpl; auto; lia.
Qed.
Lemma Inv_reset : forall d, length (SM3_Model.db d) = 64%nat -> Inv (SM3_Model.Reset d) [].
Proof.
  intros. exists 0%nat, [], [], (SM3_Model.db d). repeat split; simpl; auto; lia.
Qed.

Lemma firstn_exact : forall (a b : list Z) n, length a = n -> firstn n (a ++ b) = a.
Proof. intros. subst. rewrite firstn_app, Nat.sub_diag, firstn_all. simpl. apply app_nil_r. Qed.
Lemma skipn_exact : forall (a b : list Z) n, length a = n -> skipn n (a ++ b) = b.
Proof. intros. subst. rewrite skipn_app, Nat.sub_diag, skipn_all. reflexivity. Qed.

Lemma blit_app : forall m2 rest src, (length src <= length rest)%nat ->
  blit (m2 ++ rest) (length m2) src = (m2 ++ src) ++ skipn (length src) rest.
Proof.
  intros. unfold blit. rewrite (firstn_exact m2) by auto.
  rewrite app_length, (firstn_all2 src) by lia.
  rewrite <- skipn_skipn', (skipn_exact m2) by auto. now rewrite app_assoc.
Qed.

Definition reported (buffered n : Z) : Z :=
  if n + buffered <? 64 then 0 else n - (64 - buffered).

Lemma Write_ok : forall d m p, Inv d m -> bytes m -> bytes p ->
  Inv (fst (SM3_Model.Write d p)) (m ++ p) /\
  snd (SM3_Model.Write d p) = reported (Z.of_nat (length m) mod 64) (Z.of_nat (length p)).
Proof.
  intros d m p (q & m1 & m2 & rest & -> & Hm1 & Hm2 & Hdb & Hlb & Hdh & Hlen) Hbm Hbp.
  unfold SM3_Model.Write. rewrite Hlen, app_length, Hm1, idx_inv by auto.
  rewrite Nat2Z.inj_add, Nat2Z.inj_mul. change (Z.of_nat 64) with 64.
  rewrite (Z.add_comm (Z.of_nat q * 64)), Z.mod_add by lia.
  rewrite (Z.mod_small (Z.of_nat (length m2))) by lia.
  unfold reported.
  assert (Hr : length rest = (64 - length m2)%nat).
  { rewrite Hdb, app_length in Hlb. lia. }
  apply Forall_app in Hbm. destruct Hbm as [Hb1 Hb2].
  destruct (Nat.ltb_spec (length p + length m2) 64) as [Hlt|Hge].
  - destruct (Z.ltb_spec (Z.of_nat (length p) + Z.of_nat (length m2)) 64); [|lia].
    split; auto. cbn [fst].
    exists q, m1, (m2 ++ p), (skipn (length p) rest). cbn [SM3_Model.db SM3_Model.dh SM3_Model.dlen].
    rewrite !app_length. repeat split; auto; try lia.
    + now rewrite app_assoc.
    + rewrite Hdb. apply blit_app. lia.
    + rewrite blit_length; lia.
    + rewrite wrap64_add. f_equal. lia.
  - destruct (Z.ltb_spec (Z.of_nat (length p) + Z.of_nat (length m2)) 64); [lia|].
    cbn [fst snd]. split.
    2:{ rewrite skipn_length. lia. }
    set (c := (64 - length m2)%nat).
    set (p1 := firstn c p). set (p2 := skipn c p).
    assert (Ep : p = p1 ++ p2) by (symmetry; apply firstn_skipn).
    assert (Hp1 : length p1 = c) by (unfold p1; rewrite firstn_length; lia).
    set (nb := (length p2 / 64)%nat).
    set (p3 := firstn (nb * 64) p2). set (p4 := skipn (nb * 64) p2).
    assert (Hnb : (nb * 64 <= length p2)%nat /\ (length p2 - nb * 64 < 64)%nat).
    { unfold nb. pose proof (Nat.div_mod (length p2) 64 ltac:(lia)).
      pose proof (Nat.mod_upper_bound (length p2) 64 ltac:(lia)). lia. }
    assert (Ep2 : p2 = p3 ++ p4) by (symmetry; apply firstn_skipn).
    assert (Hp3 : length p3 = (nb * 64)%nat) by (unfold p3; rewrite firstn_length; lia).
    assert (Hp4 : (length p4 < 64)%nat) by (unfold p4; rewrite skipn_length; lia).
    assert (Hb1' : bytes p1) by (apply Forall_firstn; auto).
    assert (Hb2' : bytes p2) by (apply Forall_skipn; auto).
    assert (Eb : blit (SM3_Model.db d) (length m2) p1 = m2 ++ p1).
    { rewrite Hdb, blit_app by lia. rewrite skipn_all2 by lia. apply app_nil_r. }
    rewrite Eb.
    exists (q + 1 + nb)%nat, (m1 ++ (m2 ++ p1) ++ p3), p4, (skipn (length p4) (m2 ++ p1)).
    assert (Hmp : length (m2 ++ p1) = 64%nat) by (rewrite app_length; lia).
    cbn [SM3_Model.db SM3_Model.dh SM3_Model.dlen].
    repeat split.
    + rewrite Ep, Ep2 at 1. now rewrite <- !app_assoc.
    + rewrite app_length, app_length, Hmp. lia.
    + auto.
    + unfold blit. rewrite (firstn_all2 p4) by lia. reflexivity.
    + rewrite blit_length; lia.
    + rewrite Hdh.
      rewrite compress_one; auto.
      2:{ apply iterate_length. reflexivity. }
      2:{ apply bytes_app; auto. }
      rewrite compress_ok; auto.
      2:{ do 2 apply iterate_length. reflexivity. }
      2:{ lia. }
      fold p3.
      rewrite (chunks_app 64 m1 _ q) by (auto; lia).
      rewrite (chunks_app 64 (m2 ++ p1) _ 1) by (auto; lia).
      rewrite !iterate_app. reflexivity.
    + rewrite wrap64_add. f_equal. rewrite !app_length. lia.
Qed.

(* ---------- padding ---------- *)
Lemma pad_zeros : forall q n2, (n2 < 64)%nat ->
  Z.to_nat ((55 - Z.of_nat (q * 64 + n2)) mod 64) =
  (if (56 <=? n2)%nat then 119 - n2 else 55 - n2)%nat.
Proof.
  intros. rewrite Nat2Z.inj_add, Nat2Z.inj_mul. change (Z.of_nat 64) with 64.
  replace (55 - (Z.of_nat q * 64 + Z.of_nat n2)) with (55 - Z.of_nat n2 + (- Z.of_nat q) * 64) by lia.
  rewrite Z.mod_add by lia.
  destruct (Nat.leb_spec 56 n2).
  - replace (55 - Z.of_nat n2) with (119 - Z.of_nat n2 + (-1) * 64) by lia.
    rewrite Z.mod_add, Z.mod_small by lia. lia.
  - rewrite Z.mod_small by lia. lia.
Qed.

Lemma clear_upd : forall m2 rest, length (m2 ++ rest) = 64%nat -> (length m2 < 64)%nat ->
  upd (SM3_Model.clear_after (m2 ++ rest) (length m2)) (length m2) 128 =
  m2 ++ 128 :: repeat 0 (63 - length m2).
Proof.
  intros. unfold SM3_Model.clear_after. rewrite H.
  assert (exists x t, rest = x :: t) as (x & t & ->).
  { rewrite app_length in H. destruct rest; simpl in *; eauto; lia. }
  rewrite app_length in H. cbn [length] in H.
  assert (E : firstn (S (length m2)) (m2 ++ x :: t) = m2 ++ [x]).
  { rewrite firstn_app, firstn_all2 by lia.
    replace (S (length m2) - length m2)%nat with 1%nat by lia. reflexivity. }
  rewrite E. rewrite upd_app by (rewrite !app_length; simpl; lia).
  rewrite <- !app_assoc. rewrite (firstn_exact m2) by auto. f_equal. f_equal.
  replace (S (length m2)) with (length m2 + 1)%nat by lia.
  rewrite <- skipn_skipn', (skipn_exact m2) by auto. cbn [skipn app]. f_equal. lia.
Qed.

Lemma repeat_bytes : forall n, bytes (repeat 0 n).
Proof. intros. apply Forall_repeat. unfold is_byte. lia. Qed.

Lemma be_enc_8_wrap : forall l, be_enc 8 (wrap64 (wrap64 l * 8)) = be_enc 8 (8 * l).
Proof.
  intros. unfold be_enc. f_equal. unfold wrap64. rewrite Zmult_mod_idemp_l.
  change (2 ^ 64) with (256 ^ Z.of_nat 8). rewrite le_enc_mod. f_equal. lia.
Qed.

Lemma Sum_ok : forall d m b, Inv d m -> bytes m -> bytes b -> SM3_Model.Sum d b = sm3 (m ++ b).
Proof.
  intros d m b HI Hm Hb. destruct (Write_ok d m b HI Hm Hb) as [HI' _].
  unfold SM3_Model.Sum. set (dc := fst (SM3_Model.Write d b)) in *. clearbody dc.
  assert (Hmb : bytes (m ++ b)) by (apply bytes_app; auto).
  set (M := m ++ b) in *. clearbody M. clear d m b HI Hm Hb.
  destruct HI' as (q & m1 & m2 & rest & -> & Hm1 & Hm2 & Hdb & Hlb & Hdh & Hlen).
  apply Forall_app in Hmb. destruct Hmb as [Hb1 Hb2].
  cbv zeta. rewrite Hlen, app_length, Hm1, idx_inv by auto.
  rewrite Hdb, clear_upd; auto. 2:{ rewrite <- Hdb. auto. }
  rewrite store64Be_enc, be_enc_8_wrap.
  unfold sm3, pad. rewrite app_length, Hm1. rewrite pad_zeros by auto.
  set (L := 8 * Z.of_nat (q * 64 + length m2)).
  assert (HL : length (be_enc 8 L) = 8%nat) by apply be_enc_length.
  assert (HLb : bytes (be_enc 8 L)) by apply be_enc_bytes.
  generalize dependent (be_enc 8 L). intros lf HL HLb. clear L.
  assert (HI : length (iterate IV (chunks 64 m1)) = 8%nat) by (apply iterate_length; reflexivity).
  rewrite Hdh.
  assert (Eout : forall h2 h3, length h2 = 8%nat -> h2 = h3 ->
     concat (map (fun i => SM3_Model.store32Be (nth i h2 0)) (seq 0 8)) = concat (map (be_enc 4) h3)).
  { intros h2 h3 Hh <-. f_equal.
    destruct h2 as [|h0 [|h1 [|h2 [|h3 [|h4 [|h5 [|h6 [|h7 [|]]]]]]]]]; try discriminate.
    cbn [map seq nth]. now rewrite !store32Be_enc. }
  rewrite <- app_assoc, (chunks_app 64 m1 _ q), iterate_app by (auto; lia).
  assert (B80 : is_byte 128) by (unfold is_byte; lia).
  destruct (Nat.leb_spec 56 (length m2)) as [Hge|Hlt].
  - assert (Ea : m2 ++ [128] ++ repeat 0 (119 - length m2) ++ lf =
                 (m2 ++ 128 :: repeat 0 (63 - length m2)) ++ (repeat 0 56 ++ lf)).
    { rewrite <- !app_assoc. cbn [app]. f_equal. f_equal.
      rewrite app_assoc. rewrite <- repeat_app.
      replace (63 - length m2 + 56)%nat with (119 - length m2)%nat by lia. reflexivity. }
    change 0x80 with 128. rewrite Ea.
    assert (E64 : length (m2 ++ 128 :: repeat 0 (63 - length m2)) = 64%nat).
    { rewrite app_length; cbn [length]; rewrite repeat_length. lia. }
    assert (Eb3 : blit (repeat 0 64) 56 lf = repeat 0 56 ++ lf).
    { unfold blit. change (length (repeat 0 64)) with 64%nat.
      change (firstn 56 (repeat 0 64)) with (repeat 0 56).
      rewrite (firstn_all2 lf) by lia. rewrite HL. cbn [Nat.add].
      change (skipn 64 (repeat 0 64)) with (@nil Z). now rewrite app_nil_r. }
    rewrite Eb3.
    rewrite (chunks_app 64 (m2 ++ 128 :: repeat 0 (63 - length m2)) _ 1), iterate_app by (auto; lia).
    rewrite (compress_one _ (m2 ++ _)); auto.
    2:{ apply bytes_app; auto. constructor; auto. apply repeat_bytes. }
    apply Eout.
    + rewrite compress_one; auto.
      * repeat apply iterate_length; reflexivity.
      * repeat apply iterate_length; reflexivity.
      * apply bytes_app; auto. apply repeat_bytes.
      * rewrite app_length, HL. reflexivity.
    + apply compress_one; auto.
      * repeat apply iterate_length; reflexivity.
      * apply bytes_app; auto. apply repeat_bytes.
      * rewrite app_length, HL. reflexivity.
  - change 0x80 with 128.
    assert (Eb3 : blit (m2 ++ 128 :: repeat 0 (63 - length m2)) 56 lf =
                  m2 ++ [128] ++ repeat 0 (55 - length m2) ++ lf).
    { replace (63 - length m2)%nat with ((55 - length m2) + 8)%nat by lia.
      rewrite repeat_app.
      replace (m2 ++ 128 :: repeat 0 (55 - length m2) ++ repeat 0 8)
         with ((m2 ++ 128 :: repeat 0 (55 - length m2)) ++ repeat 0 8)
         by (rewrite <- app_assoc; reflexivity).
      assert (E56 : length (m2 ++ 128 :: repeat 0 (55 - length m2)) = 56%nat)
        by (rewrite app_length; cbn [length]; rewrite repeat_length; lia).
      rewrite <- E56 at 1. rewrite blit_app by (rewrite repeat_length; lia).
      rewrite HL. change (skipn 8 (repeat 0 8)) with (@nil Z). rewrite app_nil_r.
      rewrite <- !app_assoc. reflexivity. }
    rewrite Eb3.
    assert (Hb3 : bytes (m2 ++ [128] ++ repeat 0 (55 - length m2) ++ lf)).
    { apply bytes_app; auto. constructor; auto. apply bytes_app; auto. apply repeat_bytes. }
    assert (Hl3 : length (m2 ++ [128] ++ repeat 0 (55 - length m2) ++ lf) = 64%nat).
    { rewrite !app_length, repeat_length. cbn [length]. lia. }
    apply Eout.
    + rewrite compress_one; auto. apply iterate_length; auto.
    + apply compress_one; auto.
Qed.

(* ---------- histories ---------- *)
Lemma run_ok : forall ops d m, Inv d m -> bytes m -> Forall op_bytes ops ->
  SM3_Model.run d ops = ideal_run sm3 reported m ops.
Proof.
  induction ops as [|o ops IH]; intros d m HI Hm Ho; auto.
  inversion Ho as [|? ? Ho1 Ho2]; subst. destruct o as [p|b|]; cbn [SM3_Model.run SM3_Model.step ideal_run ideal_step op_bytes] in *.
  - destruct (Write_ok d m p HI Hm Ho1) as [HI' Hn].
    destruct (SM3_Model.Write d p) as [d' n]. cbn [fst snd] in *. rewrite Hn.
    f_equal. apply IH; auto. apply bytes_app; auto.
  - rewrite (Sum_ok d m b) by auto. f_equal. auto.
  - f_equal. apply IH; auto. 2:{ constructor. }
    apply Inv_reset. destruct HI as (q & m1 & m2 & rest & _ & _ & _ & _ & H & _). auto.
Qed.

Lemma writes_ok : forall ps d m, Inv d m -> bytes m -> Forall bytes ps ->
  Inv (fold_left (fun d p => fst (SM3_Model.Write d p)) ps d) (m ++ concat ps) /\ bytes (m ++ concat ps).
Proof.
  induction ps; intros d m HI Hm Hp; simpl. { rewrite app_nil_r. auto. }
  inversion Hp; subst. rewrite app_assoc. apply IHps; auto.
  - apply Write_ok; auto.
  - apply bytes_app; auto.
Qed.

Lemma digest_ok : forall ps, Forall bytes ps ->
  SM3_Model.Sum (fold_left (fun d p => fst (SM3_Model.Write d p)) ps SM3_Model.New) [] = sm3 (concat ps).
Proof.
  intros. destruct (writes_ok ps SM3_Model.New [] Inv_new ltac:(constructor) H) as [HI Hb].
  rewrite (Sum_ok _ _ [] HI Hb) by constructor. now rewrite app_nil_r.
Qed.

Lemma history_ok : forall ops, Forall op_bytes ops ->
  SM3_Model.run SM3_Model.New ops = ideal_run sm3 reported [] ops.
Proof. intros. apply run_ok; auto. apply Inv_new. constructor. Qed.

Lemma reset_fresh : forall d ops, length (SM3_Model.db d) = 64%nat -> Forall op_bytes ops ->
  SM3_Model.run (SM3_Model.Reset d) ops = SM3_Model.run SM3_Model.New ops.
Proof.
  intros. rewrite history_ok by auto. apply run_ok; auto. apply Inv_reset; auto. constructor.
Qed.

Lemma Sum_length : forall d b, length (SM3_Model.Sum d b) = 32%nat.
Proof.
  intros. unfold SM3_Model.Sum.
  match goal with |- context [if ?c then _ else _] => destruct c end;
    match goal with |- context [concat (map (fun i => SM3_Model.store32Be (nth i ?h 0)) _)] => generalize h end;
    intros; reflexivity.
Qed.

Lemma Write_count_wrong : forall ps p, Forall bytes ps -> bytes p ->
  snd (SM3_Model.Write (fold_left (fun d p => fst (SM3_Model.Write d p)) ps SM3_Model.New) p)
    = Z.of_nat (length p) <-> p = [].
Proof.
  intros ps p Hps Hp.
  destruct (writes_ok ps SM3_Model.New [] Inv_new ltac:(constructor) Hps) as [HI Hb].
  rewrite (proj2 (Write_ok _ _ p HI Hb Hp)). unfold reported.
  pose proof (Z.mod_pos_bound (Z.of_nat (length ([] ++ concat ps))) 64 ltac:(lia)).
  destruct (Z.ltb_spec (Z.of_nat (length p) + Z.of_nat (length ([] ++ concat ps)) mod 64) 64).
  - split; intros; [destruct p; simpl in *; auto; lia | subst; reflexivity].
  - split; intros; [lia | subst; simpl in *; lia].
Qed.

Lemma Sum_append_wrong : forall ps b, Forall bytes ps -> bytes b ->
  SM3_Model.Sum (fold_left (fun d p => fst (SM3_Model.Write d p)) ps SM3_Model.New) b
    = b ++ sm3 (concat ps) <-> b = [].
Proof.
  intros ps b Hps Hb. split.
  - intros E. apply (f_equal (@length Z)) in E.
    rewrite Sum_length, app_length in E. rewrite <- (digest_ok ps Hps), Sum_length in E.
    destruct b; auto. simpl in E. lia.
  - intros ->. simpl. apply digest_ok; auto.
Qed.
