From Coq Require Import ZArith List Bool Lia.
From Verif Require Import Lib Keccak_Spec Keccak_Model Keccak_Proofs Sha3_Iface Sha3_Spec Sha3_Ideal Sha3_Model Sha3_Client Sha3_Proofs.
Import ListNotations.
Open Scope Z_scope.

(* ---------- refinement to the ideal machine ---------- *)
Definition i_final (i : iobj) : list Z :=
  absorb (i_rate i) (padded (i_rate i) (bits_of_bytes (i_pre i ++ i_msg i) ++ i_sfx i)).

Definition Rel (o : obj) (i : iobj) : Prop :=
  rate (st o) = i_rate i /\ size (st o) = i_size i /\ sfx_ok (sfx (st o)) (i_sfx i) /\
  ((initBlock o = None /\ i_pre i = []) \/ initBlock o = Some (i_pre i)) /\
  bytes (i_pre i) /\
  match i_out i with
  | None => Absorbing (st o) (i_pre i ++ i_msg i)
  | Some k => bytes (i_final i) /\ length (i_final i) = 200%nat /\ Squeezing (st o) (i_final i) k
  end.

Lemma output_out : forall i k n, output i k n = out_bytes (i_rate i) (i_final i) k n.
Proof. reflexivity. Qed.

Lemma Rel_write : forall g o i p, Rel o i -> bytes p ->
  Rel (mkObj (fst (Write g (st o) p)) (initBlock o)) (fst (i_write i p)) /\
  snd (Write g (st o) p) = snd (i_write i p).
Proof.
  intros g o i p (H1 & H2 & H3 & H4 & H5 & H6) Hp. unfold i_write.
  destruct (i_out i) as [k|] eqn:E.
  - destruct H6 as (B & L & Q).
    assert (Hs : isSquezing (st o) = true) by (destruct Q as (_ & _ & Q & _); auto).
    unfold Write. rewrite Hs. cbn [fst snd]. split; auto.
    unfold Rel. cbn [st initBlock]. rewrite E. repeat split; auto; apply Q.
  - destruct (Write_ok g _ _ p H6 Hp) as (W1 & W2 & W3 & W4 & W5).
    cbn [fst snd]. split; auto. unfold Rel. cbn [st initBlock i_rate i_size i_sfx i_pre i_msg i_out].
    rewrite W3, W4, W5. rewrite app_assoc. auto 10.
Qed.

Lemma Squeezing_zero : forall s S0, Squeezing s S0 0 -> bytes S0 /\ length S0 = 200%nat.
Proof.
  intros s S0 (Hr & Ha & _ & _ & j & Ej & _ & Hi & Hk).
  assert (Rb := valid_rate_bounds _ Hr).
  assert (j = O) by nia. subst j. cbn [iter_perm] in Ej. rewrite <- Ej.
  split; [apply string_bytes|]. rewrite string_length. destruct Ha as [-> _]. reflexivity.
Qed.

Lemma Read_final : forall g s out, isSquezing s = false ->
  Read g s out = Read g (finalize_sha3 g s) out.
Proof. intros g s out H. unfold Read. rewrite H. reflexivity. Qed.

Lemma Rel_read : forall g o i out, Rel o i ->
  Rel (mkObj (fst (Read g (st o) out)) (initBlock o)) (fst (i_read i (length out))) /\
  snd (Read g (st o) out) = snd (i_read i (length out)).
Proof.
  intros g o i out (H1 & H2 & H3 & H4 & H5 & H6). unfold i_read, taken. rewrite output_out.
  cbn [fst snd]. unfold Rel. cbn [st initBlock i_rate i_size i_sfx i_pre i_msg i_out].
  unfold i_final at 1 2 3. cbn [i_rate i_pre i_msg i_sfx]. fold (i_final i).
  destruct (i_out i) as [k|] eqn:E.
  - destruct H6 as (B & L & Q).
    destruct (read_sq g _ _ k out B L Q) as (R1 & R2 & R3 & R4 & R5).
    rewrite R2, R3, R4, R5, <- H1. auto 12.
  - assert (Hs : isSquezing (st o) = false) by (destruct H6 as (_ & _ & _ & Q & _); auto).
    destruct (finalize_ok g _ _ _ H6 H3) as (F1 & F2 & F3 & F4).
    assert (FE : final_state (st o) (i_sfx i) (i_pre i ++ i_msg i) = i_final i)
      by (unfold final_state, i_final; rewrite H1; reflexivity).
    rewrite FE in F1. destruct (Squeezing_zero _ _ F1) as [B L].
    rewrite Read_final by auto.
    destruct (read_sq g _ _ O out B L F1) as (R1 & R2 & R3 & R4 & R5).
    rewrite R2, R3, R4, R5, F2, F3, F4, <- H1. auto 12.
Qed.

Lemma Rel_size : forall o i, Rel o i -> size (st o) = i_size i.
Proof. intros o i H. apply H. Qed.

Lemma Sum_read : forall g s isnil inp spare, (isnil = true -> inp = [] /\ spare = []) ->
  exists out, length out = size s /\
    Sum g s isnil inp spare = (fst (Read g s out), inp ++ snd (Read g s out)).
Proof.
  intros g s isnil inp spare H. unfold Sum.
  set (mem0 := if isnil then repeat 0 (size s) else inp ++ spare).
  set (mem1 := if (length mem0 <? length inp + size s)%nat
               then mem0 ++ repeat 0 (length inp + size s - length mem0) else mem0).
  set (mem2 := firstn (length inp + size s) mem1).
  assert (P0 : exists t, mem0 = inp ++ t).
  { unfold mem0. destruct isnil; [|eauto]. destruct (H eq_refl) as [-> ->]. exists (repeat 0 (size s)). reflexivity. }
  assert (P1 : exists t, mem1 = inp ++ t /\ (size s <= length t)%nat).
  { destruct P0 as [t E]. unfold mem1. destruct (Nat.ltb_spec (length mem0) (length inp + size s)).
    - exists (t ++ repeat 0 (length inp + size s - length mem0)). rewrite E at 1.
      rewrite app_assoc. split; auto. rewrite app_length, repeat_length. rewrite E, app_length in *. lia.
    - exists t. split; auto. rewrite E, app_length in *. lia. }
  destruct P1 as [t [E1 Lt]].
  assert (E2 : mem2 = inp ++ firstn (size s) t).
  { unfold mem2. rewrite E1, firstn_app. rewrite firstn_all2 by lia. do 2 f_equal. lia. }
  rewrite E2. rewrite skipn_app_exact, firstn_app_exact by auto.
  exists (firstn (size s) t). split; [rewrite firstn_length; lia|].
  destruct (Read g s (firstn (size s) t)). reflexivity.
Qed.

Lemma Rel_sum : forall g o i isnil inp spare, Rel o i -> (isnil = true -> inp = [] /\ spare = []) ->
  Rel (mkObj (fst (Sum g (st o) isnil inp spare)) (initBlock o)) (fst (i_read i (i_size i))) /\
  snd (Sum g (st o) isnil inp spare) = inp ++ snd (i_read i (i_size i)).
Proof.
  intros g o i isnil inp spare H Hn. destruct (Sum_read g (st o) isnil inp spare Hn) as (out & Lo & E).
  rewrite E. cbn [fst snd]. rewrite <- (Rel_size _ _ H), <- Lo.
  destruct (Rel_read g o i out H) as [R1 R2]. split; auto. now rewrite R2.
Qed.

Lemma Rel_valid : forall o i, Rel o i -> valid_rate (rate (st o)).
Proof.
  intros o i (_ & _ & _ & _ & _ & H). destruct (i_out i).
  - destruct H as (_ & _ & H). apply H.
  - apply H.
Qed.

Lemma Rel_reset : forall g o i, Rel o i -> Rel (ResetObj g o) (i_reset i).
Proof.
  intros g o i H. assert (V := Rel_valid o i H). destruct H as (H1 & H2 & H3 & H4 & H5 & _).
  assert (A : Absorbing (Reset (st o)) []) by (apply new_absorbing; auto).
  unfold ResetObj, i_reset, fresh, Rel. cbn [i_rate i_size i_sfx i_pre i_msg i_out]. rewrite app_nil_r.
  destruct H4 as [[-> ->]| ->]; cbn [st initBlock].
  - cbn [Reset rate size sfx]. repeat (split; auto). constructor.
  - destruct (Write_ok g _ _ (i_pre i) A H5) as (W1 & _ & W3 & W4 & W5).
    rewrite W3, W4, W5. cbn [Reset rate size sfx]. auto 12.
Qed.

Lemma Rel_clone : forall o i, Rel o i -> Rel (CloneObj o) i.
Proof. intros o i H. exact H. Qed.

Lemma Forall2_nth : forall (A B : Type) (P : A -> B -> Prop) l l' h, Forall2 P l l' ->
  match nth_error l h, nth_error l' h with
  | None, None => True | Some x, Some y => P x y | _, _ => False end.
Proof.
  intros A B P l l' h H. revert h. induction H; intros [|h]; simpl; auto. apply IHForall2.
Qed.

Lemma Forall2_set : forall (A B : Type) (P : A -> B -> Prop) l l' h x y, Forall2 P l l' -> P x y ->
  Forall2 P (set_obj l h x) (set_obj l' h y).
Proof.
  intros A B P l l' h x y H Hxy. revert h. induction H; intros [|h]; simpl; auto.
Qed.

Lemma step_ok : forall g os is p, Forall2 Rel os is -> op_ok p ->
  Forall2 Rel (fst (step g os p)) (fst (istep is p)) /\ snd (step g os p) = snd (istep is p).
Proof.
  intros g os is p H Hp.
  destruct p as [h b|h out|h isnil inp spare|h|h]; cbn [step istep];
    assert (N := Forall2_nth _ _ _ _ _ h H);
    destruct (nth_error os h) as [o|]; destruct (nth_error is h) as [i|]; try contradiction; auto.
  - destruct (Rel_write g o i b N Hp) as [R1 R2].
    destruct (Write g (st o) b) as [s' [n e]]. destruct (i_write i b) as [i' [n' e']].
    cbn [fst snd] in *. inversion R2; subst. split; auto. apply Forall2_set; auto.
  - destruct (Rel_read g o i out N) as [R1 R2].
    destruct (Read g (st o) out) as [s' b]. destruct (i_read i (length out)) as [i' b'].
    cbn [fst snd] in *. subst. split; auto. apply Forall2_set; auto.
  - destruct (Rel_sum g o i isnil inp spare N) as [R1 R2].
    { intros ->. exact Hp. }
    destruct (Sum g (st o) isnil inp spare) as [s' b]. destruct (i_read i (i_size i)) as [i' b'].
    cbn [fst snd] in *. subst. split; auto. apply Forall2_set; auto.
  - cbn [fst snd]. split; auto. apply Forall2_set; auto. apply Rel_reset; auto.
  - cbn [fst snd]. split; auto. apply Forall2_app; auto.
Qed.

Lemma run_ok : forall g ops os is, Forall2 Rel os is -> Forall op_ok ops -> run g os ops = irun is ops.
Proof.
  induction ops; intros os is H Ho; auto. inversion Ho; subst. cbn [run irun].
  destruct (step_ok g os is a H H2) as [S1 S2].
  destruct (step g os a) as [os' r]. destruct (istep is a) as [is' r']. cbn [fst snd] in *. subst.
  f_equal. auto.
Qed.

(* ---------- constructors ---------- *)
Lemma Rel_new : forall r d b s, valid_rate r -> sfx_ok b s -> Rel (mkObj (new r d b) None) (fresh r d s []).
Proof.
  intros. unfold Rel, fresh. cbn [st initBlock i_rate i_size i_sfx i_pre i_msg i_out new rate size sfx app].
  do 4 (split; [auto|]). split; [constructor|]. apply new_absorbing; auto.
Qed.

Lemma Rel_newC : forall g r b s pre, valid_rate r -> sfx_ok b s -> bytes pre ->
  Rel (mkObj (fst (Write g (new r 0 b) pre)) (Some pre)) (fresh r 0 s pre).
Proof.
  intros. unfold Rel, fresh. cbn [st initBlock i_rate i_size i_sfx i_pre i_msg i_out].
  assert (A : Absorbing (new r 0 b) []) by (apply new_absorbing; auto).
  destruct (Write_ok g _ _ pre A H1) as (W1 & _ & W3 & W4 & W5).
  rewrite W3, W4, W5, app_nil_r. cbn [new rate size sfx]. auto 10.
Qed.

(* ---------- left_encode, bytepad ---------- *)
Lemma div_pow_zero : forall v k n, 0 <= v < 256 ^ n -> n <= k -> 0 <= n -> v / 256 ^ k = 0.
Proof.
  intros. apply Z.div_small. split; try lia. apply Z.lt_le_trans with (256 ^ n); try lia.
  apply Z.pow_le_mono_r; lia.
Qed.

Lemma log2_bytes : forall v n, 1 <= n -> 256 ^ (n - 1) <= v < 256 ^ n -> Z.log2 v / 8 + 1 = n.
Proof.
  intros v n Hn H. change 256 with (2 ^ 8) in H. rewrite <- !Z.pow_mul_r in H by lia.
  assert (0 < 2 ^ (8 * (n - 1))) by (apply Z.pow_pos_nonneg; lia).
  assert (8 * (n - 1) <= Z.log2 v) by (apply Z.log2_le_pow2; lia).
  assert (Z.log2 v < 8 * n) by (apply Z.log2_lt_pow2; lia).
  assert (Z.log2 v / 8 = n - 1); [|lia].
  symmetry. apply Z.div_unique with (Z.log2 v - 8 * (n - 1)); lia.
Qed.

Ltac dv := Z.to_euclidean_division_equations; lia.

Lemma leftEncode_ok : forall v, 0 <= v < 2 ^ 64 -> leftEncode v = left_encode v.
Proof.
  intros v Hv.
  assert (D1 : v / 256 = v / 256 ^ 1) by reflexivity.
  unfold left_encode, leftEncode.
  assert (C : v = 0 \/ exists n, 1 <= n <= 8 /\ 256 ^ (n - 1) <= v < 256 ^ n).
  { destruct (Z.eq_dec v 0); auto. right.
    destruct (Z_lt_ge_dec v (256^1)); [exists 1; simpl; lia|].
    destruct (Z_lt_ge_dec v (256^2)); [exists 2; split; [lia|split; [apply Z.ge_le; assumption|assumption]]|].
    destruct (Z_lt_ge_dec v (256^3)); [exists 3; split; [lia|split; [apply Z.ge_le; assumption|assumption]]|].
    destruct (Z_lt_ge_dec v (256^4)); [exists 4; split; [lia|split; [apply Z.ge_le; assumption|assumption]]|].
    destruct (Z_lt_ge_dec v (256^5)); [exists 5; split; [lia|split; [apply Z.ge_le; assumption|assumption]]|].
    destruct (Z_lt_ge_dec v (256^6)); [exists 6; split; [lia|split; [apply Z.ge_le; assumption|assumption]]|].
    destruct (Z_lt_ge_dec v (256^7)); [exists 7; split; [lia|split; [apply Z.ge_le; assumption|assumption]]|].
    exists 8; split; [lia|split; [apply Z.ge_le; assumption|apply Hv]]. }
  destruct C as [->|(n & Hn & B)]; [reflexivity|].
  assert (V0 : v <> 0). { assert (0 < 256 ^ (n - 1)) by (apply Z.pow_pos_nonneg; lia). lia. }
  assert (LB : left_encode_bytes v = Z.to_nat n).
  { unfold left_encode_bytes. destruct (Z.eqb_spec v 0); [contradiction|]. rewrite (log2_bytes v n); auto; lia. }
  rewrite LB.
  (* bytes of v, most significant first, in terms of v / 256^k *)
  assert (Q : forall k, (0 <= k) -> v / 256 ^ k / 256 = v / 256 ^ (k + 1)).
  { intros. rewrite Z.div_div by (try apply Z.pow_nonzero; lia). f_equal. rewrite Z.pow_add_r by lia. reflexivity. }
  assert (E8 : be_enc 8 v = [(v / 256 ^ 7) mod 256; (v / 256 ^ 6) mod 256; (v / 256 ^ 5) mod 256; (v / 256 ^ 4) mod 256;
               (v / 256 ^ 3) mod 256; (v / 256 ^ 2) mod 256; (v / 256 ^ 1) mod 256; v mod 256]).
  { unfold be_enc. cbn [le_enc rev app]. rewrite D1, !Q by lia. reflexivity. }
  rewrite E8.
  assert (Top : (v / 256 ^ (n - 1)) mod 256 <> 0).
  { rewrite Z.mod_small.
    - assert (1 <= v / 256 ^ (n - 1)); [|lia].
      apply Z.div_le_lower_bound; [apply Z.pow_pos_nonneg; lia|lia].
    - split; [apply Z.div_pos; [lia|apply Z.pow_pos_nonneg; lia]|].
      apply Z.div_lt_upper_bound; [apply Z.pow_pos_nonneg; lia|].
      replace (256 ^ (n - 1) * 256) with (256 ^ n); [lia|].
      replace n with (n - 1 + 1) at 1 by lia. rewrite Z.pow_add_r by lia. reflexivity. }
  assert (Zr : forall k, n <= k -> (v / 256 ^ k) mod 256 = 0).
  { intros k Hk. rewrite (div_pow_zero v k n) by lia. reflexivity. }
  assert (N : n = 1 \/ n = 2 \/ n = 3 \/ n = 4 \/ n = 5 \/ n = 6 \/ n = 7 \/ n = 8) by lia.
  unfold be_enc.
  destruct N as [->|[->|[->|[->|[->|[->|[->| ->]]]]]]]; cbn [Z.sub Z.add Z.opp Z.pos_sub Pos.pred_double] in Top;
    rewrite ?(Zr 7), ?(Zr 6), ?(Zr 5), ?(Zr 4), ?(Zr 3), ?(Zr 2), ?(Zr 1) by lia.
  all: match goal with |- context [Z.to_nat ?k] => let m := eval vm_compute in (Z.to_nat k) in change (Z.to_nat k) with m end.
  all: cbn [le_enc rev app]; rewrite ?D1, ?Q by lia; cbn [Z.add Pos.add Pos.succ].
  all: cbn [skip_zeros nth Nat.ltb Nat.leb andb Z.eqb].
  all: try (destruct (Z.eqb_spec ((v / 256 ^ 7) mod 256) 0); [contradiction|]).
  all: try (destruct (Z.eqb_spec ((v / 256 ^ 6) mod 256) 0); [contradiction|]).
  all: try (destruct (Z.eqb_spec ((v / 256 ^ 5) mod 256) 0); [contradiction|]).
  all: try (destruct (Z.eqb_spec ((v / 256 ^ 4) mod 256) 0); [contradiction|]).
  all: try (destruct (Z.eqb_spec ((v / 256 ^ 3) mod 256) 0); [contradiction|]).
  all: try (destruct (Z.eqb_spec ((v / 256 ^ 2) mod 256) 0); [contradiction|]).
  all: try (destruct (Z.eqb_spec ((v / 256 ^ 1) mod 256) 0); [contradiction|]).
  all: reflexivity.
Qed.

Lemma left_encode_bytes_bound : forall v, 0 <= v -> v < 256 ^ Z.of_nat (left_encode_bytes v).
Proof.
  intros v H. unfold left_encode_bytes. destruct (Z.eqb_spec v 0). { subst. reflexivity. }
  assert (0 <= Z.log2 v) by apply Z.log2_nonneg.
  rewrite Z2Nat.id by (apply Z.add_nonneg_nonneg; [apply Z.div_pos; lia|lia]).
  change 256 with (2 ^ 8). rewrite <- Z.pow_mul_r; [|lia|apply Z.add_nonneg_nonneg; [apply Z.div_pos; lia|lia]].
  apply Z.log2_lt_pow2; [lia|]. dv.
Qed.

Lemma left_encode_minimal : forall v n, 0 <= v -> (1 <= n)%nat -> v < 256 ^ Z.of_nat n -> (left_encode_bytes v <= n)%nat.
Proof.
  intros v n H Hn Hb. unfold left_encode_bytes. destruct (Z.eqb_spec v 0). { simpl. lia. }
  change 256 with (2 ^ 8) in Hb. rewrite <- Z.pow_mul_r in Hb by lia.
  assert (Z.log2 v < 8 * Z.of_nat n) by (apply Z.log2_lt_pow2; lia).
  assert (0 <= Z.log2 v) by apply Z.log2_nonneg.
  assert (Z.log2 v / 8 < Z.of_nat n) by (apply Z.div_lt_upper_bound; lia).
  assert (0 <= Z.log2 v / 8) by (apply Z.div_pos; lia). lia.
Qed.

Lemma app_inv_length : forall (A : Type) (a b c d : list A), length a = length c -> a ++ b = c ++ d -> a = c /\ b = d.
Proof.
  induction a; intros b [|y c] d L E; simpl in *; try lia; auto.
  inversion E. destruct (IHa b c d) as [-> ->]; auto.
Qed.

Lemma left_encode_prefix_free : forall x y s t, 0 <= x -> 0 <= y ->
  left_encode x ++ s = left_encode y ++ t -> x = y /\ s = t.
Proof.
  intros x y s t Hx Hy E. unfold left_encode in E. cbn [app] in E. inversion E as [[E1 E2]].
  apply Nat2Z.inj in E1. rewrite E1 in E2.
  apply app_inv_length in E2; [|now rewrite !be_enc_length]. destruct E2 as [E2 E3]. split; auto.
  apply (f_equal be_dec) in E2. rewrite !be_dec_enc in E2.
  assert (Bx := left_encode_bytes_bound x Hx). assert (By := left_encode_bytes_bound y Hy).
  rewrite E1 in Bx. rewrite !Z.mod_small in E2 by lia. exact E2.
Qed.

Lemma left_encode_is_bytes : forall v, 0 <= v < 2 ^ 64 -> bytes (left_encode v).
Proof.
  intros v H. unfold left_encode. constructor; [|apply be_enc_bytes].
  assert (left_encode_bytes v <= 8)%nat by (apply left_encode_minimal; try lia; apply H).
  unfold is_byte. lia.
Qed.

Lemma bytepad_ok : forall X w, (0 < Z.of_nat w < 2 ^ 64) ->
  Sha3_Model.bytepad X w = Sha3_Spec.bytepad X w ++
    (if (length (left_encode (Z.of_nat w) ++ X) mod w =? 0)%nat then repeat 0 w else []).
Proof.
  intros X w Hw. unfold Sha3_Model.bytepad, Sha3_Spec.bytepad. cbv zeta.
  unfold wrap64. rewrite Z.mod_small by lia. rewrite leftEncode_ok by lia.
  set (P := left_encode (Z.of_nat w) ++ X). rewrite <- (app_assoc P). f_equal. set (L := length P).
  assert (Dm := Nat.div_mod L w ltac:(lia)). assert (Mb := Nat.mod_upper_bound L w ltac:(lia)).
  destruct (Nat.eqb_spec (L mod w) 0) as [E|E].
  - rewrite E, Nat.sub_0_r.
    replace ((- Z.of_nat L) mod Z.of_nat w) with 0; [reflexivity|].
    symmetry. replace (- Z.of_nat L) with ((- Z.of_nat (L / w)) * Z.of_nat w) by nia.
    apply Z.mod_mul. lia.
  - rewrite app_nil_r. f_equal.
    replace (- Z.of_nat L) with (Z.of_nat w - Z.of_nat (L mod w) + (- Z.of_nat (L / w) - 1) * Z.of_nat w) by nia.
    rewrite Z.mod_add by lia. rewrite Z.mod_small by lia. lia.
Qed.

Lemma bytepad_mod : forall X w, (0 < w)%nat -> (length (Sha3_Model.bytepad X w) mod w = 0)%nat.
Proof.
  intros X w Hw. unfold Sha3_Model.bytepad. rewrite app_length, repeat_length.
  set (L := length _). assert (Dm := Nat.div_mod L w ltac:(lia)). assert (Mb := Nat.mod_upper_bound L w ltac:(lia)).
  replace (L + (w - L mod w))%nat with ((L / w + 1) * w)%nat by nia. apply Nat.mod_mul. lia.
Qed.

Lemma enc_len : forall l, small l -> leftEncode (wrap64 (Z.of_nat (length l) * 8)) = left_encode (8 * Z.of_nat (length l)).
Proof.
  intros l H. unfold small in H. unfold wrap64. rewrite Z.mod_small by lia.
  rewrite Z.mul_comm. apply leftEncode_ok. lia.
Qed.

Lemma initBlock_ok : forall N S r, small N -> small S -> (0 < r <= 168)%nat ->
  initBlock_of N S r = cshake_block r N S.
Proof.
  intros N S r HN HS Hr. unfold initBlock_of, cshake_block, encode_string.
  rewrite !enc_len by auto. rewrite bytepad_ok by lia. rewrite <- !app_assoc. reflexivity.
Qed.

Lemma encode_string_bytes : forall l, small l -> bytes l -> bytes (encode_string l).
Proof. intros l H B. apply bytes_app; auto. apply left_encode_is_bytes. unfold small in H. lia. Qed.

Lemma cshake_block_bytes : forall r N S, small N -> small S -> bytes N -> bytes S -> (0 < r <= 168)%nat ->
  bytes (cshake_block r N S).
Proof.
  intros. unfold cshake_block. apply bytes_app.
  - unfold Sha3_Spec.bytepad. apply bytes_app; [|apply repeat_bytes].
    apply bytes_app; [apply left_encode_is_bytes; lia|]. apply bytes_app; apply encode_string_bytes; auto.
  - destruct (_ =? _)%nat; [apply repeat_bytes|constructor].
Qed.

Lemma Rel_cshake128 : forall g N S, small N -> small S -> bytes N -> bytes S ->
  Rel (NewCShake128 g N S)
      (if (is_nil N && is_nil S)%bool then fresh 168 0 suffix_shake []
       else fresh 168 0 suffix_cshake (cshake_block 168 N S)).
Proof.
  intros. unfold NewCShake128.
  replace ((length N =? 0)%nat && (length S =? 0)%nat)%bool with (is_nil N && is_nil S)%bool
    by (destruct N, S; reflexivity).
  destruct (is_nil N && is_nil S)%bool.
  - apply Rel_new; unfold valid_rate, sfx_ok; auto 10.
  - unfold newCShake. rewrite initBlock_ok by (auto; lia).
    apply Rel_newC; [unfold valid_rate|unfold sfx_ok|apply cshake_block_bytes]; auto 10; lia.
Qed.
Lemma Rel_cshake256 : forall g N S, small N -> small S -> bytes N -> bytes S ->
  Rel (NewCShake256 g N S)
      (if (is_nil N && is_nil S)%bool then fresh 136 0 suffix_shake []
       else fresh 136 0 suffix_cshake (cshake_block 136 N S)).
Proof.
  intros. unfold NewCShake256.
  replace ((length N =? 0)%nat && (length S =? 0)%nat)%bool with (is_nil N && is_nil S)%bool
    by (destruct N, S; reflexivity).
  destruct (is_nil N && is_nil S)%bool.
  - apply Rel_new; unfold valid_rate, sfx_ok; auto 10.
  - unfold newCShake. rewrite initBlock_ok by (auto; lia).
    apply Rel_newC; [unfold valid_rate|unfold sfx_ok|apply cshake_block_bytes]; auto 10; lia.
Qed.

Lemma creates_Rel : forall g o i, creates g o i -> Rel o i.
Proof.
  intros g o i H. destruct H.
  7: apply Rel_cshake128; auto. 7: apply Rel_cshake256; auto.
  all: apply Rel_new; unfold valid_rate, sfx_ok; auto 10.
Qed.

Lemma history_ok : forall g os is ops, Forall2 (creates g) os is -> Forall op_ok ops ->
  run g os ops = irun is ops.
Proof.
  intros. apply run_ok; auto. clear -H. induction H; constructor; auto. eapply creates_Rel; eauto.
Qed.

(* ---------- chunked writes ---------- *)

Lemma writes_ok : forall g ps o i, Rel o i -> i_out i = None -> Forall bytes ps ->
  Rel (mkObj (writes g (st o) ps) (initBlock o))
      (mkI (i_rate i) (i_size i) (i_sfx i) (i_pre i) (i_msg i ++ concat ps) None).
Proof.
  induction ps as [|p ps IH]; intros o i H E Hp.
  - cbn [writes fold_left concat]. rewrite app_nil_r. destruct i, o. simpl in E. subst. exact H.
  - inversion Hp; subst. destruct (Rel_write g o i p H H2) as [R _].
    unfold i_write in R. rewrite E in R. cbn [fst] in R.
    apply IH in R; auto. cbn [st initBlock i_rate i_size i_sfx i_pre i_msg] in R.
    cbn [concat]. rewrite app_assoc. exact R.
Qed.

Definition outs_of (i : iobj) (k : nat) (outs : list (list Z)) : list Z :=
  output i k (length (concat outs)).

Lemma output_split : forall i k n m, (0 < i_rate i <= 200)%nat -> bytes (i_final i) -> length (i_final i) = 200%nat ->
  output i k (n + m) = output i k n ++ output i (k + n) m.
Proof.
  intros. rewrite !output_out.
  set (N := (k + n + m)%nat).
  assert (k + n + m <= N * i_rate i)%nat by (unfold N; nia).
  rewrite !(out_bytes_any _ _ _ _ N) by (auto; lia). apply slice_split.
Qed.

Lemma output_length : forall i k n, (0 < i_rate i <= 200)%nat -> bytes (i_final i) -> length (i_final i) = 200%nat ->
  length (output i k n) = n.
Proof.
  intros. rewrite output_out. set (N := (k + n)%nat).
  assert (k + n <= N * i_rate i)%nat by (unfold N; nia).
  rewrite (out_bytes_any _ _ _ _ N) by auto. apply slice_length. rewrite squeeze_length by (auto; lia). lia.
Qed.

Lemma Rel_final : forall (g : bool) o i, Rel o i -> bytes (i_final i) /\ length (i_final i) = 200%nat.
Proof.
  intros g o i H. destruct (Rel_read g o i [] H) as [(_ & _ & _ & _ & _ & R) _].
  cbn [i_read fst i_out] in R. unfold i_final in *. cbn [i_rate i_pre i_msg i_sfx] in R. tauto.
Qed.

Lemma reads_ok : forall g outs o i, Rel o i ->
  concat (reads g (st o) outs) = output i (taken i) (length (concat outs)) /\
  map (@length Z) (reads g (st o) outs) = map (@length Z) outs.
Proof.
  induction outs as [|out outs IH]; intros o i H.
  - cbn [reads concat length map]. split; auto. destruct (Rel_final g o i H) as [B L].
    assert (V := Rel_valid o i H). apply valid_rate_bounds in V.
    rewrite (proj1 H) in V.
    assert (E := output_length i (taken i) 0 ltac:(lia) B L).
    destruct (output i (taken i) 0); auto. discriminate E.
  - cbn [reads]. destruct (Rel_read g o i out H) as [R1 R2].
    destruct (Rel_final g o i H) as [B L].
    assert (V := Rel_valid o i H). apply valid_rate_bounds in V.
    destruct (Read g (st o) out) as [s' b]. cbn [fst snd] in R1, R2.
    destruct (IH _ _ R1) as [I1 I2]. cbn [st] in I1, I2. cbn [concat map].
    rewrite I1, I2. cbn [i_read snd] in R2. subst b.
    unfold i_read at 1. cbn [fst taken i_out]. split.
    + rewrite app_length, output_split by (try rewrite <- (proj1 H); auto; lia). f_equal.
    + f_equal. apply output_length; auto. rewrite <- (proj1 H). lia.
Qed.

Lemma taken_none : forall i, i_out i = None -> taken i = O.
Proof. intros i H. unfold taken. now rewrite H. Qed.

Lemma stream_ok : forall g s ib r sf d pre ps outs, Rel (mkObj s ib) (fresh r d sf pre) -> Forall bytes ps ->
  concat (reads g (writes g s ps) outs) = sponge r (bits_of_bytes (pre ++ concat ps) ++ sf) (length (concat outs)) /\
  map (@length Z) (reads g (writes g s ps) outs) = map (@length Z) outs.
Proof.
  intros g s ib r sf d pre ps outs H Hp. apply (writes_ok g ps) in H; auto.
  destruct (reads_ok g outs _ _ H) as [R1 R2]. exact (conj R1 R2).
Qed.

Lemma digest_ok : forall g r d b sf ps isnil inp spare, valid_rate r -> sfx_ok b sf -> Forall bytes ps ->
  (isnil = true -> inp = [] /\ spare = []) ->
  snd (Sum g (writes g (new r d b) ps) isnil inp spare) = inp ++ sponge r (bits_of_bytes (concat ps) ++ sf) d.
Proof.
  intros g r d b sf ps isnil inp spare Hr Hs Hp Hn.
  assert (R := Rel_new r d b sf Hr Hs). apply (writes_ok g ps) in R; auto.
  destruct (Rel_sum g _ _ isnil inp spare R Hn) as [_ E]. exact E.
Qed.

(* ---------- Reset gives back a fresh object ---------- *)

Lemma reset_write : forall i p, i_reset (fst (i_write i p)) = i_reset i.
Proof. intros. unfold i_write. destruct (i_out i); reflexivity. Qed.

Lemma reach_Rel : forall g o o' i, Rel o i -> reach g o o' ->
  exists i', Rel o' i' /\ i_reset i' = i_reset i.
Proof.
  intros g o o' i H R. induction R.
  - eauto.
  - destruct IHR as (i' & H1 & H2). exists (fst (i_write i' p)). split.
    apply (proj1 (Rel_write g o' i' p H1 H0)). now rewrite reset_write.
  - destruct IHR as (i' & H1 & H2). eexists. split.
    apply (proj1 (Rel_read g o' i' out H1)). exact H2.
  - destruct IHR as (i' & H1 & H2). eexists. split.
    apply (proj1 (Rel_sum g o' i' false inp spare H1 ltac:(discriminate))). exact H2.
  - destruct IHR as (i' & H1 & H2). eexists. split.
    apply (proj1 (Rel_sum g o' i' true [] [] H1 (fun _ => conj eq_refl eq_refl))). exact H2.
  - destruct IHR as (i' & H1 & H2). exists (i_reset i'). split; [apply Rel_reset; auto|exact H2].
  - destruct IHR as (i' & H1 & H2). exists i'. split; auto.
Qed.

Lemma creates_fresh : forall g o i, creates g o i -> i_reset i = i.
Proof. intros g o i H. destruct H; try reflexivity; destruct (_ && _)%bool; reflexivity. Qed.

Lemma reset_fresh : forall g o i o' ops, creates g o i -> reach g o o' -> Forall op_ok ops ->
  run g [ResetObj g o'] ops = run g [o] ops.
Proof.
  intros g o i o' ops C R Ho. assert (H := creates_Rel g o i C).
  destruct (reach_Rel g o o' i H R) as (i' & H1 & H2).
  rewrite (run_ok g ops [ResetObj g o'] [i]), (run_ok g ops [o] [i]); auto.
  constructor; auto. rewrite <- (creates_fresh _ _ _ C), <- H2. apply Rel_reset; auto.
Qed.

(* ---------- Sum twice ---------- *)
Lemma sum_twice : forall g r d b sf ps in1 sp1 in2 sp2, valid_rate r -> sfx_ok b sf -> Forall bytes ps ->
  let s := writes g (new r d b) ps in
  let s1 := fst (Sum g s false in1 sp1) in
  snd (Sum g s1 false in2 sp2) = in2 ++ skipn d (sponge r (bits_of_bytes (concat ps) ++ sf) (d + d)) /\
  (forall p, Write g s1 p = (s1, (O, Some ErrWriteAfterRead))).
Proof.
  intros g r d b sf ps in1 sp1 in2 sp2 Hr Hs Hp s s1.
  assert (R := Rel_new r d b sf Hr Hs). apply (writes_ok g ps) in R; auto. cbn [st initBlock] in R. fold s in R.
  destruct (Rel_sum g _ _ false in1 sp1 R ltac:(discriminate)) as [R1 _]. cbn [st initBlock] in R1.
  destruct (Rel_sum g _ _ false in2 sp2 R1 ltac:(discriminate)) as [_ R2].
  split; [exact R2|]. intros p.
  assert (Q : isSquezing s1 = true).
  { destruct R1 as (_ & _ & _ & _ & _ & _ & _ & Q). apply Q. }
  unfold Write. rewrite Q. reflexivity.
Qed.

(* ---------- customisation is unambiguous ---------- *)

Lemma bits_inj : forall a b, bytes a -> bytes b -> bits_of_bytes a = bits_of_bytes b -> a = b.
Proof.
  intros a b Ha Hb E. apply (f_equal (fun l => bytes_of_bits (l ++ []))) in E.
  rewrite !bytes_of_bits_app in E by auto. simpl in E. now rewrite !app_nil_r in E.
Qed.

Lemma block_inj : forall r N S N' S' X X', (0 < r)%nat ->
  cshake_block r N S ++ X = cshake_block r N' S' ++ X' -> N = N' /\ S = S' /\ X = X'.
Proof.
  intros r N S N' S' X X' Hr E. unfold cshake_block in E. cbv zeta in E.
  unfold Sha3_Spec.bytepad, encode_string in E. cbv zeta in E.
  set (pad1 := repeat 0 (Z.to_nat _)) in E at 1.
  set (pad2 := if (_ =? _)%nat then _ else _) in E at 1.
  set (pad3 := repeat 0 (Z.to_nat _)) in E at 1.
  set (pad4 := if (_ =? _)%nat then _ else _) in E at 1.
  rewrite <- !app_assoc in E.
  apply left_encode_prefix_free in E; [|lia|lia]. destruct E as [_ E].
  apply left_encode_prefix_free in E; [|lia|lia]. destruct E as [L1 E].
  apply app_inv_length in E; [|lia]. destruct E as [-> E].
  apply left_encode_prefix_free in E; [|lia|lia]. destruct E as [L2 E].
  apply app_inv_length in E; [|lia]. destruct E as [-> E].
  split; [auto|]. split; [auto|].
  apply app_inv_length in E; [|reflexivity]. destruct E as [_ E].
  apply app_inv_length in E; [|reflexivity]. destruct E as [_ E]. exact E.
Qed.

Lemma absorbed_inj : forall r N S N' S' X X', (0 < r <= 168)%nat ->
  small N -> small S -> small N' -> small S' ->
  bytes N -> bytes S -> bytes N' -> bytes S' -> bytes X -> bytes X' ->
  absorbed r N S X = absorbed r N' S' X' -> N = N' /\ S = S' /\ X = X'.
Proof.
  intros r N S N' S' X X' Hr. intros. unfold absorbed in *.
  assert (SF : forall a b, a ++ suffix_shake <> b ++ suffix_cshake).
  { intros a b E. change suffix_shake with ([true; true; true] ++ [true]) in E.
    change suffix_cshake with ([false] ++ [false]) in E. rewrite !app_assoc in E.
    apply app_inj_tail in E. destruct E. discriminate. }
  destruct (is_nil N && is_nil S)%bool eqn:E1; destruct (is_nil N' && is_nil S')%bool eqn:E2.
  - apply app_inv_tail in H9. apply bits_inj in H9; auto.
    destruct N, S, N', S'; try discriminate; auto.
  - exfalso. eapply SF; eauto.
  - exfalso. eapply SF; eauto.
  - apply app_inv_tail in H9. apply bits_inj in H9; try (apply bytes_app; auto; apply cshake_block_bytes; auto).
    apply block_inj with r; auto; lia.
Qed.

Lemma copyOut_same : forall a b, length a = 25%nat -> valid_rate (length b) ->
  copyOutUnaligned a b = copyOutGeneric a b.
Proof. intros a b H V. transitivity (firstn (length b) (string_of a)); [exact (copyOut_ok false a b H V)|symmetry; exact (copyOut_ok true a b H V)]. Qed.

(* cSHAKE streams *)

Lemma cshake_stream : forall g r N S (o : obj) ps outs,
  Rel o (if (is_nil N && is_nil S)%bool then fresh r 0 suffix_shake []
         else fresh r 0 suffix_cshake (cshake_block r N S)) -> Forall bytes ps ->
  concat (reads g (writes g (st o) ps) outs) =
    sponge r (absorbed r N S (concat ps)) (length (concat outs)) /\
  (N = [] /\ S = [] \/ ~ aligned r N S ->
   concat (reads g (writes g (st o) ps) outs) = cshake r (concat ps) (length (concat outs)) N S).
Proof.
  intros g r N S [s ib] ps outs R Hp. cbn [st].
  assert (E : concat (reads g (writes g s ps) outs) =
    sponge r (absorbed r N S (concat ps)) (length (concat outs))).
  { unfold absorbed. destruct (is_nil N && is_nil S)%bool;
      destruct (stream_ok g s ib _ _ _ _ ps outs R Hp) as [E _]; exact E. }
  split; auto. intros C. rewrite E. unfold absorbed, cshake.
  assert (D : ~ aligned r N S -> cshake_block r N S = Sha3_Spec.bytepad (encode_string N ++ encode_string S) r).
  { intros A. unfold cshake_block. unfold aligned in A. destruct (Nat.eqb_spec (length (left_encode (Z.of_nat r) ++ encode_string N ++ encode_string S) mod r) 0).
    - contradiction. - apply app_nil_r. }
  destruct N as [|n N]; destruct S as [|x S]; cbn [is_nil andb]; auto;
    (destruct C as [[C1 C2]|C]; [discriminate C1 || discriminate C2|]); rewrite (D C); reflexivity.
Qed.

Lemma cshake128_ok : forall g N S ps outs, bytes N -> bytes S -> small N -> small S -> Forall bytes ps ->
  concat (reads g (writes g (st (NewCShake128 g N S)) ps) outs) =
    sponge 168 (absorbed 168 N S (concat ps)) (length (concat outs)) /\
  (N = [] /\ S = [] \/ ~ aligned 168 N S ->
   concat (reads g (writes g (st (NewCShake128 g N S)) ps) outs) = cshake128 (concat ps) (length (concat outs)) N S).
Proof. intros. apply cshake_stream; auto. apply Rel_cshake128; auto. Qed.
Lemma cshake256_ok : forall g N S ps outs, bytes N -> bytes S -> small N -> small S -> Forall bytes ps ->
  concat (reads g (writes g (st (NewCShake256 g N S)) ps) outs) =
    sponge 136 (absorbed 136 N S (concat ps)) (length (concat outs)) /\
  (N = [] /\ S = [] \/ ~ aligned 136 N S ->
   concat (reads g (writes g (st (NewCShake256 g N S)) ps) outs) = cshake256 (concat ps) (length (concat outs)) N S).
Proof. intros. apply cshake_stream; auto. apply Rel_cshake256; auto. Qed.

Lemma bytepad_exact : forall X w, 0 < Z.of_nat w < 2 ^ 64 ->
  (Sha3_Model.bytepad X w = Sha3_Spec.bytepad X w <->
   (length (left_encode (Z.of_nat w) ++ X) mod w <> 0)%nat).
Proof.
  intros X w Hw. rewrite bytepad_ok by auto.
  destruct (Nat.eqb_spec (length (left_encode (Z.of_nat w) ++ X) mod w) 0) as [E|E].
  - split; [|contradiction]. intros H. exfalso. apply (f_equal (@length Z)) in H.
    rewrite app_length, repeat_length in H. lia.
  - rewrite app_nil_r. tauto.
Qed.
