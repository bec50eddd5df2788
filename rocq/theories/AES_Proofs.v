(* T-table AES (AES_Model) refines FIPS-197 (AES_Spec). *)
From Coq Require Import ZArith List Bool Lia.
From Verif Require Import Lib AES_Tables AES_Spec AES_Model.
Import ListNotations.
Open Scope Z_scope.

Definition zbytes : list Z := map Z.of_nat (seq 0 256).

Lemma zbytes_nth : forall x, is_byte x -> nth (Z.to_nat x) zbytes 0 = x.
Proof.
  intros x H. unfold zbytes, is_byte in *. change 0 with (Z.of_nat 0).
  rewrite map_nth, seq_nth by lia. lia.
Qed.
Lemma zbytes_length : length zbytes = 256%nat. Proof. reflexivity. Qed.
Lemma in_zbytes : forall x, is_byte x -> In x zbytes.
Proof.
  intros x H. rewrite <- (zbytes_nth x H). apply nth_In. rewrite zbytes_length.
  unfold is_byte in H. lia.
Qed.
Lemma forall_bytes : forall (P : Z -> bool), forallb P zbytes = true -> forall x, is_byte x -> P x = true.
Proof. intros P H x Hx. rewrite forallb_forall in H. apply H, in_zbytes, Hx. Qed.

Lemma tab_map : forall f t x, t = map f zbytes -> is_byte x -> tab t x = f x.
Proof.
  intros f t x -> H. unfold tab.
  rewrite (nth_indep _ 0 (f 0)) by (rewrite map_length, zbytes_length; unfold is_byte in H; lia).
  rewrite map_nth, zbytes_nth; auto.
Qed.

(** * The tables *)
Lemma sbox0_ok : sbox0 = map SubByte zbytes.
Proof. vm_compute. reflexivity. Qed.
Lemma sbox1_ok : sbox1 = map InvSubByte zbytes.
Proof. vm_compute. reflexivity. Qed.

Definition S0 (x : Z) := tab sbox0 x.
Definition S1 (x : Z) := tab sbox1 x.
Lemma S0_ok : forall x, is_byte x -> tab sbox0 x = SubByte x.
Proof. intros. apply tab_map; [exact sbox0_ok | assumption]. Qed.
Lemma S1_ok : forall x, is_byte x -> tab sbox1 x = InvSubByte x.
Proof. intros. apply tab_map; [exact sbox1_ok | assumption]. Qed.

Definition isb (x : Z) : bool := (0 <=? x) && (x <? 256).
Lemma isb_ok : forall x, isb x = true -> is_byte x.
Proof. intros x H. unfold isb in H. apply andb_true_iff in H. unfold is_byte. lia. Qed.

Lemma S0_byte : forall x, is_byte x -> is_byte (SubByte x).
Proof.
  intros x H. rewrite <- S0_ok by auto. apply isb_ok.
  apply (forall_bytes (fun x => isb (tab sbox0 x))); [vm_compute; reflexivity | assumption].
Qed.
Lemma S1_byte : forall x, is_byte x -> is_byte (InvSubByte x).
Proof.
  intros x H. rewrite <- S1_ok by auto. apply isb_ok.
  apply (forall_bytes (fun x => isb (tab sbox1 x))); [vm_compute; reflexivity | assumption].
Qed.
Lemma S1_S0 : forall x, is_byte x -> InvSubByte (SubByte x) = x.
Proof.
  intros x H. rewrite <- S0_ok by auto. rewrite <- S1_ok by (rewrite S0_ok by auto; apply S0_byte; auto).
  apply Z.eqb_eq. apply (forall_bytes (fun x => tab sbox1 (tab sbox0 x) =? x)); [vm_compute; reflexivity | assumption].
Qed.
Lemma S0_S1 : forall x, is_byte x -> SubByte (InvSubByte x) = x.
Proof.
  intros x H. rewrite <- (S1_ok x) by auto. rewrite <- S0_ok by (rewrite S1_ok by auto; apply S1_byte; auto).
  apply Z.eqb_eq. apply (forall_bytes (fun x => tab sbox0 (tab sbox1 x) =? x)); [vm_compute; reflexivity | assumption].
Qed.

Definition W (a b c d : Z) : Z := be_dec [a; b; c; d].
Definition col0 (m0 m1 m2 m3 s : Z) : Z := W (gmul m0 s) (gmul m1 s) (gmul m2 s) (gmul m3 s).

Lemma te_tab : te0 = map (col0 2 1 1 3) sbox0 /\ te1 = map (col0 3 2 1 1) sbox0 /\
  te2 = map (col0 1 3 2 1) sbox0 /\ te3 = map (col0 1 1 3 2) sbox0.
Proof. vm_compute. auto. Qed.
Lemma td_tab : td0 = map (col0 14 9 13 11) sbox1 /\ td1 = map (col0 11 14 9 13) sbox1 /\
  td2 = map (col0 13 11 14 9) sbox1 /\ td3 = map (col0 9 13 11 14) sbox1.
Proof. vm_compute. auto. Qed.

Lemma tab_map2 : forall (f g : Z -> Z) (t s : list Z) x, t = map f s -> s = map g zbytes -> is_byte x -> tab t x = f (g x).
Proof. intros f g t s x -> -> H. apply (tab_map (fun x => f (g x))); [apply map_map | assumption]. Qed.
Lemma te0_ok : forall x, is_byte x -> tab te0 x = col0 2 1 1 3 (SubByte x).
Proof. intros. eapply tab_map2; [apply te_tab | exact sbox0_ok | assumption]. Qed.
Lemma te1_ok : forall x, is_byte x -> tab te1 x = col0 3 2 1 1 (SubByte x).
Proof. intros. eapply tab_map2; [apply te_tab | exact sbox0_ok | assumption]. Qed.
Lemma te2_ok : forall x, is_byte x -> tab te2 x = col0 1 3 2 1 (SubByte x).
Proof. intros. eapply tab_map2; [apply te_tab | exact sbox0_ok | assumption]. Qed.
Lemma te3_ok : forall x, is_byte x -> tab te3 x = col0 1 1 3 2 (SubByte x).
Proof. intros. eapply tab_map2; [apply te_tab | exact sbox0_ok | assumption]. Qed.
Lemma td0_ok : forall x, is_byte x -> tab td0 x = col0 14 9 13 11 (InvSubByte x).
Proof. intros. eapply tab_map2; [apply td_tab | exact sbox1_ok | assumption]. Qed.
Lemma td1_ok : forall x, is_byte x -> tab td1 x = col0 11 14 9 13 (InvSubByte x).
Proof. intros. eapply tab_map2; [apply td_tab | exact sbox1_ok | assumption]. Qed.
Lemma td2_ok : forall x, is_byte x -> tab td2 x = col0 13 11 14 9 (InvSubByte x).
Proof. intros. eapply tab_map2; [apply td_tab | exact sbox1_ok | assumption]. Qed.
Lemma td3_ok : forall x, is_byte x -> tab td3 x = col0 9 13 11 14 (InvSubByte x).
Proof. intros. eapply tab_map2; [apply td_tab | exact sbox1_ok | assumption]. Qed.

Lemma SubByte_def : forall x, SubByte x = affine (ginv x). Proof. reflexivity. Qed.
Global Opaque SubByte InvSubByte.

(** * GF(2^8) *)
Lemma xtime_byte : forall b, is_byte b -> is_byte (xtime b).
Proof.
  intros b H. apply isb_ok. apply (forall_bytes (fun b => isb (xtime b))); [vm_compute; reflexivity | assumption].
Qed.
Lemma gmul_bits_byte : forall n a b, is_byte b -> is_byte (gmul_bits n a b).
Proof.
  induction n; intros a b H; cbn [gmul_bits]. { unfold is_byte; lia. }
  apply lxor_byte. { destruct (Z.odd a); auto. unfold is_byte; lia. }
  apply IHn, xtime_byte, H.
Qed.
Lemma gmul_byte : forall a b, is_byte b -> is_byte (gmul a b).
Proof. intros. apply gmul_bits_byte; auto. Qed.

Lemma xtime_testbit : forall b, is_byte b -> xtime b = Z.lxor (2 * b) (if Z.testbit b 7 then 0x11b else 0).
Proof.
  intros b H. apply Z.eqb_eq.
  apply (forall_bytes (fun b => xtime b =? Z.lxor (2 * b) (if Z.testbit b 7 then 0x11b else 0))); [vm_compute; reflexivity | assumption].
Qed.
Lemma lxor_swap4 : forall a b c d, Z.lxor (Z.lxor a b) (Z.lxor c d) = Z.lxor (Z.lxor a c) (Z.lxor b d).
Proof.
  intros. rewrite !Z.lxor_assoc. f_equal. rewrite <- !Z.lxor_assoc. f_equal. apply Z.lxor_comm.
Qed.
Lemma lxor_double : forall x y, 2 * Z.lxor x y = Z.lxor (2 * x) (2 * y).
Proof.
  intros. rewrite !(Z.mul_comm 2). change 2 with (2 ^ 1). rewrite <- !Z.shiftl_mul_pow2 by lia.
  apply Z.shiftl_lxor.
Qed.
Lemma xtime_lxor : forall x y, is_byte x -> is_byte y -> xtime (Z.lxor x y) = Z.lxor (xtime x) (xtime y).
Proof.
  intros x y Hx Hy. rewrite !xtime_testbit by (auto using lxor_byte).
  rewrite Z.lxor_spec, lxor_double, lxor_swap4. f_equal.
  destruct (Z.testbit x 7), (Z.testbit y 7); reflexivity.
Qed.
Lemma gmul_lxor : forall a x y, is_byte x -> is_byte y -> gmul a (Z.lxor x y) = Z.lxor (gmul a x) (gmul a y).
Proof.
  unfold gmul. intros a x y. revert a x y. generalize 8%nat.
  induction n; intros a x y Hx Hy; cbn [gmul_bits]; auto.
  rewrite xtime_lxor, IHn by (auto using xtime_byte). rewrite lxor_swap4. f_equal.
  destruct (Z.odd a); auto.
Qed.
(* ginv is the multiplicative inverse *)
Lemma ginv_ok : forall x, is_byte x -> x <> 0 -> gmul x (ginv x) = 1.
Proof.
  intros x H Hn.
  assert (E : ((x =? 0) || (gmul x (ginv x) =? 1))%bool = true).
  { apply (forall_bytes (fun x => (x =? 0) || (gmul x (ginv x) =? 1))%bool); [vm_compute; reflexivity | assumption]. }
  apply orb_true_iff in E. rewrite !Z.eqb_eq in E. tauto.
Qed.
Lemma ginv_0 : ginv 0 = 0. Proof. reflexivity. Qed.

(** * Words *)
Lemma W_eq : forall a b c d, W a b c d = a * 2 ^ 24 + b * 2 ^ 16 + c * 2 ^ 8 + d.
Proof. intros. unfold W, be_dec. cbn [rev app le_dec]. lia. Qed.

Lemma W_u8 : forall a b c d, is_byte a -> is_byte b -> is_byte c -> is_byte d ->
  u8 (W a b c d) 24 = a /\ u8 (W a b c d) 16 = b /\ u8 (W a b c d) 8 = c /\ u8 (W a b c d) 0 = d.
Proof.
  intros a b c d Ha Hb Hc Hd. rewrite W_eq. unfold u8, is_byte in *.
  rewrite !Z.shiftr_div_pow2 by lia.
  change (2 ^ 24) with 16777216. change (2 ^ 16) with 65536. change (2 ^ 8) with 256. change (2 ^ 0) with 1.
  repeat split; Z.div_mod_to_equations; lia.
Qed.
Lemma ff_u8 : forall w k, ff w k = u8 w k.
Proof. intros. unfold ff, u8. change 0xff with (Z.ones 8). rewrite Z.land_ones by lia. reflexivity. Qed.
Lemma W_hi : forall a b c d, is_byte a -> is_byte b -> is_byte c -> is_byte d ->
  Z.shiftr (W a b c d) 24 = a.
Proof.
  intros a b c d Ha Hb Hc Hd. rewrite W_eq. unfold is_byte in *.
  rewrite Z.shiftr_div_pow2 by lia.
  change (2 ^ 24) with 16777216. change (2 ^ 16) with 65536. change (2 ^ 8) with 256.
  Z.div_mod_to_equations; lia.
Qed.
Lemma le_dec_xor : forall a b, bytes a -> bytes b -> length a = length b ->
  le_dec (xor_list a b) = Z.lxor (le_dec a) (le_dec b).
Proof.
  induction a as [|x a IH]; destruct b as [|y b]; intros Ha Hb L; try discriminate; auto.
  inversion Ha; inversion Hb; subst. injection L as L. cbn [xor_list le_dec].
  rewrite IH by auto. rewrite !(Z.mul_comm 256). change 256 with (2 ^ 8).
  rewrite <- !lxor_low_high by (unfold is_byte in *; try lia; apply lxor_byte; auto).
  rewrite lxor_swap4. f_equal. rewrite <- !Z.shiftl_mul_pow2 by lia. apply Z.shiftl_lxor.
Qed.
Ltac mkbytes := unfold bytes; repeat (apply Forall_cons; [assumption|]); apply Forall_nil.
Ltac bytesolve :=
  repeat (match goal with
          | H : is_byte ?x |- is_byte ?x => exact H
          | |- is_byte (Z.lxor _ _) => apply lxor_byte
          | |- is_byte (gmul _ _) => apply gmul_byte
          | |- is_byte (SubByte _) => apply S0_byte
          | |- is_byte (InvSubByte _) => apply S1_byte
          end).
Lemma W_lxor : forall a b c d a' b' c' d', is_byte a -> is_byte b -> is_byte c -> is_byte d ->
  is_byte a' -> is_byte b' -> is_byte c' -> is_byte d' ->
  Z.lxor (W a b c d) (W a' b' c' d') = W (Z.lxor a a') (Z.lxor b b') (Z.lxor c c') (Z.lxor d d').
Proof.
  intros. unfold W, be_dec. cbn [rev app].
  rewrite <- le_dec_xor; [reflexivity | mkbytes | mkbytes | reflexivity].
Qed.
Lemma shl_lor : forall a b c d, is_byte a -> is_byte b -> is_byte c -> is_byte d ->
  Z.lor (Z.lor (Z.lor (shl a 24) (shl b 16)) (shl c 8)) d = W a b c d.
Proof.
  intros a b c d Ha Hb Hc Hd. rewrite W_eq. unfold shl, wrap32, is_byte in *.
  rewrite !Z.shiftl_mul_pow2 by lia. rewrite !Z.mod_small by lia.
  rewrite (Z.lor_comm (a * 2 ^ 24)), (lor_low_high (b * 2 ^ 16) a 24) by lia.
  replace (b * 2 ^ 16 + a * 2 ^ 24) with ((b + a * 2 ^ 8) * 2 ^ 16) by lia.
  rewrite (Z.lor_comm ((b + a * 2 ^ 8) * 2 ^ 16)), (lor_low_high (c * 2 ^ 8) (b + a * 2 ^ 8) 16) by lia.
  replace (c * 2 ^ 8 + (b + a * 2 ^ 8) * 2 ^ 16) with ((c + (b + a * 2 ^ 8) * 2 ^ 8) * 2 ^ 8) by lia.
  rewrite Z.lor_comm, lor_low_high by lia. lia.
Qed.
Lemma W_enc : forall a b c d, is_byte a -> is_byte b -> is_byte c -> is_byte d -> be_enc 4 (W a b c d) = [a; b; c; d].
Proof. intros. apply (be_enc_dec [a; b; c; d]). mkbytes. Qed.

Lemma list16 : forall (l : list Z), length l = 16%nat -> exists a0 a1 a2 a3 b0 b1 b2 b3 c0 c1 c2 c3 d0 d1 d2 d3,
  l = [a0; a1; a2; a3; b0; b1; b2; b3; c0; c1; c2; c3; d0; d1; d2; d3].
Proof.
  intros l H. do 16 (destruct l as [|? l]; [discriminate|]). destruct l; [|discriminate].
  repeat eexists.
Qed.
Lemma list4 : forall (l : list Z), length l = 4%nat -> exists a b c d, l = [a; b; c; d].
Proof.
  intros l H. do 4 (destruct l as [|? l]; [discriminate|]). destruct l; [|discriminate]. repeat eexists.
Qed.

Ltac inv_bytes :=
  repeat match goal with
         | H : bytes (_ :: _) |- _ => unfold bytes in H; inversion H; clear H; subst
         | H : Forall is_byte (_ :: _) |- _ => inversion H; clear H; subst
         | H : Forall is_byte [] |- _ => clear H
         end.

Lemma lx5 : forall k a b c d,
  Z.lxor (Z.lxor (Z.lxor (Z.lxor k a) b) c) d = Z.lxor (Z.lxor a (Z.lxor b (Z.lxor c d))) k.
Proof. intros. rewrite !Z.lxor_assoc. rewrite (Z.lxor_comm k). rewrite !Z.lxor_assoc. reflexivity. Qed.

Definition qw (s : list Z) : quad := (be32 s 0, be32 s 4, be32 s 8, be32 s 12).

(* one output word of a middle round *)
Lemma tmix_enc : forall k0 k1 k2 k3 a0 a1 a2 a3 b0 b1 b2 b3 c0 c1 c2 c3 d0 d1 d2 d3,
  bytes [k0; k1; k2; k3] -> bytes [a0; a1; a2; a3] -> bytes [b0; b1; b2; b3] -> bytes [c0; c1; c2; c3] -> bytes [d0; d1; d2; d3] ->
  tmix te0 te1 te2 te3 (be_dec [k0; k1; k2; k3]) (be_dec [a0; a1; a2; a3]) (be_dec [b0; b1; b2; b3]) (be_dec [c0; c1; c2; c3]) (be_dec [d0; d1; d2; d3])
  = be_dec (xor_list (mixcol 2 3 1 1 [SubByte a0; SubByte b1; SubByte c2; SubByte d3]) [k0; k1; k2; k3]).
Proof.
  intros. inv_bytes. unfold tmix.
  repeat match goal with
         | |- context [u8 (be_dec [?a; ?b; ?c; ?d]) ?k] => change (be_dec [a; b; c; d]) with (W a b c d)
         end.
  rewrite (proj1 (W_u8 a0 a1 a2 a3 ltac:(assumption) ltac:(assumption) ltac:(assumption) ltac:(assumption))).
  rewrite (proj1 (proj2 (W_u8 b0 b1 b2 b3 ltac:(assumption) ltac:(assumption) ltac:(assumption) ltac:(assumption)))).
  rewrite (proj1 (proj2 (proj2 (W_u8 c0 c1 c2 c3 ltac:(assumption) ltac:(assumption) ltac:(assumption) ltac:(assumption))))).
  rewrite (proj2 (proj2 (proj2 (W_u8 d0 d1 d2 d3 ltac:(assumption) ltac:(assumption) ltac:(assumption) ltac:(assumption))))).
  rewrite te0_ok, te1_ok, te2_ok, te3_ok by assumption.
  change (be_dec [k0; k1; k2; k3]) with (W k0 k1 k2 k3). unfold col0.
  rewrite !W_lxor by bytesolve.
  unfold mixcol. cbn [nth xor_list]. unfold W. rewrite !lx5. reflexivity.
Qed.
Lemma tmix_dec : forall k0 k1 k2 k3 a0 a1 a2 a3 b0 b1 b2 b3 c0 c1 c2 c3 d0 d1 d2 d3,
  bytes [k0; k1; k2; k3] -> bytes [a0; a1; a2; a3] -> bytes [b0; b1; b2; b3] -> bytes [c0; c1; c2; c3] -> bytes [d0; d1; d2; d3] ->
  tmix td0 td1 td2 td3 (be_dec [k0; k1; k2; k3]) (be_dec [a0; a1; a2; a3]) (be_dec [b0; b1; b2; b3]) (be_dec [c0; c1; c2; c3]) (be_dec [d0; d1; d2; d3])
  = be_dec (xor_list (mixcol 14 11 13 9 [InvSubByte a0; InvSubByte b1; InvSubByte c2; InvSubByte d3]) [k0; k1; k2; k3]).
Proof.
  intros. inv_bytes. unfold tmix.
  repeat match goal with
         | |- context [u8 (be_dec [?a; ?b; ?c; ?d]) ?k] => change (be_dec [a; b; c; d]) with (W a b c d)
         end.
  rewrite (proj1 (W_u8 a0 a1 a2 a3 ltac:(assumption) ltac:(assumption) ltac:(assumption) ltac:(assumption))).
  rewrite (proj1 (proj2 (W_u8 b0 b1 b2 b3 ltac:(assumption) ltac:(assumption) ltac:(assumption) ltac:(assumption)))).
  rewrite (proj1 (proj2 (proj2 (W_u8 c0 c1 c2 c3 ltac:(assumption) ltac:(assumption) ltac:(assumption) ltac:(assumption))))).
  rewrite (proj2 (proj2 (proj2 (W_u8 d0 d1 d2 d3 ltac:(assumption) ltac:(assumption) ltac:(assumption) ltac:(assumption))))).
  rewrite td0_ok, td1_ok, td2_ok, td3_ok by assumption.
  change (be_dec [k0; k1; k2; k3]) with (W k0 k1 k2 k3). unfold col0.
  rewrite !W_lxor by bytesolve.
  unfold mixcol. cbn [nth xor_list]. unfold W. rewrite !lx5. reflexivity.
Qed.
Lemma smix_ok : forall sb f a0 a1 a2 a3 b0 b1 b2 b3 c0 c1 c2 c3 d0 d1 d2 d3,
  (forall x, is_byte x -> tab sb x = f x) -> (forall x, is_byte x -> is_byte (f x)) ->
  bytes [a0; a1; a2; a3] -> bytes [b0; b1; b2; b3] -> bytes [c0; c1; c2; c3] -> bytes [d0; d1; d2; d3] ->
  smix sb (be_dec [a0; a1; a2; a3]) (be_dec [b0; b1; b2; b3]) (be_dec [c0; c1; c2; c3]) (be_dec [d0; d1; d2; d3])
  = be_dec [f a0; f b1; f c2; f d3].
Proof.
  intros. inv_bytes. unfold smix. rewrite !ff_u8.
  repeat match goal with
         | |- context [u8 (be_dec [?a; ?b; ?c; ?d]) ?k] => change (be_dec [a; b; c; d]) with (W a b c d)
         end.
  change (be_dec [a0; a1; a2; a3]) with (W a0 a1 a2 a3). rewrite W_hi by assumption.
  rewrite (proj1 (proj2 (W_u8 b0 b1 b2 b3 ltac:(assumption) ltac:(assumption) ltac:(assumption) ltac:(assumption)))).
  rewrite (proj1 (proj2 (proj2 (W_u8 c0 c1 c2 c3 ltac:(assumption) ltac:(assumption) ltac:(assumption) ltac:(assumption))))).
  rewrite (proj2 (proj2 (proj2 (W_u8 d0 d1 d2 d3 ltac:(assumption) ltac:(assumption) ltac:(assumption) ltac:(assumption))))).
  rewrite H by assumption. rewrite (H b1), (H c2), (H d3) by assumption.
  apply shl_lor; auto.
Qed.

(** * Rounds *)
Lemma cols16 : forall (m : list Z -> list Z) a0 a1 a2 a3 b0 b1 b2 b3 c0 c1 c2 c3 d0 d1 d2 d3,
  concat (map m (columns [a0; a1; a2; a3; b0; b1; b2; b3; c0; c1; c2; c3; d0; d1; d2; d3])) =
  m [a0; a1; a2; a3] ++ m [b0; b1; b2; b3] ++ m [c0; c1; c2; c3] ++ m [d0; d1; d2; d3].
Proof. intros. cbn -[app]. rewrite app_nil_r. reflexivity. Qed.

Lemma be32_16 : forall a0 a1 a2 a3 b0 b1 b2 b3 c0 c1 c2 c3 d0 d1 d2 d3,
  qw [a0; a1; a2; a3; b0; b1; b2; b3; c0; c1; c2; c3; d0; d1; d2; d3] =
  (be_dec [a0; a1; a2; a3], be_dec [b0; b1; b2; b3], be_dec [c0; c1; c2; c3], be_dec [d0; d1; d2; d3]).
Proof. reflexivity. Qed.

Definition enc_step (k s : quad) : quad :=
  let '(k0, k1, k2, k3) := k in let '(s0, s1, s2, s3) := s in
  (tmix te0 te1 te2 te3 k0 s0 s1 s2 s3, tmix te0 te1 te2 te3 k1 s1 s2 s3 s0,
   tmix te0 te1 te2 te3 k2 s2 s3 s0 s1, tmix te0 te1 te2 te3 k3 s3 s0 s1 s2).
Definition dec_step (k s : quad) : quad :=
  let '(k0, k1, k2, k3) := k in let '(s0, s1, s2, s3) := s in
  (tmix td0 td1 td2 td3 k0 s0 s3 s2 s1, tmix td0 td1 td2 td3 k1 s1 s0 s3 s2,
   tmix td0 td1 td2 td3 k2 s2 s1 s0 s3, tmix td0 td1 td2 td3 k3 s3 s2 s1 s0).

Lemma enc_step_ok : forall k s, block_ok k -> block_ok s ->
  enc_step (qw k) (qw s) = qw (xor_list (MixColumns (ShiftRows (SubBytes s))) k).
Proof.
  intros k s [Bk Lk] [Bs Ls].
  destruct (list16 _ Lk) as (?&?&?&?&?&?&?&?&?&?&?&?&?&?&?&?&->).
  destruct (list16 _ Ls) as (?&?&?&?&?&?&?&?&?&?&?&?&?&?&?&?&->).
  inv_bytes. rewrite !be32_16. unfold enc_step.
  rewrite !tmix_enc by mkbytes.
  unfold SubBytes, ShiftRows, MixColumns. cbn [map seq Nat.modulo Nat.divmod Nat.div fst snd Nat.sub Nat.add Nat.mul nth].
  rewrite cols16. cbn [mixcol app xor_list]. rewrite be32_16. reflexivity.
Qed.
Lemma dec_step_ok : forall k s, block_ok k -> block_ok s ->
  dec_step (qw k) (qw s) = qw (xor_list (InvMixColumns (InvSubBytes (InvShiftRows s))) k).
Proof.
  intros k s [Bk Lk] [Bs Ls].
  destruct (list16 _ Lk) as (?&?&?&?&?&?&?&?&?&?&?&?&?&?&?&?&->).
  destruct (list16 _ Ls) as (?&?&?&?&?&?&?&?&?&?&?&?&?&?&?&?&->).
  inv_bytes. rewrite !be32_16. unfold dec_step.
  rewrite !tmix_dec by mkbytes.
  unfold InvSubBytes, InvShiftRows, InvMixColumns. cbn [map seq Nat.modulo Nat.divmod Nat.div fst snd Nat.sub Nat.add Nat.mul nth].
  rewrite cols16. cbn [mixcol app xor_list]. rewrite be32_16. reflexivity.
Qed.

Lemma MixColumns_ok : forall s, block_ok s -> block_ok (MixColumns s).
Proof.
  intros s [Bs Ls]. destruct (list16 _ Ls) as (?&?&?&?&?&?&?&?&?&?&?&?&?&?&?&?&->).
  inv_bytes. unfold MixColumns. rewrite cols16. cbn [mixcol app nth]. split; [|reflexivity].
  unfold bytes. repeat (apply Forall_cons; [bytesolve|]). apply Forall_nil.
Qed.
Lemma InvMixColumns_ok : forall s, block_ok s -> block_ok (InvMixColumns s).
Proof.
  intros s [Bs Ls]. destruct (list16 _ Ls) as (?&?&?&?&?&?&?&?&?&?&?&?&?&?&?&?&->).
  inv_bytes. unfold InvMixColumns. rewrite cols16. cbn [mixcol app nth]. split; [|reflexivity].
  unfold bytes. repeat (apply Forall_cons; [bytesolve|]). apply Forall_nil.
Qed.
Lemma SubBytes_ok : forall s, block_ok s -> block_ok (SubBytes s).
Proof.
  intros s [Bs Ls]. unfold SubBytes. split; [|rewrite map_length; auto].
  unfold bytes. apply Forall_map. eapply Forall_impl; [|exact Bs]. apply S0_byte.
Qed.
Lemma InvSubBytes_ok : forall s, block_ok s -> block_ok (InvSubBytes s).
Proof.
  intros s [Bs Ls]. unfold InvSubBytes. split; [|rewrite map_length; auto].
  unfold bytes. apply Forall_map. eapply Forall_impl; [|exact Bs]. apply S1_byte.
Qed.
Lemma ShiftRows_ok : forall s, block_ok s -> block_ok (ShiftRows s).
Proof.
  intros s [Bs Ls]. destruct (list16 _ Ls) as (?&?&?&?&?&?&?&?&?&?&?&?&?&?&?&?&->).
  inv_bytes. split; [|reflexivity]. cbn. mkbytes.
Qed.
Lemma InvShiftRows_ok : forall s, block_ok s -> block_ok (InvShiftRows s).
Proof.
  intros s [Bs Ls]. destruct (list16 _ Ls) as (?&?&?&?&?&?&?&?&?&?&?&?&?&?&?&?&->).
  inv_bytes. split; [|reflexivity]. cbn. mkbytes.
Qed.
Lemma xor_block_ok : forall s k, block_ok s -> block_ok k -> block_ok (xor_list s k).
Proof.
  intros s k [Bs Ls] [Bk Lk]. split; [apply bytes_xor; auto|]. rewrite xor_list_length. lia.
Qed.

Definition wok (w : list (list Z)) : Prop := Forall (fun c => bytes c /\ length c = 4%nat) w.

Lemma round_key_ok : forall w r, wok w -> (4 * r + 4 <= length w)%nat ->
  block_ok (round_key w r) /\
  (xk_at (map be_dec w) (4 * r + 0), xk_at (map be_dec w) (4 * r + 1),
   xk_at (map be_dec w) (4 * r + 2), xk_at (map be_dec w) (4 * r + 3)) = qw (round_key w r).
Proof.
  intros w r Hw L. unfold round_key, xk_at.
  assert (E : forall j, (j < 4)%nat -> nth (4 * r + j) (map be_dec w) 0 = be_dec (nth j (firstn 4 (skipn (4 * r) w)) [])).
  { intros j Hj. change 0 with (be_dec []). rewrite map_nth, nth_firstn_lt, nth_skipn' by auto. reflexivity. }
  rewrite !E by lia.
  assert (F : wok (firstn 4 (skipn (4 * r) w))) by (apply Forall_firstn, Forall_skipn; auto).
  assert (G : length (firstn 4 (skipn (4 * r) w)) = 4%nat) by (rewrite firstn_length, skipn_length; lia).
  destruct (firstn 4 (skipn (4 * r) w)) as [|k0 [|k1 [|k2 [|k3 [|]]]]]; try discriminate.
  clear E G L Hw. unfold wok in F.
  repeat match goal with H : Forall _ (_ :: _) |- _ => inversion H; clear H; subst end.
  repeat match goal with H : _ /\ _ |- _ => destruct H end.
  repeat match goal with H : length ?k = 4%nat |- _ => destruct (list4 _ H) as (?&?&?&?&->); clear H end.
  inv_bytes. split. { split; [|reflexivity]. cbn [concat app]. mkbytes. }
  reflexivity.
Qed.

Lemma enc_rounds_S : forall n xk k s t, enc_rounds (S n) xk k s t =
  let u := enc_step (xk_at xk (k + 0), xk_at xk (k + 1), xk_at xk (k + 2), xk_at xk (k + 3)) s in
  enc_rounds n xk (k + 4) u u.
Proof. intros n xk k [[[s0 s1] s2] s3] t. reflexivity. Qed.
Lemma dec_rounds_S : forall n xk k s t, dec_rounds (S n) xk k s t =
  let u := dec_step (xk_at xk (k + 0), xk_at xk (k + 1), xk_at xk (k + 2), xk_at xk (k + 3)) s in
  dec_rounds n xk (k + 4) u u.
Proof. intros n xk k [[[s0 s1] s2] s3] t. reflexivity. Qed.

Definition eround (w : list (list Z)) s r := AddRoundKey w r (MixColumns (ShiftRows (SubBytes s))).

Lemma AddRoundKey_ok : forall w r s, wok w -> (4 * r + 4 <= length w)%nat -> block_ok s -> block_ok (AddRoundKey w r s).
Proof. intros. apply xor_block_ok; auto. apply round_key_ok; auto. Qed.

Lemma enc_rounds_ok : forall n w r s, wok w -> block_ok s -> (4 * (r + n) <= length w)%nat ->
  enc_rounds n (map be_dec w) (4 * r) (qw s) (qw s) =
    (qw (fold_left (eround w) (seq r n) s), 4 * (r + n))%nat /\
  block_ok (fold_left (eround w) (seq r n) s).
Proof.
  induction n; intros w r s Hw Hs L.
  - cbn [enc_rounds seq fold_left]. split; [f_equal; lia | auto].
  - rewrite enc_rounds_S. cbv zeta. cbn [seq fold_left].
    destruct (round_key_ok w r Hw) as [B E]; [lia|]. rewrite E, enc_step_ok by auto.
    fold (AddRoundKey w r (MixColumns (ShiftRows (SubBytes s)))).
    fold (eround w s r).
    replace (4 * r + 4)%nat with (4 * S r)%nat by lia.
    destruct (IHn w (S r) (eround w s r) Hw) as [I1 I2].
    + apply AddRoundKey_ok; auto; [lia|]. apply MixColumns_ok, ShiftRows_ok, SubBytes_ok, Hs.
    + lia.
    + rewrite I1. split; [f_equal; lia | auto].
Qed.

(* the final round *)
Definition last_step (sb : list Z) (k s : quad) : list Z :=
  let '(k0, k1, k2, k3) := k in let '(s0, s1, s2, s3) := s in
  be_enc 4 (Z.lxor (smix sb s0 s1 s2 s3) k0) ++ be_enc 4 (Z.lxor (smix sb s1 s2 s3 s0) k1) ++
  be_enc 4 (Z.lxor (smix sb s2 s3 s0 s1) k2) ++ be_enc 4 (Z.lxor (smix sb s3 s0 s1 s2) k3).
Definition last_stepd (sb : list Z) (k s : quad) : list Z :=
  let '(k0, k1, k2, k3) := k in let '(s0, s1, s2, s3) := s in
  be_enc 4 (Z.lxor (smix sb s0 s3 s2 s1) k0) ++ be_enc 4 (Z.lxor (smix sb s1 s0 s3 s2) k1) ++
  be_enc 4 (Z.lxor (smix sb s2 s1 s0 s3) k2) ++ be_enc 4 (Z.lxor (smix sb s3 s2 s1 s0) k3).

Lemma last_step_ok : forall k s, block_ok k -> block_ok s ->
  last_step sbox0 (qw k) (qw s) = xor_list (ShiftRows (SubBytes s)) k.
Proof.
  intros k s [Bk Lk] [Bs Ls].
  destruct (list16 _ Lk) as (?&?&?&?&?&?&?&?&?&?&?&?&?&?&?&?&->).
  destruct (list16 _ Ls) as (?&?&?&?&?&?&?&?&?&?&?&?&?&?&?&?&->).
  inv_bytes. rewrite !be32_16. unfold last_step.
  rewrite !(smix_ok _ _ _ _ _ _ _ _ _ _ _ _ _ _ _ _ _ _ S0_ok S0_byte) by mkbytes.
  repeat match goal with
         | |- context [be_enc 4 (Z.lxor (be_dec [?a; ?b; ?c; ?d]) (be_dec [?e; ?f; ?g; ?h]))] =>
             change (be_enc 4 (Z.lxor (be_dec [a; b; c; d]) (be_dec [e; f; g; h])))
               with (be_enc 4 (Z.lxor (W a b c d) (W e f g h)));
             rewrite (W_lxor a b c d e f g h) by bytesolve;
             rewrite W_enc by bytesolve
         end.
  reflexivity.
Qed.
Lemma last_stepd_ok : forall k s, block_ok k -> block_ok s ->
  last_stepd sbox1 (qw k) (qw s) = xor_list (InvSubBytes (InvShiftRows s)) k.
Proof.
  intros k s [Bk Lk] [Bs Ls].
  destruct (list16 _ Lk) as (?&?&?&?&?&?&?&?&?&?&?&?&?&?&?&?&->).
  destruct (list16 _ Ls) as (?&?&?&?&?&?&?&?&?&?&?&?&?&?&?&?&->).
  inv_bytes. rewrite !be32_16. unfold last_stepd.
  rewrite !(smix_ok _ _ _ _ _ _ _ _ _ _ _ _ _ _ _ _ _ _ S1_ok S1_byte) by mkbytes.
  repeat match goal with
         | |- context [be_enc 4 (Z.lxor (be_dec [?a; ?b; ?c; ?d]) (be_dec [?e; ?f; ?g; ?h]))] =>
             change (be_enc 4 (Z.lxor (be_dec [a; b; c; d]) (be_dec [e; f; g; h])))
               with (be_enc 4 (Z.lxor (W a b c d) (W e f g h)));
             rewrite (W_lxor a b c d e f g h) by bytesolve;
             rewrite W_enc by bytesolve
         end.
  reflexivity.
Qed.

Definition first_step (k s : quad) : quad :=
  let '(k0, k1, k2, k3) := k in let '(s0, s1, s2, s3) := s in
  (Z.lxor s0 k0, Z.lxor s1 k1, Z.lxor s2 k2, Z.lxor s3 k3).
Lemma first_step_ok : forall k s, block_ok k -> block_ok s -> first_step (qw k) (qw s) = qw (xor_list s k).
Proof.
  intros k s [Bk Lk] [Bs Ls].
  destruct (list16 _ Lk) as (?&?&?&?&?&?&?&?&?&?&?&?&?&?&?&?&->).
  destruct (list16 _ Ls) as (?&?&?&?&?&?&?&?&?&?&?&?&?&?&?&?&->).
  inv_bytes. cbn [xor_list]. rewrite !be32_16. unfold first_step.
  repeat f_equal; match goal with
         | |- Z.lxor (be_dec [?a; ?b; ?c; ?d]) (be_dec [?e; ?f; ?g; ?h]) = _ => apply (W_lxor a b c d e f g h); assumption
         end.
Qed.

Lemma encryptBlockGo_unfold : forall xk src, encryptBlockGo xk src =
  let '(t, k) := enc_rounds (length xk / 4 - 2) xk 4
     (first_step (xk_at xk 0, xk_at xk 1, xk_at xk 2, xk_at xk 3) (qw src)) (0, 0, 0, 0) in
  last_step sbox0 (xk_at xk (k + 0), xk_at xk (k + 1), xk_at xk (k + 2), xk_at xk (k + 3)) t.
Proof.
  intros. unfold encryptBlockGo. cbv zeta. unfold first_step, qw.
  match goal with |- context [enc_rounds ?a ?b ?c ?d ?e] => destruct (enc_rounds a b c d e) as [[[[t0 t1] t2] t3] k] end.
  reflexivity.
Qed.
Lemma decryptBlockGo_unfold : forall xk src, decryptBlockGo xk src =
  let '(t, k) := dec_rounds (length xk / 4 - 2) xk 4
     (first_step (xk_at xk 0, xk_at xk 1, xk_at xk 2, xk_at xk 3) (qw src)) (0, 0, 0, 0) in
  last_stepd sbox1 (xk_at xk (k + 0), xk_at xk (k + 1), xk_at xk (k + 2), xk_at xk (k + 3)) t.
Proof.
  intros. unfold decryptBlockGo. cbv zeta. unfold first_step, qw.
  match goal with |- context [dec_rounds ?a ?b ?c ?d ?e] => destruct (dec_rounds a b c d e) as [[[[t0 t1] t2] t3] k] end.
  reflexivity.
Qed.
Lemma enc_rounds_t : forall n xk k s t t', enc_rounds (S n) xk k s t = enc_rounds (S n) xk k s t'.
Proof. intros. rewrite !enc_rounds_S. reflexivity. Qed.
Lemma dec_rounds_t : forall n xk k s t t', dec_rounds (S n) xk k s t = dec_rounds (S n) xk k s t'.
Proof. intros. rewrite !dec_rounds_S. reflexivity. Qed.

(* encryptBlockGo is the FIPS-197 Cipher for the schedule it is given *)
Lemma encryptBlockGo_ok : forall Nr w src, wok w -> length w = (4 * (Nr + 1))%nat -> (2 <= Nr)%nat -> block_ok src ->
  encryptBlockGo (map be_dec w) src = Cipher Nr w src /\ block_ok (Cipher Nr w src).
Proof.
  intros Nr w src Hw L HN Hs. rewrite encryptBlockGo_unfold, map_length, L.
  replace (4 * (Nr + 1) / 4 - 2)%nat with (Nr - 1)%nat
    by (rewrite Nat.mul_comm, Nat.div_mul by lia; lia).
  destruct (round_key_ok w 0 Hw) as [B0 E0]; [lia|].
  change (4 * 0 + 0)%nat with 0%nat in E0. change (4 * 0 + 1)%nat with 1%nat in E0.
  change (4 * 0 + 2)%nat with 2%nat in E0. change (4 * 0 + 3)%nat with 3%nat in E0.
  rewrite E0, first_step_ok by auto. fold (AddRoundKey w 0 src).
  assert (BA : block_ok (AddRoundKey w 0 src)) by (apply AddRoundKey_ok; auto; lia).
  destruct (enc_rounds_ok (Nr - 1) w 1 _ Hw BA) as [E1 B1]; [lia|].
  destruct (Nr - 1)%nat as [|m] eqn:Em; [lia|].
  rewrite (enc_rounds_t m _ _ _ _ (qw (AddRoundKey w 0 src))). change 4%nat with (4 * 1)%nat at 1.
  rewrite E1. replace (1 + S m)%nat with Nr by lia.
  destruct (round_key_ok w Nr Hw) as [B2 E2]; [lia|].
  rewrite E2, last_step_ok by auto. unfold Cipher. rewrite Em. split; [reflexivity|].
  apply AddRoundKey_ok; auto; [lia|]. apply ShiftRows_ok, SubBytes_ok, B1.
Qed.
