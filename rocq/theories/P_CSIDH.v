(* C31-C35, C38: CSIDH keys, sampling, validation, and the bookkeeping of the group action. *)
From Coq Require Import ZArith List Lia Bool.
From Verif Require Import Lib MP Instr CSIDH_Field CSIDH_FieldProofs CSIDH_FieldProofs2 CSIDH_Curve CSIDH_Model CSIDH_ApiProofs CSIDH_GaProofs P_CSIDH_Field.
Import ListNotations.
Open Scope Z_scope.

(* ---------- C31 ---------- *)
(* a byte read as a signed number in two's complement lies in [-5,5] *)
Definition in_range (b : Z) : bool := (b <=? 5) || (251 <=? b).
Definition signed (b : Z) : Z := if b <? 128 then b else b - 256.
(* exponent i of a 37-byte key as groupAction reads it: signed high nibble of byte i/2 for even i,
   signed low nibble for odd i *)
Definition exponent (e : list Z) (i : nat) : Z :=
  let b := nth (i / 2) e 0 in let n := if Nat.even i then b / 16 else b mod 16 in
  if n <? 8 then n else n - 16.
(* the accepted bytes among the first n of the random source *)
Definition sampled (n : nat) (rng : list Z) : list Z := filter in_range (firstn n rng).

Lemma accept_in_range : forall b, is_byte b -> accept b = in_range b.
Proof.
  intros b Hb. apply Bool.eqb_prop. revert b Hb. apply forall_byte. vm_compute. reflexivity.
Qed.
Lemma filter_accept : forall l, bytes l -> filter accept l = filter in_range l.
Proof.
  intros l H. induction H; [reflexivity|]. cbn [filter]. rewrite accept_in_range by assumption. rewrite IHForall. reflexivity.
Qed.
Lemma expOf_exponent : forall e i, bytes e -> expOf e i = exponent e i.
Proof. intros e i He. rewrite expOf_ok by exact He. reflexivity. Qed.

Lemma signed_nibble : forall b, is_byte b -> in_range b = true ->
  (let n := b mod 16 in if n <? 8 then n else n - 16) = signed b /\ -5 <= signed b <= 5.
Proof.
  intros b Hb Hr.
  assert (H : forall b, is_byte b -> implb (in_range b) (((let n := b mod 16 in if n <? 8 then n else n - 16) =? signed b) && (-5 <=? signed b) && (signed b <=? 5)) = true).
  { apply forall_byte. vm_compute. reflexivity. }
  specialize (H b Hb). rewrite Hr in H. cbn [implb] in H. apply andb_prop in H. destruct H as [H H3]. apply andb_prop in H. destruct H as [H1 H2].
  split; [apply Z.eqb_eq; exact H1 | lia].
Qed.

Lemma sampled_mono : forall n m rng, (n <= m)%nat -> exists t, sampled m rng = sampled n rng ++ t.
Proof.
  intros n m rng H. exists (filter in_range (slice rng n (m - n))). unfold sampled.
  replace m with (n + (m - n))%nat at 1 by lia. rewrite firstn_S_slice, filter_app. reflexivity.
Qed.

(* Key generation: with s_0, s_1, ... the in-range bytes of the source, the key's exponents are
   s_1, s_0, s_3, s_2, ..., s_73, s_72; whole 64-byte blocks are read, no more of them than needed;
   an error is returned exactly when the source is too short. *)
Theorem C31_keygen : forall rng err e rest, bytes rng -> generatePrivateKey rng = (err, e, rest) ->
  (err = true <-> (length (sampled (64 * (length rng / 64)) rng) < 74)%nat) /\
  (err = false -> exists k,
      (64 * k <= length rng)%nat /\ rest = skipn (64 * k) rng /\
      (74 <= length (sampled (64 * k) rng))%nat /\ (length (sampled (64 * (k - 1)) rng) < 74)%nat /\
      length e = 37%nat /\ bytes e /\
      forall i, (i < 74)%nat ->
        exponent e i = signed (nth (Nat.lxor i 1) (sampled (64 * k) rng) 0) /\ -5 <= exponent e i <= 5).
Proof.
  intros rng err e rest Hb H. unfold generatePrivateKey in H. change PrivateKeySize with 37%nat in H.
  pose proof (genLoop_ok (S (S (length rng))) [] (repeat 0 37) rng Hb packed_nil ltac:(cbn [length]; lia) ltac:(lia)) as G.
  change (length (@nil Z)) with 0%nat in G. rewrite H in G.
  assert (FA : forall n, filter accept (firstn n rng) = sampled n rng).
  { intros n. apply filter_accept. apply Forall_firstn. exact Hb. }
  pose proof (Nat.div_mod (length rng) 64 ltac:(lia)) as DM. pose proof (Nat.mod_upper_bound (length rng) 64 ltac:(lia)).
  destruct err.
  - split; [|discriminate]. split; [|reflexivity]. intros _. specialize (G (length rng / 64)%nat).
    rewrite FA in G. apply G. lia.
  - destruct G as (k & K0 & K1 & K2 & K3 & K4 & K5). cbn [app] in *. rewrite FA in K3, K4, K5. split.
    + split; [discriminate|]. intros L. exfalso.
      destruct (sampled_mono (64 * k) (64 * (length rng / 64)) rng) as [t E]; [lia|]. rewrite E, app_length in L. lia.
    + intros _. exists k. split; [exact K1|]. split; [exact K2|]. split; [exact K3|]. split; [exact K4|].
      destruct K5 as (B5 & L5 & N5). split; [exact L5|]. split; [exact B5|]. intros i Hi.
      set (s := sampled (64 * k) rng) in *.
      assert (Hx : (Nat.lxor i 1 < 74)%nat /\ (Nat.lxor i 1 / 2 = i / 2)%nat /\ Nat.even (Nat.lxor i 1) = negb (Nat.even i)).
      { assert (T : forall i, (i < 74)%nat -> ((Nat.lxor i 1 <? 74) && (Nat.lxor i 1 / 2 =? i / 2) && Bool.eqb (Nat.even (Nat.lxor i 1)) (negb (Nat.even i)))%nat = true).
        { assert (F : forallb (fun i => (Nat.lxor i 1 <? 74) && (Nat.lxor i 1 / 2 =? i / 2) && Bool.eqb (Nat.even (Nat.lxor i 1)) (negb (Nat.even i)))%nat (seq 0 74) = true) by (vm_compute; reflexivity).
          intros j Hj. rewrite forallb_forall in F. apply F. apply in_seq. lia. }
        specialize (T i Hi). apply andb_prop in T. destruct T as [T T3]. apply andb_prop in T. destruct T as [T1 T2].
        apply Nat.ltb_lt in T1. apply Nat.eqb_eq in T2. apply Bool.eqb_prop in T3. tauto. }
      destruct Hx as (X1 & X2 & X3).
      specialize (N5 (Nat.lxor i 1) X1). unfold nib in N5. rewrite X2, X3, nth_firstn_lt in N5 by exact X1.
      assert (Hin : In (nth (Nat.lxor i 1) s 0) s) by (apply nth_In; lia).
      assert (R : is_byte (nth (Nat.lxor i 1) s 0) /\ in_range (nth (Nat.lxor i 1) s 0) = true).
      { unfold s, sampled in Hin. apply filter_In in Hin. destruct Hin as [I1 I2]. split; [|exact I2].
        pose proof (Forall_firstn _ _ (64 * k) rng Hb) as F. rewrite Forall_forall in F. apply F. exact I1. }
      destruct R as [R1 R2]. destruct (signed_nibble _ R1 R2) as [S1 S2]. rewrite <- N5 in S1.
      assert (EE : exponent e i = signed (nth (Nat.lxor i 1) s 0)).
      { unfold exponent. rewrite <- S1. destruct (Nat.even i); reflexivity. }
      rewrite EE. split; [reflexivity | exact S2].
Qed.
Print Assumptions C31_keygen.

Lemma filter_length_le : forall (f : Z -> bool) l, (length (filter f l) <= length l)%nat.
Proof. intros f l. induction l as [|x l IH]; [apply le_n|]. cbn [filter length]. destruct (f x); cbn [length]; lia. Qed.

(* every exponent vector with entries in [-5,5] is the key of some random stream *)
Theorem C31_reachable : forall v : nat -> Z, (forall i, (i < 74)%nat -> -5 <= v i <= 5) ->
  exists rng, bytes rng /\ length rng = 128%nat /\
    match generatePrivateKey rng with
    | (err, e, rest) => err = false /\ rest = [] /\ forall i, (i < 74)%nat -> exponent e i = v i
    end.
Proof.
  intros v Hv.
  set (s := map (fun i => v (Nat.lxor i 1) mod 256) (seq 0 74)). set (rng := s ++ repeat 128 54).
  assert (X : forall i, (i < 74)%nat -> (Nat.lxor i 1 < 74)%nat /\ Nat.lxor (Nat.lxor i 1) 1 = i).
  { intros i Hi. split.
    - assert (F : forallb (fun i => Nat.lxor i 1 <? 74)%nat (seq 0 74) = true) by (vm_compute; reflexivity).
      rewrite forallb_forall in F. apply Nat.ltb_lt. apply F. apply in_seq. lia.
    - rewrite Nat.lxor_assoc, Nat.lxor_nilpotent. apply Nat.lxor_0_r. }
  assert (Hs : Forall (fun b => is_byte b /\ in_range b = true) s).
  { apply Forall_forall. intros b Hb. apply in_map_iff in Hb. destruct Hb as (i & <- & Hi). apply in_seq in Hi.
    destruct (X i ltac:(lia)) as [X1 _]. specialize (Hv _ X1). set (w := v (Nat.lxor i 1)) in *.
    assert (E : w mod 256 = if w <? 0 then w + 256 else w).
    { destruct (Z.ltb_spec w 0); [|apply Z.mod_small; lia]. symmetry. apply Z.mod_unique_pos with (q := -1); lia. }
    rewrite E. unfold is_byte, in_range. destruct (Z.ltb_spec w 0); (split; [lia|]); apply orb_true_iff; [right|left]; apply Z.leb_le; lia. }
  assert (Ls : length s = 74%nat) by (unfold s; rewrite map_length, seq_length; reflexivity).
  assert (Lr : length rng = 128%nat) by (unfold rng; rewrite app_length, repeat_length, Ls; reflexivity).
  assert (Br : bytes rng).
  { apply bytes_app; [|apply Forall_repeat; unfold is_byte; lia]. eapply Forall_impl; [|exact Hs]. intros a Ha. apply Ha. }
  assert (Fs : filter in_range s = s).
  { clear - Hs. induction Hs as [|x l Hx Hl IH]; [reflexivity|]. cbn [filter]. destruct Hx as [_ ->]. rewrite IH. reflexivity. }
  assert (Sa : forall n, (74 <= n)%nat -> sampled n rng = s).
  { intros n Hn. unfold sampled, rng. rewrite firstn_app, firstn_all2 by lia. rewrite filter_app, Fs.
    assert (Z0 : forall m, filter in_range (firstn m (repeat 128 54)) = []).
    { intros m. assert (Q : Forall (fun b => in_range b = false) (firstn m (repeat 128 54))) by (apply Forall_firstn, Forall_repeat; reflexivity).
      induction Q as [|x l Hx Hl IH]; [reflexivity|]. cbn [filter]. rewrite Hx. exact IH. }
    rewrite Z0. apply app_nil_r. }
  exists rng. split; [exact Br|]. split; [exact Lr|].
  destruct (generatePrivateKey rng) as [[err e] rest] eqn:G.
  destruct (C31_keygen rng err e rest Br G) as [H1 H2].
  rewrite Lr in H1. change (64 * (128 / 64))%nat with 128%nat in H1. rewrite Sa, Ls in H1 by lia.
  assert (err = false) by (destruct err; [exfalso; assert (74 < 74)%nat by (apply H1; reflexivity); lia | reflexivity]). subst err.
  destruct (H2 eq_refl) as (k & K1 & K2 & K3 & K4 & K5 & K6 & K7).
  assert (k = 2)%nat.
  { destruct k as [|[|[|k]]]; [|exfalso|reflexivity|exfalso].
    - exfalso. cbn in K3. lia.
    - unfold sampled in K3. pose proof (filter_length_le in_range (firstn (64 * 1) rng)). rewrite firstn_length in H. lia.
    - lia. }
  subst k. split; [reflexivity|]. split.
  - rewrite K2. apply skipn_all2. lia.
  - intros i Hi. destruct (K7 i Hi) as [E _]. rewrite E. rewrite Sa by lia. destruct (X i Hi) as [X1 X2].
    unfold s. rewrite nth_map_seq by exact X1. rewrite X2. specialize (Hv i Hi). unfold signed.
    assert (E' : v i mod 256 = if v i <? 0 then v i + 256 else v i).
    { destruct (Z.ltb_spec (v i) 0); [|apply Z.mod_small; lia]. symmetry. apply Z.mod_unique_pos with (q := -1); lia. }
    rewrite E'. destruct (Z.ltb_spec (v i) 0).
    + destruct (Z.ltb_spec (v i + 256) 128); lia.
    + destruct (Z.ltb_spec (v i) 128); lia.
Qed.
Print Assumptions C31_reachable.

(* rejection of out-of-range bytes: 0x85 and 200 are skipped, 251 (-5) and 5 are used *)
Example ex_keygen : let rng := [133; 251; 200; 5] ++ repeat 1 124 in
  match generatePrivateKey rng with
  | (err, e, rest) => err = false /\ exponent e 0 = 5 /\ exponent e 1 = -5 /\ exponent e 2 = 1 /\ rest = []
  end.
Proof. vm_compute. repeat split. Qed.

(* ---------- C32 ---------- *)
Theorem C32_private_codec : forall e key out, length e = 37%nat ->
  (* exactly 37 bytes: the key becomes those bytes and exports them again *)
  (length key = 37%nat -> prvImport e key = Ret (true, key) /\
      (length out = 37%nat -> prvExport key out = (true, key))) /\
  (* shorter: refused, no effect;  longer: run-time panic *)
  ((length key < 37)%nat -> prvImport e key = Ret (false, e)) /\
  ((37 < length key)%nat -> prvImport e key = Panic) /\
  (* Export: needs 37 bytes of room, writes the first 37 *)
  ((length out < 37)%nat -> prvExport e out = (false, out)) /\
  ((37 <= length out)%nat -> prvExport e out = (true, e ++ skipn 37 out)).
Proof.
  intros e key out Le. unfold prvImport, prvExport. rewrite Le. split; [|split; [|split; [|split]]].
  - intros Lk. rewrite Lk. cbn [Nat.ltb Nat.leb]. split; [reflexivity|]. intros Lo. rewrite Lo. cbn [Nat.ltb Nat.leb].
    rewrite skipn_all2 by lia. rewrite app_nil_r. reflexivity.
  - intros L. destruct (Nat.ltb_spec (length key) 37); [reflexivity|lia].
  - intros L. destruct (Nat.ltb_spec (length key) 37); [lia|]. destruct (Nat.ltb_spec 37 (length key)); [reflexivity|lia].
  - intros L. destruct (Nat.ltb_spec (length out) 37); [reflexivity|lia].
  - intros L. destruct (Nat.ltb_spec (length out) 37); [lia|reflexivity].
Qed.
Print Assumptions C32_private_codec.

(* every nibble, hence every exponent in [-8,7], is accepted by Import: keys outside the scheme *)
Theorem C32_no_range_check : forall e0, length e0 = 37%nat ->
  exists key, bytes key /\ prvImport e0 key = Ret (true, key) /\ forall i, (i < 74)%nat -> exponent key i = -8.
Proof.
  intros e0 L. exists (repeat 136 37). split; [apply Forall_repeat; unfold is_byte; lia|]. split.
  - apply (C32_private_codec e0 (repeat 136 37) [] L). apply repeat_length.
  - intros i Hi. assert (F : forallb (fun i => exponent (repeat 136 37) i =? -8) (seq 0 74) = true) by (vm_compute; reflexivity).
    rewrite forallb_forall in F. apply Z.eqb_eq, F, in_seq. lia.
Qed.
Print Assumptions C32_no_range_check.

Example ex_prv : prvImport (repeat 0 37) (repeat 7 37) = Ret (true, repeat 7 37) /\
  prvImport (repeat 0 37) (repeat 7 36) = Ret (false, repeat 0 37) /\ prvImport (repeat 0 37) (repeat 7 38) = Panic.
Proof. repeat split. Qed.

(* ---------- C33 ---------- *)
(* The imported value is the bitwise OR of the old value and the little-endian bytes. *)
Theorem C33_import_or : forall a key, fp_ok a -> bytes key ->
  (length key <> 64%nat -> pubImport a key = (false, a)) /\
  (length key = 64%nat -> exists a', pubImport a key = (true, a') /\ fp_ok a' /\ val a' = Z.lor (val a) (le_dec key)).
Proof.
  intros a key Ha Hk. unfold pubImport. change (numWords * limbByteSize)%nat with 64%nat. split; intros L.
  - destruct (Nat.eqb_spec (length key) 64); [contradiction|reflexivity].
  - rewrite L. cbn [Nat.eqb negb]. exists (orBytes a key). split; [reflexivity|]. apply orBytes_ok; assumption.
Qed.
Print Assumptions C33_import_or.

Theorem C33_export : forall a out, fp_ok a ->
  (length out <> 64%nat -> pubExport a out = (false, out)) /\
  (length out = 64%nat -> pubExport a out = (true, le_enc 64 (val a))).
Proof.
  intros a out Ha. unfold pubExport. change (numWords * limbByteSize)%nat with 64%nat. split; intros L.
  - destruct (Nat.eqb_spec (length out) 64); [contradiction|reflexivity].
  - rewrite L. cbn [Nat.eqb negb]. f_equal. apply export_eq. exact Ha.
Qed.
Print Assumptions C33_export.

(* into a fresh (zero) key: exact round trip in both directions *)
Theorem C33_roundtrip : forall key out, bytes key -> length key = 64%nat -> length out = 64%nat ->
  exists a, pubImport (repeat 0 8) key = (true, a) /\ pubExport a out = (true, key).
Proof.
  intros key out Hb Hl Lo. destruct (C33_import_or (repeat 0 8) key fp_zero_ok Hb) as [_ I].
  destruct (I Hl) as (a & E1 & E2 & E3). exists a. split; [exact E1|].
  destruct (C33_export a out E2) as [_ X]. rewrite (X Lo). rewrite E3, val_repeat_0, Z.lor_0_l.
  rewrite <- Hl at 1. rewrite le_enc_dec by exact Hb. reflexivity.
Qed.
Print Assumptions C33_roundtrip.
Theorem C33_roundtrip_key : forall a out, fp_ok a -> length out = 64%nat ->
  pubImport (repeat 0 8) (snd (pubExport a out)) = (true, a).
Proof.
  intros a out Ha Lo. destruct (C33_export a out Ha) as [_ X]. rewrite (X Lo). cbn [snd].
  destruct (C33_import_or (repeat 0 8) (le_enc 64 (val a)) fp_zero_ok (le_enc_bytes _ _)) as [_ I].
  destruct (I (le_enc_length _ _)) as (a' & E1 & E2 & E3). rewrite E1. f_equal.
  destruct Ha as [Wa La]. destruct E2 as [W' L']. apply val_inj; [exact W'|exact Wa|congruence|].
  rewrite E3, val_repeat_0, Z.lor_0_l, le_dec_enc. apply Z.mod_small.
  pose proof (val_bound a Wa) as V. rewrite La in V. exact V.
Qed.
Print Assumptions C33_roundtrip_key.

(* Import into a used key is not a replacement *)
Theorem C33_import_used_refuted : exists a key a', fp_ok a /\ bytes key /\ length key = 64%nat /\
  pubImport a key = (true, a') /\ val a' <> le_dec key.
Proof.
  exists (1 :: repeat 0 7), (2 :: repeat 0 63), (3 :: repeat 0 7). split; [|split; [|split; [reflexivity|split]]].
  - split; [|reflexivity]. apply Forall_cons; [unfold is_w64; lia|]. apply Forall_repeat. unfold is_w64. lia.
  - apply Forall_cons; [unfold is_byte; lia|]. apply Forall_repeat. unfold is_byte. lia.
  - vm_compute. reflexivity.
  - vm_compute. discriminate.
Qed.
Print Assumptions C33_import_used_refuted.

(* ---------- C34 ---------- *)
(* candidate number k of the source: its k-th 64-byte block, little endian, bit 511 cleared *)
Definition candidate (rng : list Z) (k : nat) : Z := le_dec (slice rng (64 * k) 64) mod 2 ^ 511.
Theorem C34_randfp : forall rng, bytes rng ->
  match randFp rng with
  | Some (v, rest) => exists k, (64 * (k + 1) <= length rng)%nat /\ rest = skipn (64 * (k + 1)) rng /\
      fp_ok v /\ val v = candidate rng k /\ val v < P /\ forall j, (j < k)%nat -> P <= candidate rng j
  | None => forall j, (64 * (j + 1) <= length rng)%nat -> P <= candidate rng j
  end.
Proof.
  intros rng Hb. pose proof (randFp_loop_ok (S (length rng)) rng Hb ltac:(lia)) as H. unfold randFp.
  destruct (randFp_loop (S (length rng)) rng) as [[v rest]|]; [|exact H].
  destruct H as (k & K1 & K2 & [K3 K3'] & K4 & K5). exists k. tauto.
Qed.
Print Assumptions C34_randfp.
(* every field element is drawn by exactly two 64-byte blocks (the top bit is ignored) *)
Theorem C34_uniform : forall x, 0 <= x < P -> forall b, bytes b -> length b = 64%nat ->
  (exists rest, randFp b = Some (limbs 8 x, rest)) <-> (le_dec b = x \/ le_dec b = x + 2 ^ 511).
Proof.
  intros x Hx b Hb L. pose proof (C34_randfp b Hb) as H. pose proof P_lt as PL.
  assert (C0 : candidate b 0 = le_dec b mod 2 ^ 511).
  { unfold candidate, slice. rewrite Nat.mul_0_r. cbn [skipn]. rewrite firstn_all2 by lia. reflexivity. }
  pose proof (le_dec_bound b Hb) as Bb. rewrite L in Bb. change (256 ^ Z.of_nat 64) with (2 ^ 511 + 2 ^ 511) in Bb.
  assert (VX : val (limbs 8 x) = x).
  { rewrite limbs_val. apply Z.mod_small. change (B ^ Z.of_nat 8) with (2 ^ 512). lia. }
  split.
  - intros [rest E]. rewrite E in H. destruct H as (k & K1 & K2 & K3 & K4 & K5 & K6).
    assert (k = 0)%nat by lia. subst k. rewrite C0, VX in K4.
    destruct (Z.lt_ge_cases (le_dec b) (2 ^ 511)) as [h|h].
    + left. rewrite K4. symmetry. apply Z.mod_small. lia.
    + right. rewrite K4. assert (le_dec b mod 2 ^ 511 = le_dec b - 2 ^ 511); [|lia].
      symmetry. apply Z.mod_unique_pos with (q := 1); lia.
  - intros D. assert (M : le_dec b mod 2 ^ 511 = x).
    { destruct D as [D|D]; rewrite D; [apply Z.mod_small; lia|]. symmetry. apply Z.mod_unique_pos with (q := 1); lia. }
    destruct (randFp b) as [[v rest]|].
    + destruct H as (k & K1 & K2 & K3 & K4 & K5 & K6). assert (k = 0)%nat by lia. subst k.
      exists rest. f_equal. f_equal. destruct K3 as [W3 L3]. apply val_inj; [exact W3|apply limbs_words|rewrite limbs_length; exact L3|].
      rewrite VX, K4, C0. exact M.
    + exfalso. specialize (H 0%nat ltac:(lia)). rewrite C0, M in H. lia.
Qed.
Print Assumptions C34_uniform.
Example ex_randfp : randFp (repeat 255 64 ++ repeat 0 64) = Some (repeat 0 8, []) /\ randFp (repeat 255 64 ++ repeat 0 63) = None.
Proof. vm_compute. repeat split. Qed.

(* ---------- C35 ---------- *)
Theorem C35_reject : forall a rng, fp_ok a ->
  P <= val a \/ val a = (2 * 2 ^ 512) mod P \/ val a = ((-2) * 2 ^ 512) mod P ->
  validate a rng = Ret (false, rng) /\
  forall out e, deriveSecret out a e rng = Ret (false, out, rng).
Proof.
  intros a rng Ha H.
  assert (V : validate a rng = Ret (false, rng)).
  { unfold validate. rewrite (isLess_ok a p Ha p_ok). fold P. destruct C28_constants as (_ & _ & _ & _ & _ & [T1 T2] & [N1 N2] & _).
    destruct (Z.ltb_spec (val a) P) as [h|h]; [|reflexivity]. cbn [negb].
    rewrite (equal_ok a two Ha (proj1 T1)), (equal_ok a twoNeg Ha (proj1 N1)), T2, N2.
    destruct H as [H|[H|H]]; [lia| |]; rewrite H; rewrite Z.eqb_refl; [|rewrite orb_true_r]; reflexivity. }
  split; [exact V|]. intros out e. unfold deriveSecret. rewrite V. reflexivity.
Qed.
Print Assumptions C35_reject.
(* no output unless validation succeeded; the output buffer is untouched otherwise *)
Theorem C35_derive : forall out a e rng,
  match deriveSecret out a e rng with
  | Ret (true, out', rest) => exists r, validate a rng = Ret (true, r) /\
      exists s, groupActionFp a e r = Some (s, rest) /\ out' = snd (pubExport s out)
  | Ret (false, out', rest) => out' = out /\ validate a rng = Ret (false, rest)
  | Panic => validate a rng = Panic \/ exists r, validate a rng = Ret (true, r) /\ groupActionFp a e r = None
  end.
Proof.
  intros out a e rng. unfold deriveSecret. destruct (validate a rng) as [[ok r]|]; [|left; reflexivity].
  destruct ok.
  - destruct (groupActionFp a e r) as [[s r']|] eqn:G.
    + exists r. split; [reflexivity|]. exists s. split; [exact G|reflexivity].
    + right. exists r. split; [reflexivity|exact G].
  - split; reflexivity.
Qed.
Print Assumptions C35_derive.
Example ex_reject : validate p [] = Ret (false, []) /\ validate two [] = Ret (false, []) /\ validate twoNeg [] = Ret (false, []).
Proof.
  destruct C28_constants as (_ & _ & _ & _ & _ & [T1 T2] & [N1 N2] & _).
  split; [|split].
  - apply C35_reject; [exact p_ok | left; unfold P; lia].
  - apply C35_reject; [exact (proj1 T1) | right; left; exact T2].
  - apply C35_reject; [exact (proj1 N1) | right; right; exact N2].
Qed.

(* ---------- C38 ---------- *)
(* number of isogenies of index i logged on side s (false: curve, true: twist) *)
Definition used (s : bool) (i : nat) (log : list (bool * nat)) : Z :=
  Z.of_nat (length (filter (fun x => andb (Bool.eqb (fst x) s) (Nat.eqb (snd x) i)) log)).
Lemma used_gcnt : forall s i l, used s i l = gcnt s i l.
Proof.
  intros s i l. unfold used, gcnt. induction l as [|[s' i'] l IH]; [reflexivity|]. cbn [filter count_occ fst snd].
  destruct (sn_dec (s', i') (s, i)) as [h|h].
  - injection h as -> ->. rewrite Bool.eqb_reflx, Nat.eqb_refl. cbn [andb length]. lia.
  - destruct (Bool.eqb s' s) eqn:E1, (Nat.eqb_spec i' i) as [E2|E2]; cbn [andb]; try exact IH.
    exfalso. apply h. apply Bool.eqb_prop in E1. congruence.
Qed.

(* For every field implementation, every sequence of random points: at return, index i was used
   exactly max(e_i,0) times on the curve side and max(-e_i,0) times on the twist side. *)
Theorem C38_isogeny_count : forall Fo fzero fone ffour fisZero fnonQR inject a e rng st rest,
  bytes e ->
  groupAction_st Fo fzero fone ffour fisZero fnonQR inject a e rng = Some (st, rest) ->
  forall i, (i < 74)%nat ->
    used false i (gLog Fo st) = Z.max (exponent e i) 0 /\
    used true i (gLog Fo st) = Z.max (- exponent e i) 0.
Proof.
  intros Fo fzero fone ffour fisZero fnonQR inject a e rng st rest He H i Hi.
  destruct (loop_visited Fo fzero fone ffour fisZero fnonQR inject a e _ _ _ _ _ (v_init _ _ _ _ _ _ a e) H) as (V & D0 & D1).
  pose proof (visited_ok _ _ _ _ _ _ a e st He V) as G. rewrite <- expOf_exponent by exact He. rewrite !used_gcnt.
  destruct (G false) as (_ & _ & C0 & Z0). destruct (G true) as (_ & _ & C1 & Z1).
  specialize (C0 i). specialize (C1 i). rewrite (Z0 D0), initE_nth in C0 by assumption.
  rewrite (Z1 D1), initE_nth in C1 by assumption. lia.
Qed.
Print Assumptions C38_isogeny_count.

(* In every state reached, on both sides: the remaining exponents plus the used ones are the key's,
   and k times the primes still to do is exactly p + 1 (no overflow), so [k]P keeps only the torsion
   still needed; the cofactor is exactly the product of the later primes still to do. *)
Definition prod_where (f : nat -> bool) (l : list nat) : Z :=
  fold_right Z.mul 1 (map (fun i => if f i then nth i primes 0 else 1) l).
Lemma prod_where_psel : forall f l, prod_where f l = psel f l.
Proof.
  intros f l. unfold prod_where, psel, lp. induction l as [|x l IH]; [reflexivity|]. cbn [map fold_right]. rewrite IH.
  destruct (f x); [reflexivity|lia].
Qed.
Theorem C38_cofactors : forall Fo fzero fone ffour fisZero fnonQR a e st, bytes e ->
  visited Fo fzero fone ffour fisZero fnonQR a e st -> forall s,
  let todo := fun i => negb (nth i (gE Fo st s) 0 =? 0) in
  val (gK Fo st s) * prod_where todo (seq 0 74) = P + 1 /\
  (forall i, (i < 74)%nat -> nth i (gE Fo st s) 0 + used s i (gLog Fo st) = Z.max (if s then - exponent e i else exponent e i) 0) /\
  (forall i, (i < 74)%nat -> val (cofactor (gE Fo st s) i) = prod_where todo (seq (i + 1) (73 - i))).
Proof.
  intros Fo fzero fone ffour fisZero fnonQR a e st He V s todo.
  destruct (visited_ok _ _ _ _ _ _ a e st He V s) as (W & [F K] & C & _).
  split; [|split].
  - rewrite prod_where_psel, K, <- Z.mul_assoc. rewrite <- psel_all, <- (psel_split (isz (gE Fo st s))). reflexivity.
  - intros i Hi. rewrite used_gcnt, C, initE_nth, expOf_exponent by assumption. destruct s; reflexivity.
  - intros i Hi. destruct (cofactor_ok (gE Fo st s) i Hi) as [_ E]. rewrite E, prod_where_psel, Nat.add_1_r. reflexivity.
Qed.
Print Assumptions C38_cofactors.
(* the fuel of the model is immaterial: a None result is the panic of the random source *)
Theorem C38_total : forall Fo fzero fone ffour fisZero fnonQR inject a e rng f, (length rng < f)%nat ->
  gaLoop Fo fzero fone ffour fisZero fnonQR inject f (gaInit Fo a e) rng =
  groupAction_st Fo fzero fone ffour fisZero fnonQR inject a e rng.
Proof. intros. unfold groupAction_st. apply loop_fuel; lia. Qed.
Print Assumptions C38_total.

(* a private key with a single exponent: 3 at index 0 (high nibble of byte 0) *)
Example ex_c38 : exponent (48 :: repeat 0 36) 0 = 3 /\
  val (initK (48 :: repeat 0 36) false) * 3 = P + 1 /\ val (initK (48 :: repeat 0 36) true) = P + 1.
Proof. vm_compute. repeat split. Qed.
