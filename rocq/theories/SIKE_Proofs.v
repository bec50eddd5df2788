(* SIKE: the model computes what SIKE_Spec says. *)
From Coq Require Import ZArith List Lia Bool.
From Verif Require Import Lib Sha3_Spec Sha3_Iface Sha3_Model Sha3_Client Sha3_Proofs Sha3_Proofs2 P_SHA3.
From Verif Require Import MP Instr SIDH_Consts SIDH_Field SIDH_FieldProofs SIDH_Inst SIDH_Curve SIDH_Line SIDH_Traverse SIDH_Bytes P_SIDH_Field SIDH_Final SIDH_Api SIDH_ApiProofs P_SIDH_Api SIKE_Model SIKE_Spec.
Import ListNotations.
Open Scope Z_scope.

(* ---------- SHAKE256 ---------- *)
Lemma perm_bytes : forall S, bytes (perm S).
Proof.
  intros S. unfold perm, string_of. apply Forall_concat, Forall_forall. intros x H. apply in_map_iff in H. destruct H as (y & <- & _). apply le_enc_bytes.
Qed.
Lemma absorb_bytes : forall r P, bytes (absorb r P).
Proof.
  intros r P. unfold absorb. generalize (chunks r P). intros l. rewrite <- fold_left_rev_right. destruct (rev l); [apply Forall_repeat; unfold is_byte; lia|].
  cbn [fold_right]. apply perm_bytes.
Qed.
Lemma squeeze_bytes : forall r n S, bytes S -> bytes (squeeze r n S).
Proof. induction n; intros S H; [constructor|]. cbn [squeeze]. apply bytes_app; [apply Forall_firstn; exact H|apply IHn, perm_bytes]. Qed.
Lemma shake_bytes : forall M d, bytes (shake256 M d).
Proof. intros. unfold shake256, sponge. apply Forall_firstn, squeeze_bytes, absorb_bytes. Qed.
Definition isShake (s : state) : Prop := rate s = 136%nat /\ size s = 0%nat /\ sfx s = 0x1f.
Lemma isShake_new : isShake NewShake256.
Proof. split; [reflexivity|split; reflexivity]. Qed.
Lemma reset_shake : forall s, isShake s -> Reset s = NewShake256.
Proof. intros s (A & B' & C). unfold Reset. rewrite A, B', C. reflexivity. Qed.
Lemma write_shake : forall g s p, isShake s -> isShake (fst (Write g s p)).
Proof.
  intros g s p (A & B' & C). unfold Write. destruct (isSquezing s); [exact (conj A (conj B' C))|]. destruct (_ <? _)%nat; [exact (conj A (conj B' C))|].
  destruct (write_loop _ _ _ _ _). exact (conj A (conj B' C)).
Qed.
Lemma writes_shake : forall g ps s, isShake s -> isShake (writes g s ps).
Proof. intros g. induction ps; intros s H; [exact H|]. unfold writes in *. cbn [fold_left]. apply IHps, write_shake, H. Qed.
Lemma read_shake : forall g s o, isShake s -> isShake (fst (Read g s o)).
Proof.
  intros g s o H. unfold Read. set (c := if isSquezing s then s else finalize_sha3 g s).
  assert (isShake c) as (A & B' & C) by (unfold c; destruct (isSquezing s); exact H).
  destruct (_ =? 0)%nat; [exact (conj A (conj B' C))|]. destruct (read_loop _ _ _ _ _) as [[? ?] ?]. exact (conj A (conj B' C)).
Qed.
Lemma shake_run : forall g s ins out, isShake s -> Forall bytes ins ->
  exists s', shakeRun g s ins out = (s', shake256 (concat ins) (length out)) /\ isShake s' /\ length (shake256 (concat ins) (length out)) = length out.
Proof.
  intros g s ins out H Hb. unfold shakeRun. rewrite (reset_shake s H). destruct (C06_shake_stream g ins [out] Hb) as (_ & _ & A & L).
  cbn [reads] in A, L. pose proof (read_shake g (writes g NewShake256 ins) out (writes_shake _ _ _ isShake_new)) as R.
  destruct (Read g (writes g NewShake256 ins) out) as [s' b]. cbn [concat map fst] in *. rewrite !app_nil_r in A. exists s'. rewrite <- A.
  split; [reflexivity|]. split; [exact R|]. injection L as L. exact L.
Qed.
Lemma shake_length : forall M n, bytes M -> length (shake256 M n) = n.
Proof.
  intros M n H. destruct (shake_run true NewShake256 [M] (repeat 0 n) isShake_new ltac:(constructor; [exact H|constructor])) as (s & _ & _ & L).
  cbn [concat] in L. rewrite app_nil_r, repeat_length in L. exact L.
Qed.
Lemma shake_to : forall g s ins buf n, isShake s -> Forall bytes ins -> 0 <= n <= Z.of_nat (length buf) ->
  exists s', shakeTo g s ins buf n = Ret (s', shake256 (concat ins) (Z.to_nat n) ++ skipn (Z.to_nat n) buf) /\ isShake s'.
Proof.
  intros g s ins buf n H Hb L. unfold shakeTo. rewrite sub_ok by lia. cbn [bind]. rewrite Z.sub_0_r, skipn_O.
  destruct (shake_run g s ins (firstn (Z.to_nat n) buf) H Hb) as (s' & E & H' & _). rewrite E. exists s'. rewrite firstn_length_le by lia. split; [reflexivity|exact H'].
Qed.
(* what a short squeeze leaves in the buffer of the hash object *)
Definition keeps (s : state) (K : list Z) : Prop := isShake s /\ firstn (length K) (data s) = K.
Lemma writes_absorbing : forall g ps s, isSquezing s = false -> isSquezing (writes g s ps) = false.
Proof.
  intros g. induction ps as [|p ps IH]; intros s H; [exact H|]. unfold writes in *. cbn [fold_left]. apply IH. unfold Write. rewrite H. destruct (_ <? _)%nat; [reflexivity|]. destruct (write_loop _ _ _ _ _). reflexivity.
Qed.
Lemma shake_keeps : forall g s ins buf n, isShake s -> Forall bytes ins -> 0 <= n <= Z.of_nat (length buf) -> n <= 136 ->
  exists s', shakeTo g s ins buf n = Ret (s', shake256 (concat ins) (Z.to_nat n) ++ skipn (Z.to_nat n) buf) /\ keeps s' (shake256 (concat ins) (Z.to_nat n)).
Proof.
  intros g s ins buf n H Hb L L2. destruct (shake_to g s ins buf n H Hb L) as (s' & E & H'). exists s'. split; [exact E|]. split; [exact H'|].
  unfold shakeTo in E. rewrite sub_ok in E by lia. cbn [bind] in E. rewrite Z.sub_0_r, skipn_O in E.
  destruct (shake_run g s ins (firstn (Z.to_nat n) buf) H Hb) as (s1 & E1 & _ & L1). rewrite E1 in E. apply Ret_inj in E. apply (f_equal fst) in E. cbn [fst] in E. subst s1.
  rewrite firstn_length_le in E1, L1 by lia. unfold shakeRun in E1. rewrite (reset_shake s H) in E1.
  assert (W : isSquezing (writes g NewShake256 ins) = false) by (apply writes_absorbing; reflexivity).
  pose proof (writes_shake g ins NewShake256 isShake_new) as (WR & _ & _). unfold Read in E1. rewrite W in E1.
  set (f := finalize_sha3 g (writes g NewShake256 ins)) in *. assert (RF : rate f = 136%nat) by exact WR. assert (IF : idx f = 136%nat) by exact WR.
  rewrite RF, IF, firstn_length_le in E1 by lia. replace (Nat.min 136 (Z.to_nat n)) with (Z.to_nat n) in E1 by lia.
  rewrite (skipn_all2 (firstn (Z.to_nat n) buf)) in E1 by (rewrite firstn_length_le; lia). cbn [length Nat.eqb] in E1.
  pose proof (f_equal snd E1) as X. pose proof (f_equal (fun q => data (fst q)) E1) as Y. cbn [fst snd data] in X, Y. rewrite <- Y, L1. rewrite Nat.sub_diag in X. unfold slice in X. rewrite skipn_O in X. exact X.
Qed.

(* ---------- small facts ---------- *)
Lemma sub_prefix : forall a b n, Z.of_nat (length a) = n -> sub (a ++ b) 0 n = Ret a.
Proof.
  intros a b n H. rewrite sub_ok by (rewrite ?app_length; lia). rewrite Z.sub_0_r, skipn_O. replace (Z.to_nat n) with (length a) by lia.
  rewrite firstn_app, firstn_all, Nat.sub_diag, firstn_O, app_nil_r. reflexivity.
Qed.
Lemma skipn_prefix : forall (a b : list Z) n, length a = n -> skipn n (a ++ b) = b.
Proof. intros a b n <-. rewrite skipn_app, skipn_all, Nat.sub_diag. reflexivity. Qed.
Lemma firstn_prefix : forall (a b : list Z) n, length a = n -> firstn n (a ++ b) = a.
Proof. intros a b n <-. rewrite firstn_app, firstn_all, Nat.sub_diag, firstn_O, app_nil_r. reflexivity. Qed.
Lemma combine_xor : forall a b, map (fun x => Z.lxor (fst x) (snd x)) (combine a b) = xor_list a b.
Proof. induction a; intros [|y b]; cbn; try reflexivity. rewrite IHa. reflexivity. Qed.
Lemma xorInto_ok : forall a t p, length a = length p -> xorInto (a ++ t) p = Ret (xor_list a p ++ t).
Proof.
  intros a t p H. unfold xorInto. replace (_ <=? _)%nat with true by (symmetry; apply Nat.leb_le; rewrite app_length; lia).
  rewrite skipn_prefix by assumption. f_equal. f_equal. rewrite combine_xor. rewrite <- (app_nil_r p) at 1. rewrite xor_list_app by assumption.
  replace (xor_list t []) with (@nil Z) by (destruct t; reflexivity). apply app_nil_r.
Qed.
Lemma zeros_length : forall n, length (zeros n) = Z.to_nat n.
Proof. intros. apply repeat_length. Qed.
Lemma skipn_zeros : forall n m, skipn m (zeros n) = zeros (n - Z.of_nat m).
Proof.
  intros n m. unfold zeros. replace (Z.to_nat (n - Z.of_nat m)) with (Z.to_nat n - m)%nat by lia. generalize (Z.to_nat n). intros k. revert m.
  induction k; intros [|m]; cbn [repeat skipn]; try reflexivity. rewrite IHk. reflexivity.
Qed.

(* ---------- the key agreement API as functions ---------- *)
Section Api.
  Variable P : sidhParams.
  Hypothesis RP : registered P.
  Lemma exported_ok : forall k, pubParams k = P -> bytes (exported k) /\ Z.of_nat (length (exported k)) = PublicKeySize P /\
    forall out, PublicKeySize P <= Z.of_nat (length out) -> pubExport k out = Ret (exported k ++ skipn (Z.to_nat (PublicKeySize P)) out).
  Proof.
    intros k E. pose proof (reg_sizes P RP) as Z. destruct Z.
    assert (RK : registered (pubParams k)) by (rewrite E; exact RP).
    assert (EX : exists e, bytes e /\ Z.of_nat (length e) = PublicKeySize P /\ forall out, PublicKeySize P <= Z.of_nat (length out) -> pubExport k out = Ret (e ++ skipn (Z.to_nat (PublicKeySize P)) out)).
    { pose proof (export_gen k) as G. cbv zeta in G. rewrite E in G. destruct (map3 _ _) as [[f0 f1] f2].
      exists ((fpToBytes (fst f0) (Bytelen P) ++ fpToBytes (snd f0) (Bytelen P)) ++ (fpToBytes (fst f1) (Bytelen P) ++ fpToBytes (snd f1) (Bytelen P)) ++ (fpToBytes (fst f2) (Bytelen P) ++ fpToBytes (snd f2) (Bytelen P))).
      split; [repeat apply bytes_app; apply fpToBytes_bytes|]. split; [rewrite !app_length, !fpToBytes_length; lia|].
      intros out L. rewrite G by assumption. rewrite <- !app_assoc. reflexivity. }
    destruct EX as (e & B1 & B2 & B3). assert (EE : exported k = e).
    { unfold exported. rewrite E, B3 by (rewrite repeat_length; lia). cbn [orNil]. rewrite skipn_all2, app_nil_r by (rewrite repeat_length; lia). reflexivity. }
    rewrite EE. split; [exact B1|]. split; [exact B2|exact B3].
  Qed.
  Lemma derive_gen : forall k pub, prvParams k = P -> longEnough k -> pubVariant pub <> prvVariant k -> pID (pubParams pub) = pID P ->
    bytes (sharedOf k pub) /\ Z.of_nat (length (sharedOf k pub)) = SharedSecretSize P /\
    forall ss, SharedSecretSize P <= Z.of_nat (length ss) -> DeriveSecret k ss pub = Ret (sharedOf k pub ++ skipn (Z.to_nat (SharedSecretSize P)) ss).
  Proof.
    intros k pub E LE NV EI. pose proof (reg_sizes P RP) as Z. destruct Z. destruct (reg_strat P RP) as [SA SB].
    assert (EX : exists s, bytes s /\ Z.of_nat (length s) = SharedSecretSize P /\ forall ss, SharedSecretSize P <= Z.of_nat (length ss) -> DeriveSecret k ss pub = Ret (s ++ skipn (Z.to_nat (SharedSecretSize P)) ss)).
    { assert (EJ : exists j, forall ss, (if onA (prvVariant k) then DeriveSecretA_l P ss (Scalar k) (affine3Pt pub) else DeriveSecretB_l P ss (Scalar k) (affine3Pt pub)) =
        Fp2ToBytes ss (FromMontgomery (pField P) j) (Bytelen P)).
      { unfold longEnough, bitsOf in LE. rewrite E in LE. destruct (onA (prvVariant k)).
        - destruct (derA_ret (limbOps P) (limbDom (pA P)) SA (Scalar k) (affine3Pt pub) LE) as (j & EJ). exists j. intros ss. unfold DeriveSecretA_l. rewrite EJ. reflexivity.
        - destruct (derB_ret (limbOps P) (limbDom (pB P)) SB (Scalar k) (affine3Pt pub) LE) as (j & EJ). exists j. intros ss. unfold DeriveSecretB_l. rewrite EJ. reflexivity. }
      destruct EJ as (j & EJ). set (f := FromMontgomery _ j) in *. exists (fpToBytes (fst f) (Bytelen P) ++ fpToBytes (snd f) (Bytelen P)).
      split; [apply bytes_app; apply fpToBytes_bytes|]. split; [rewrite !app_length, !fpToBytes_length; lia|].
      intros ss L. unfold DeriveSecret. apply Z.eqb_neq in NV. rewrite NV, E, EI, Z.eqb_refl. cbn [negb orb]. rewrite (reg_pkg P RP). cbn [bind]. rewrite EJ.
      rewrite Fp2ToBytes_ret by lia. rewrite <- app_assoc. repeat f_equal. lia. }
    destruct EX as (s & B1 & B2 & B3). assert (EE : sharedOf k pub = s).
    { unfold sharedOf. rewrite E, B3 by (rewrite repeat_length; lia). cbn [orNil]. rewrite skipn_all2, app_nil_r by (rewrite repeat_length; lia). reflexivity. }
    rewrite EE. split; [exact B1|]. split; [exact B2|exact B3].
  Qed.
  Lemma pubOf_ok : forall k, prvParams k = P -> longEnough k ->
    GeneratePublicKey k (freshKey P (prvVariant k)) = Ret (pubOf k) /\ pubParams (pubOf k) = P /\ pubVariant (pubOf k) = prvVariant k.
  Proof.
    intros k E LE. unfold pubOf. rewrite E. assert (RK : registered (prvParams k)) by (rewrite E; exact RP).
    destruct (C48_generate k (freshKey P (prvVariant k)) RK LE) as [A C]. destruct (GeneratePublicKey k _) as [p|] eqn:EG.
    - split; [reflexivity|]. exact (C p eq_refl).
    - exfalso. destruct (proj1 A eq_refl) as [X|X]; apply X; [reflexivity|]. rewrite E. reflexivity.
  Qed.
  Lemma keyOf_ok : forall v b, bytes b -> Z.of_nat (length b) = PublicKeySize P ->
    pubImport (freshKey P v) b = Ret (keyOf P v b, false) /\ pubParams (keyOf P v b) = P /\ pubVariant (keyOf P v b) = v /\ hold3 P (affine3Pt (keyOf P v b)) (coordsOf P b).
  Proof.
    intros v b Hb HL. destruct (fresh_raw P v _ eq_refl) as [R V].
    destruct (C42_import_used (freshKey P v) b RP R Hb HL) as (k' & A & C & D & F). unfold keyOf. rewrite A. split; [reflexivity|].
    cbn [freshKey pubParams pubVariant] in C, D. split; [exact C|]. split; [exact D|]. change (affine3Pt (freshKey P v)) with (affine3Pt (freshPub P v)) in F.
    unfold freshPub in F. rewrite V, lor3_0 in F. unfold hasCoords in F. rewrite C in F. exact F.
  Qed.
  Lemma new_key : forall r v, later r -> NewPublicKey r (pID P) v = Ret (freshKey P v).
  Proof.
    intros r v L. destruct (C49_builtin r L) as (A & C & D). unfold NewPublicKey.
    destruct RP as [->|[->| ->]]; [change (pID params434) with Fp434; rewrite A|change (pID params503) with Fp503; rewrite C|change (pID params751) with Fp751; rewrite D]; reflexivity.
  Qed.
  Lemma eph_long : forall m pk, longEnough (ephKey P m pk).
  Proof.
    intros. pose proof (reg_sizes P RP) as Z. destruct Z. unfold longEnough, bitsOf, ephKey. cbn [prvVariant prvParams Scalar]. change (onA KeyVariantSidhA) with true. cbv iota.
    unfold ephScalar. rewrite le_enc_length. lia.
  Qed.
  (* the masking of the last byte is the reduction modulo 2^eA *)
  Lemma mask_ok : forall l, bytes l -> Z.of_nat (length l) = SecretByteLen (pA P) -> maskA P l = Ret (le_enc (length l) (le_dec l mod 2 ^ SecretBitLen (pA P))).
  Proof.
    intros l Hb HL. pose proof (reg_sizes P RP) as Z. destruct Z.
    assert (RB : exists q, 0 <= q <= 7 /\ topMask (pA P) = Z.ones q /\ SecretBitLen (pA P) = 8 * (SecretByteLen (pA P) - 1) + q).
    { destruct RP as [->|[->| ->]]; [exists 0|exists 2|exists 4]; (split; [lia|split; vm_compute; reflexivity]). }
    destruct RB as (q & Q1 & Q2 & Q3). unfold maskA. rewrite Q2.
    destruct (exists_last (l := l)) as (t & b & ->); [intros ->; cbn in HL; lia|]. rewrite onLast_snoc. f_equal.
    rewrite app_length in HL |- *. cbn [length] in HL |- *. apply Forall_app in Hb. destruct Hb as [B1 B2]. assert (Bb : 0 <= b < 256) by (inversion B2; assumption).
    rewrite Z.land_ones by lia. pose proof (le_dec_bound t B1) as LB. assert (EM : 256 ^ Z.of_nat (length t) = 2 ^ (8 * Z.of_nat (length t))) by (rewrite Z.pow_mul_r by lia; reflexivity). rewrite EM in LB.
    assert (P1 : 0 < 2 ^ q) by (apply Z.pow_pos_nonneg; lia). assert (P2 : 0 < 2 ^ (8 * Z.of_nat (length t))) by (apply Z.pow_pos_nonneg; lia).
    set (m := 8 * Z.of_nat (length t)) in *.
    assert (BT : bytes (t ++ [b mod 2 ^ q])).
    { apply bytes_app; [exact B1|]. constructor; [|constructor]. unfold is_byte. pose proof (Z.mod_pos_bound b (2 ^ q) P1). assert (2 ^ q <= 2 ^ 7) by (apply Z.pow_le_mono_r; lia). lia. }
    rewrite <- (le_enc_dec _ BT) at 1. rewrite app_length. cbn [length]. f_equal.
    rewrite !le_dec_snoc. fold m. replace (SecretBitLen (pA P)) with (m + q) by lia. assert (M0 : 0 <= m) by (unfold m; lia). clearbody m. rewrite Z.pow_add_r by lia. rewrite Z.rem_mul_r by lia.
    rewrite (Z.mul_comm (2 ^ m) b), Z.mod_add, Z.div_add by lia. rewrite (Z.mod_small (le_dec t)), (Z.div_small (le_dec t)) by lia. rewrite Z.add_0_l. ring.
  Qed.
End Api.
Lemma gocopyAt_ok : forall a t n c, Z.of_nat (length a) = n -> (length c <= length t)%nat -> gocopyAt (a ++ t) n c = Ret (a ++ c ++ skipn (length c) t).
Proof.
  intros a t n c H L. unfold gocopyAt, into. rewrite sub_ok by (rewrite ?app_length; lia). cbn [bind].
  replace (Z.to_nat n) with (length a) by lia. rewrite skipn_prefix, firstn_prefix by reflexivity. rewrite Nat2Z.id, skipn_all, app_nil_r.
  rewrite firstn_all2 by (rewrite ?app_length; lia). unfold gocopy. rewrite (firstn_all2 c) by lia. reflexivity.
Qed.
Lemma pad_length : forall j m, bytes j -> length (pad j m) = length m.
Proof. intros j m H. unfold pad. rewrite xor_list_length, shake_length by exact H. lia. Qed.
Lemma pad_bytes : forall j m, bytes m -> bytes (pad j m).
Proof. intros j m H. unfold pad. apply bytes_xor; [apply shake_bytes|exact H]. Qed.
Lemma pad_pad : forall j m, bytes j -> pad j (pad j m) = m.
Proof.
  intros j m H. unfold pad at 1. rewrite pad_length by exact H. unfold pad. rewrite (xor_list_comm (shake256 j (length m)) m), (xor_list_comm (shake256 j (length m)) (xor_list _ _)).
  apply xor_list_invol. rewrite shake_length by exact H. lia.
Qed.

(* ---------- the object ---------- *)
Definition kemOk (c : kem) : Prop := registered (kParams c) /\ Z.of_nat (length (kMsg c)) = MsgLen (kParams c) /\
  Z.of_nat (length (kSecret c)) = SecretByteLen (pA (kParams c)) /\ isShake (kShake c).

Lemma gen_ct : forall g s P skA pkA pkB ptext ctext, registered P -> isShake s -> prvParams skA = P -> longEnough skA -> pubParams pkA = P -> pID (pubParams pkB) = pID P ->
  pubVariant pkB <> prvVariant skA -> bytes ptext -> Z.of_nat (length ptext) = MsgLen P -> CiphertextSize P <= Z.of_nat (length ctext) ->
  exists s', isShake s' /\ generateCiphertext g s ctext skA pkA pkB ptext = Ret (s', exported pkA ++ pad (sharedOf skA pkB) ptext ++ skipn (Z.to_nat (CiphertextSize P)) ctext).
Proof.
  intros g s P skA pkA pkB ptext ctext RP HS E1 LE E2 E3 NV Hb HL LC. pose proof (reg_sizes P RP) as Z. destruct Z.
  destruct (derive_gen P RP skA pkB E1 LE NV E3) as (D1 & D2 & D3). destruct (exported_ok P RP pkA E2) as (X1 & X2 & X3).
  unfold generateCiphertext. rewrite E1. rewrite D3 by (rewrite zeros_length; unfold MaxSharedSecretBsz; lia). cbn [bind]. rewrite sub_prefix by exact D2. cbn [bind].
  destruct (shake_to g s [sharedOf skA pkB] (zeros MaxMsgBsz) (MsgLen P) HS ltac:(constructor; [exact D1|constructor]) ltac:(rewrite zeros_length; unfold MaxMsgBsz; lia)) as (s' & ES & HS').
  rewrite ES. cbn [bind concat]. rewrite app_nil_r.
  assert (LS : length (shake256 (sharedOf skA pkB) (Z.to_nat (MsgLen P))) = length ptext) by (rewrite shake_length by exact D1; lia).
  rewrite xorInto_ok by exact LS. cbn [bind]. rewrite X3 by lia. cbn [bind]. rewrite sub_prefix by (rewrite xor_list_length, LS; lia). cbn [bind].
  unfold pubSize. rewrite E2. rewrite gocopyAt_ok; [|exact X2|rewrite xor_list_length, LS, skipn_length; lia]. cbn [bind].
  exists s'. split; [exact HS'|]. unfold pad. replace (Z.to_nat (MsgLen P)) with (length ptext) by lia. rewrite skipn_skipn', xor_list_length, shake_length by exact D1. repeat f_equal. lia.
Qed.

Lemma enc_ok : forall g r c ct ss pub, later r -> kemOk c -> let P := kParams c in let m := firstn (Z.to_nat (MsgLen P)) (kRng c) in
  pubParams pub = P -> pubVariant pub = KeyVariantSike -> bytes (kRng c) -> bytes ct ->
  MsgLen P <= Z.of_nat (length (kRng c)) -> CiphertextSize P <= Z.of_nat (length ct) -> KemSize P <= Z.of_nat (length ss) ->
  let ct' := sikeCt P m pub ++ skipn (Z.to_nat (CiphertextSize P)) ct in
  exists s', keeps s' (sikeKey P m ct') /\ Encapsulate g r (Some c) ct ss pub =
    Ret (mkKem (skipn (Z.to_nat (MsgLen P)) (kRng c)) m (ephScalar P m (exported pub)) P s', ct', sikeKey P m ct' ++ skipn (Z.to_nat (KemSize P)) ss, false).
Proof.
  intros g r [rng msg0 sec0 P s0] ct ss pub LR (RP & K1 & K2 & K3). cbn [kRng kMsg kSecret kParams kShake] in *. cbv zeta.
  intros EP EV Hr Hc LM LC LS. pose proof (reg_sizes P RP) as Z. destruct Z.
  set (m := firstn (Z.to_nat (MsgLen P)) rng). assert (Lm : Z.of_nat (length m) = MsgLen P) by (unfold m; rewrite firstn_length_le; lia).
  assert (Bm : bytes m) by (apply Forall_firstn; exact Hr).
  destruct (exported_ok P RP pub EP) as (X1 & X2 & X3). 
  unfold Encapsulate. cbn [kRng kMsg kSecret kParams kShake]. rewrite EV, Z.eqb_refl. cbn [negb].
  replace (_ <? _) with false by (symmetry; apply Z.ltb_ge; lia). replace (_ <? _) with false by (symmetry; apply Z.ltb_ge; lia).
  rewrite readFull_ok by lia. replace (length msg0) with (Z.to_nat (MsgLen P)) by lia. fold m. rewrite (new_key P RP r KeyVariantSidhA LR). cbn [bind].
  rewrite X3 by (rewrite zeros_length; unfold MaxSharedSecretBsz; lia). cbn [bind]. rewrite sub_prefix by lia. cbn [bind].
  destruct (shake_run g s0 [m; exported pub] sec0 K3 ltac:(constructor; [exact Bm|constructor; [exact X1|constructor]])) as (s1 & E1 & H1 & L1). rewrite E1.
  cbn [concat] in *. rewrite app_nil_r in *. rewrite (mask_ok P RP) by (try apply shake_bytes; lia). cbn [bind]. rewrite L1.
  assert (ES : le_enc (length sec0) (le_dec (shake256 (m ++ exported pub) (length sec0)) mod 2 ^ SecretBitLen (pA P)) = ephScalar P m (exported pub)).
  { unfold ephScalar. replace (Z.to_nat (SecretByteLen (pA P))) with (length sec0) by lia. reflexivity. }
  rewrite ES. change (mkPrv P KeyVariantSidhA (ephScalar P m (exported pub)) []) with (ephKey P m (exported pub)).
  destruct (pubOf_ok P RP (ephKey P m (exported pub)) eq_refl (eph_long P RP m _)) as (G1 & G2 & G3). change (prvVariant (ephKey P m (exported pub))) with KeyVariantSidhA in G1. rewrite G1. cbn [bind].
  destruct (gen_ct g s1 P (ephKey P m (exported pub)) (pubOf (ephKey P m (exported pub))) pub m ct RP H1 eq_refl (eph_long P RP m _) G2 ltac:(rewrite EP; reflexivity) ltac:(rewrite EV; discriminate) Bm Lm LC) as (s2 & H2 & E2).
  rewrite E2. cbn [bind]. rewrite app_assoc. change (exported (pubOf (ephKey P m (exported pub))) ++ pad (sharedOf (ephKey P m (exported pub)) pub) m) with (sikeCt P m pub).
  assert (BC : bytes (sikeCt P m pub)).
  { apply bytes_app; [apply (exported_ok P RP _ G2)|apply pad_bytes; exact Bm]. }
  set (ct' := sikeCt P m pub ++ _). assert (BC' : bytes ct') by (apply bytes_app; [exact BC|apply Forall_skipn; exact Hc]).
  destruct (shake_keeps g s2 [m; ct'] ss (KemSize P) H2 ltac:(constructor; [exact Bm|constructor; [exact BC'|constructor]]) ltac:(lia) ltac:(lia)) as (s3 & E3 & H3). rewrite E3. cbn [bind concat] in *. rewrite app_nil_r in *.
  exists s3. split; [exact H3|reflexivity].
Qed.
Lemma enc_fail : forall g r c ct ss pub, kemOk c -> let P := kParams c in pubVariant pub = KeyVariantSike ->
  Z.of_nat (length (kRng c)) < MsgLen P -> CiphertextSize P <= Z.of_nat (length ct) -> KemSize P <= Z.of_nat (length ss) ->
  Encapsulate g r (Some c) ct ss pub = Ret (mkKem [] (kRng c ++ skipn (length (kRng c)) (kMsg c)) (kSecret c) P (kShake c), ct, ss, true).
Proof.
  intros g r [rng msg0 sec0 P s0] ct ss pub (RP & K1 & K2 & K3). cbn [kRng kMsg kSecret kParams kShake] in *. cbv zeta. intros EV LM LC LS.
  unfold Encapsulate. cbn [kRng kMsg kSecret kParams kShake]. rewrite EV, Z.eqb_refl. cbn [negb].
  replace (_ <? _) with false by (symmetry; apply Z.ltb_ge; lia). replace (_ <? _) with false by (symmetry; apply Z.ltb_ge; lia).
  rewrite readFull_bad by lia. reflexivity.
Qed.

Lemma Cpick_1 : forall m S, bytes m -> (length m <= length S)%nat -> Cpick 1 m m S = Ret m.
Proof.
  intros m S Hb L. unfold Cpick. change (Z.shiftr (int8 (Z.shiftl 1 7)) 7 mod 256) with 255. rewrite Nat.leb_refl. replace (_ <=? _)%nat with true by (symmetry; apply Nat.leb_le; exact L). cbn [andb]. f_equal.
  rewrite firstn_all2 by (rewrite combine_length; lia). revert S L. induction Hb as [|x m Hx Hb IH]; intros [|y S] L; try reflexivity; [cbn in L; lia|].
  cbn [combine map fst snd]. cbn [length] in L. rewrite IH by lia. f_equal. change (255 - 255) with 0. rewrite Z.land_0_r, Z.lor_0_r. change 255 with (Z.ones 8). rewrite Z.land_ones by lia. apply Z.mod_small. exact Hx.
Qed.
Lemma Cpick_0 : forall m S, bytes S -> (length m <= length S)%nat -> Cpick 0 m m S = Ret (firstn (length m) S).
Proof.
  intros m S Hb L. unfold Cpick. change (Z.shiftr (int8 (Z.shiftl 0 7)) 7 mod 256) with 0. rewrite Nat.leb_refl. replace (_ <=? _)%nat with true by (symmetry; apply Nat.leb_le; exact L). cbn [andb]. f_equal.
  rewrite firstn_all2 by (rewrite combine_length; lia). revert m L. induction Hb as [|y S Hx Hb IH]; intros [|x m] L; try reflexivity.
  cbn [combine map fst snd length firstn]. cbn [length] in L. rewrite IH by lia. f_equal. change (255 - 0) with (Z.ones 8). rewrite Z.land_0_r, Z.lor_0_l. rewrite Z.land_ones by lia. apply Z.mod_small. exact Hx.
Qed.

Lemma decrypt_ok : forall g r s P prv ct, later r -> registered P -> isShake s -> prvParams prv = P -> prvVariant prv = KeyVariantSike -> longEnough prv ->
  bytes ct -> Z.of_nat (length ct) = CiphertextSize P ->
  exists s', isShake s' /\ decrypt g r s (zeros MaxMsgBsz) prv ct = Ret (s', sikeMsg P prv ct ++ zeros (MaxMsgBsz - MsgLen P), MsgLen P, false) /\
    bytes (sikeMsg P prv ct) /\ Z.of_nat (length (sikeMsg P prv ct)) = MsgLen P.
Proof.
  intros g r s P prv ct LR RP HS EP EV LE Hb HL. pose proof (reg_sizes P RP) as Z. destruct Z.
  unfold decrypt. rewrite EP. rewrite (new_key P RP r KeyVariantSidhA LR). cbn [bind].
  set (n := Z.to_nat (PublicKeySize P)). assert (Ln : length (firstn n ct) = n) by (rewrite firstn_length_le; lia).
  rewrite sub_ok by lia. rewrite Z.sub_0_r, skipn_O. fold n. cbn [bind].
  destruct (keyOf_ok P RP KeyVariantSidhA (firstn n ct) ltac:(apply Forall_firstn; exact Hb) ltac:(lia)) as (I1 & I2 & I3 & _). rewrite I1. cbn [bind].
  destruct (derive_gen P RP prv (keyOf P KeyVariantSidhA (firstn n ct)) EP LE ltac:(rewrite I3, EV; discriminate) ltac:(rewrite I2; reflexivity)) as (D1 & D2 & D3).
  rewrite D3 by (rewrite zeros_length; unfold MaxSharedSecretBsz; lia). cbn [bind]. rewrite sub_prefix by exact D2. cbn [bind].
  set (j := sharedOf prv _) in *. replace (Z.of_nat (length ct) - PublicKeySize P) with (MsgLen P) by lia.
  destruct (shake_to g s [j] (zeros MaxMsgBsz) (MsgLen P) HS ltac:(constructor; [exact D1|constructor]) ltac:(rewrite zeros_length; unfold MaxMsgBsz; lia)) as (s' & ES & HS').
  rewrite ES. cbn [bind concat]. rewrite app_nil_r. rewrite sub_ok by lia. fold n. cbn [bind].
  rewrite firstn_all2 by (rewrite skipn_length; lia).
  assert (Lc : length (skipn n ct) = Z.to_nat (MsgLen P)) by (rewrite skipn_length; lia).
  rewrite xorInto_ok by (rewrite shake_length by exact D1; lia). cbn [bind]. exists s'. split; [exact HS'|].
  assert (EM : sikeMsg P prv ct = pad j (skipn n ct)) by reflexivity. rewrite EM. unfold pad at 1. rewrite Lc, skipn_zeros. rewrite Z2Nat.id by lia.
  split; [reflexivity|]. split; [apply pad_bytes, Forall_skipn; exact Hb|]. rewrite pad_length by exact D1. lia.
Qed.

Lemma dec_ok : forall g r c ss prv pub ct, later r -> kemOk c -> let P := kParams c in
  pubParams pub = P -> pubVariant pub = KeyVariantSike -> prvParams prv = P -> prvVariant prv = KeyVariantSike -> longEnough prv ->
  bytes (prvS prv) -> Z.of_nat (length (prvS prv)) = MsgLen P -> bytes ct -> Z.of_nat (length ct) = CiphertextSize P -> KemSize P <= Z.of_nat (length ss) ->
  exists s', keeps s' (sikeDecaps P prv pub ct) /\ Decapsulate g r (Some c) ss prv pub ct =
    Ret (mkKem (kRng c) (kMsg c) (ephScalar P (sikeMsg P prv ct) (exported pub)) P s', sikeDecaps P prv pub ct ++ skipn (Z.to_nat (KemSize P)) ss, false).
Proof.
  intros g r [rng msg0 sec0 P s0] ss prv pub ct LR (RP & K1 & K2 & K3). cbn [kRng kMsg kSecret kParams kShake] in *. cbv zeta.
  intros EP EV EP' EV' LE BS LS Hc LC Lss. pose proof (reg_sizes P RP) as Z. destruct Z.
  destruct (exported_ok P RP pub EP) as (X1 & X2 & X3).
  unfold Decapsulate. cbn [kRng kMsg kSecret kParams kShake]. rewrite EV, EV', !Z.eqb_refl. cbn [negb].
  replace (_ <? _) with false by (symmetry; apply Z.ltb_ge; lia). replace (_ =? _) with true by (symmetry; apply Z.eqb_eq; lia). cbn [negb].
  rewrite (new_key P RP r KeyVariantSidhA LR). cbn [bind].
  destruct (decrypt_ok g r s0 P prv ct LR RP K3 EP' EV' LE Hc LC) as (s1 & H1 & E1 & Bm & Lm). rewrite E1. cbn [bind].
  set (m := sikeMsg P prv ct) in *.
  rewrite X3 by (rewrite zeros_length; unfold MaxSharedSecretBsz; lia). cbn [bind]. rewrite (sub_prefix m) by lia. cbn [bind]. rewrite sub_prefix by lia. cbn [bind].
  destruct (shake_to g s1 [m; exported pub] (zeros MaxSidhPrivateKeyBsz) (SecretByteLen (pA P)) H1 ltac:(constructor; [exact Bm|constructor; [exact X1|constructor]]) ltac:(rewrite zeros_length; unfold MaxSidhPrivateKeyBsz; lia)) as (s2 & E2 & H2).
  rewrite E2. cbn [bind concat]. rewrite app_nil_r.
  assert (LH : length (shake256 (m ++ exported pub) (Z.to_nat (SecretByteLen (pA P)))) = Z.to_nat (SecretByteLen (pA P))) by (apply shake_length, bytes_app; assumption).
  rewrite sub_prefix by lia. cbn [bind]. rewrite (mask_ok P RP) by (try apply shake_bytes; lia). cbn [bind]. rewrite LH.
  match goal with |- context[le_enc ?n ?x] => change (le_enc n x) with (ephScalar P m (exported pub)) end.
  set (sc := ephScalar P m (exported pub)). assert (Lsc : length sc = length sec0) by (unfold sc, ephScalar; rewrite le_enc_length; lia).
  assert (EI : prvImport (mkPrv P KeyVariantSidhA sec0 []) sc = Ret (ephKey P m (exported pub), false)).
  { unfold prvImport, prvSize. cbn [Scalar prvS prvVariant prvParams length]. change (KeyVariantSidhA =? KeyVariantSike) with false. cbv iota. replace (_ =? _) with true by (symmetry; apply Z.eqb_eq; lia). cbn [negb].
    rewrite sub_ok by (cbn; lia). cbn [bind]. rewrite sub_ok by (cbn; lia). cbn [bind]. rewrite skipn_O, firstn_all2 by lia. rewrite gocopy_full by lia. reflexivity. }
  rewrite EI. cbn [bind].
  destruct (pubOf_ok P RP (ephKey P m (exported pub)) eq_refl (eph_long P RP m _)) as (G1 & G2 & G3). change (prvVariant (ephKey P m (exported pub))) with KeyVariantSidhA in G1. rewrite G1. cbn [bind].
  destruct (exported_ok P RP _ G2) as (Y1 & Y2 & Y3).
  rewrite Y3 by (rewrite app_length, skipn_length, zeros_length; unfold MaxSharedSecretBsz; lia). cbn [bind]. rewrite sub_prefix by lia. cbn [bind]. rewrite EP. rewrite sub_ok by lia. rewrite Z.sub_0_r, skipn_O. cbn [bind].
  change (exported (pubOf (ephKey P m (exported pub)))) with (sikeC0 P m (exported pub)).
  unfold sikeDecaps. fold m. cbv zeta. unfold ConstantTimeCompare.
  destruct (list_eq_dec Z.eq_dec (sikeC0 P m (exported pub)) (firstn (Z.to_nat (PublicKeySize P)) ct)) as [EQ|NE].
  - rewrite Cpick_1 by (try exact Bm; lia). cbn [bind].
    destruct (shake_keeps g s2 [m; ct] ss (KemSize P) H2 ltac:(constructor; [exact Bm|constructor; [exact Hc|constructor]]) ltac:(lia) ltac:(lia)) as (s3 & E3 & H3). rewrite E3. cbn [bind concat] in *. rewrite app_nil_r in *.
    exists s3. split; [exact H3|reflexivity].
  - rewrite Cpick_0 by (try exact BS; lia). cbn [bind]. rewrite firstn_all2 by lia.
    destruct (shake_keeps g s2 [prvS prv; ct] ss (KemSize P) H2 ltac:(constructor; [exact BS|constructor; [exact Hc|constructor]]) ltac:(lia) ltac:(lia)) as (s3 & E3 & H3). rewrite E3. cbn [bind concat] in *. rewrite app_nil_r in *.
    exists s3. split; [exact H3|reflexivity].
Qed.
