(* CSIDH public key encryption: C56 (round trip), C57 (refused keys), C58 (stale hash state). *)
From Coq Require Import ZArith List Lia Bool.
From Verif Require Import Lib Sha3_Spec Sha3_Iface Sha3_Model Sha3_Client Sha3_Proofs Sha3_Proofs2 P_SHA3 SIKE_Proofs.
From Verif Require Import MP Instr CSIDH_Field CSIDH_FieldProofs CSIDH_FieldProofs2 P_CSIDH_Field CSIDH_Curve CSIDH_Model CSIDH_ApiProofs P_CSIDH
  CSIDH_CurveProofs CSIDH_ValidProofs P_CSIDH_Curve P_CSIDH_Zero CPKE_Spec CPKE_Model CPKE_Proofs.
Import ListNotations.
Open Scope Z_scope.

(* An allocated PKE object, whatever it was used for: its hash object has the parameters of SHAKE128. *)
Definition pkeOk (c : pke) : Prop := bytes (pRng c) /\ isShake128 (pH c).
Theorem C56_allocated : forall rng, bytes rng -> pkeOk (pkeAllocate rng).
Proof. intros rng H. exact (conj H isShake128_new). Qed.
Theorem C56_unallocated : forall g pk pt sk U V keys, pkeEnc g None pk pt = Panic /\ pkeDec g None sk U V = Panic /\ mpkeEncrypt g None keys pt = Panic.
Proof. intros. split; [reflexivity|split; reflexivity]. Qed.
Print Assumptions C56_unallocated.

(* ---------- C56 ---------- *)
Lemma enc_run : forall g c pk pt, pkeOk c -> fp_ok pk -> isMsg pt ->
  pkeEnc g (Some c) pk pt =
    let '(_, sk, r) := generatePrivateKey (pRng c) in
    match deriveSecret zero64 pk sk r with
    | Panic => Panic
    | Ret (_, ss, r) =>
      match generatePublicKey sk r with
      | Panic => Panic
      | Ret (a, r) => Ret (mkPke r (fst (hashSs g NewShake128 ss)), (encodePub a, xor_list pt (shake128 ss 16) ++ repeat 0 48))
      end
    end.
Proof.
  intros g c pk pt (Hb & HH) Hp [Hm Lm]. unfold pkeEnc. destruct (generatePrivateKey (pRng c)) as [[err sk] r] eqn:EG.
  pose proof (genPriv_bytes _ _ _ _ Hb EG) as Hr. fold zero64. destruct (deriveSecret zero64 pk sk r) as [[[ok ss] r1]|] eqn:ED; [|reflexivity].
  destruct (derive_ok _ _ _ _ _ _ _ Hp Hr zero64_ok ED) as (Hs & Hr1 & _). rewrite (reset_shake128 _ HH).
  destruct (hashSs_new g ss Hs) as (h & EH & HA). rewrite EH. destruct (generatePublicKey sk r1) as [[a r2]|] eqn:EP; [|reflexivity].
  destruct (genPub_ok _ _ _ _ Hr1 EP) as (_ & Hr2 & X). rewrite (X zero64 (repeat_length _ _)). cbn [snd fst].
  unfold zero64. rewrite xor16_ok by (try apply H128_length; try exact Hs; lia). rewrite (firstn_all2 pt) by lia. reflexivity.
Qed.
(* Encryption under a fresh CSIDH key sk: the ciphertext is sk's public key and the message masked with SHAKE128 of
   the secret, padded with zeros.  It panics only when the random source fails. *)
Theorem C56_enc : forall g c pk pt, pkeOk c -> fp_ok pk -> isMsg pt ->
  match generatePrivateKey (pRng c) with (_, sk, r) =>
  match deriveSecret zero64 pk sk r with
  | Panic => pkeEnc g (Some c) pk pt = Panic
  | Ret (_, ss, r) =>
    match generatePublicKey sk r with
    | Panic => pkeEnc g (Some c) pk pt = Panic
    | Ret (a, r) => exists c', pkeEnc g (Some c) pk pt = Ret (c', (le_enc 64 (val a), xor_list pt (shake128 ss 16) ++ repeat 0 48)) /\ pkeOk c' /\ pRng c' = r
    end
  end end.
Proof.
  intros g c pk pt Hc Hp Hm. rewrite (enc_run g c pk pt Hc Hp Hm). destruct Hc as [Hb HH].
  destruct (generatePrivateKey (pRng c)) as [[err sk] r] eqn:EG. pose proof (genPriv_bytes _ _ _ _ Hb EG) as Hr.
  destruct (deriveSecret zero64 pk sk r) as [[[ok ss] r1]|] eqn:ED; [|reflexivity]. destruct (derive_ok _ _ _ _ _ _ _ Hp Hr zero64_ok ED) as (Hs & Hr1 & _).
  destruct (generatePublicKey sk r1) as [[a r2]|] eqn:EP; [|reflexivity]. destruct (genPub_ok _ _ _ _ Hr1 EP) as (_ & Hr2 & _).
  eexists. split; [reflexivity|]. split; [|reflexivity]. split; [exact Hr2|]. cbn [pH]. destruct (hashSs_new g ss Hs) as (h & EH & HA). rewrite EH. exact (hashAt_shake _ _ _ HA).
Qed.
Print Assumptions C56_enc.
Theorem C56_dec : forall g c sk U V, pkeOk c -> is64 U -> is64 V ->
  match deriveSecret zero64 (decodePub U) sk (pRng c) with
  | Panic => pkeDec g (Some c) sk U V = Panic
  | Ret (_, ss, r) => exists c', pkeDec g (Some c) sk U V = Ret (c', xor_list (firstn 16 V) (shake128 ss 16)) /\ pkeOk c' /\ pRng c' = r
  end.
Proof.
  intros g c sk U V (Hb & HH) HU [HV LV]. unfold pkeDec. destruct (import_decode U HU) as [EI HI]. rewrite EI. cbn [snd]. fold zero64.
  destruct (deriveSecret zero64 (decodePub U) sk (pRng c)) as [[[ok ss] r1]|] eqn:ED; [|reflexivity].
  destruct (derive_ok _ _ _ _ _ _ _ HI Hb zero64_ok ED) as (Hs & Hr1 & _).
  rewrite (reset_shake128 _ HH). destruct (hashSs_new g ss Hs) as (h & EH & HA). rewrite EH.
  rewrite xor16_ok by (try apply H128_length; try exact Hs; lia). change (skipn 16 (repeat 0 16)) with (@nil Z). rewrite app_nil_r.
  eexists. split; [reflexivity|]. split; [|reflexivity]. split; [exact Hr1|exact (hashAt_shake _ _ _ HA)].
Qed.
Print Assumptions C56_dec.
(* xor with a mask of the same length is injective in the mask *)
Lemma xor_mask_inj : forall m k1 k2, length k1 = length m -> length k2 = length m -> xor_list (xor_list m k1) k2 = m <-> k1 = k2.
Proof.
  intros m k1 k2 L1 L2. split; [|intros <-; apply xor_cancel, L1]. revert k1 k2 L1 L2.
  induction m as [|x m IH]; intros [|y k1] [|z k2] L1 L2 H; try discriminate L1; try discriminate L2; [reflexivity|].
  cbn [xor_list] in H. injection H as H1 H2. injection L1 as L1. injection L2 as L2. f_equal; [|exact (IH k1 k2 L1 L2 H2)].
  apply Z.lxor_eq. rewrite Z.lxor_assoc in H1. apply (f_equal (Z.lxor x)) in H1. rewrite <- Z.lxor_assoc, Z.lxor_nilpotent, Z.lxor_0_l in H1. exact H1.
Qed.
Lemma take_entry : forall (x t : list Z), length x = 16%nat -> firstn 16 (x ++ t) = x.
Proof. intros x t L. apply firstn_prefix, L. Qed.
Lemma xor16_length : forall m k, length m = 16%nat -> length k = 16%nat -> length (xor_list m k) = 16%nat.
Proof. intros. rewrite xor_list_length. lia. Qed.
Lemma xor_list_bytes : forall a b, bytes a -> bytes b -> bytes (xor_list a b).
Proof.
  induction a as [|x a IH]; intros [|y b] Ha Hb; try constructor.
  - inversion Ha as [|? ? Hx]; inversion Hb as [|? ? Hy]; subst. unfold is_byte in *. split; [apply Z.lxor_nonneg; lia|].
    destruct (Z.eq_dec (Z.lxor x y) 0) as [->|N]; [lia|]. assert (0 <= Z.lxor x y) by (apply Z.lxor_nonneg; lia).
    change 256 with (2 ^ 8). apply Z.log2_lt_pow2; [lia|]. eapply Z.le_lt_trans; [apply Z.log2_lxor; lia|].
    apply Z.max_lub_lt; (destruct (Z.eq_dec x 0) as [->|]; [|]; destruct (Z.eq_dec y 0) as [->|]; try reflexivity; apply Z.log2_lt_pow2; lia).
  - inversion Ha; inversion Hb; subst. apply IH; assumption.
Qed.
Lemma entry_64 : forall m k, isMsg m -> bytes k -> length k = 16%nat -> is64 (xor_list m k ++ repeat 0 48).
Proof.
  intros m k [Hm Lm] Hk Lk. split; [apply bytes_app; [apply xor_list_bytes; assumption|apply Forall_repeat; unfold is_byte; lia]|].
  rewrite app_length, xor16_length, repeat_length by assumption. reflexivity.
Qed.
(* The receiver decodes the sender's ephemeral public key exactly, and gets the message if and only if its mask is the
   sender's; in particular when both derive the same secret. *)
Theorem C56_roundtrip : forall g c pk pt c' U V, pkeOk c -> fp_ok pk -> isMsg pt -> pkeEnc g (Some c) pk pt = Ret (c', (U, V)) ->
  exists err skA r1 ok ss r2 a r3,
    generatePrivateKey (pRng c) = (err, skA, r1) /\ deriveSecret zero64 pk skA r1 = Ret (ok, ss, r2) /\ generatePublicKey skA r2 = Ret (a, r3) /\
    decodePub U = a /\ is64 U /\ is64 V /\
    forall g' d sk ok' ss' r', pkeOk d -> deriveSecret zero64 a sk (pRng d) = Ret (ok', ss', r') ->
      exists d' m, pkeDec g' (Some d) sk U V = Ret (d', m) /\ (ss' = ss -> m = pt) /\ (m = pt <-> shake128 ss' 16 = shake128 ss 16).
Proof.
  intros g c pk pt c' U V Hc Hp Hm H. rewrite (enc_run g c pk pt Hc Hp Hm) in H.
  destruct (generatePrivateKey (pRng c)) as [[err sk] r] eqn:EG. pose proof (genPriv_bytes _ _ _ _ (proj1 Hc) EG) as Hr.
  destruct (deriveSecret zero64 pk sk r) as [[[ok ss] r1]|] eqn:ED; [|discriminate]. destruct (derive_ok _ _ _ _ _ _ _ Hp Hr zero64_ok ED) as (Hs & Hr1 & _).
  destruct (generatePublicKey sk r1) as [[a r2]|] eqn:EP; [|discriminate]. destruct (genPub_ok _ _ _ _ Hr1 EP) as (Ra & Hr2 & _).
  injection H as _ <- <-. exists err, sk, r, ok, ss, r1, a, r2.
  assert (L : length (shake128 ss 16) = 16%nat) by apply (H128_length ss Hs).
  assert (HU : is64 (encodePub a)) by (split; [apply le_enc_bytes|apply le_enc_length]).
  assert (HV : is64 (xor_list pt (shake128 ss 16) ++ repeat 0 48)) by (apply entry_64; [exact Hm|apply shake128_bytes|exact L]).
  split; [reflexivity|]. split; [exact ED|]. split; [exact EP|]. split; [exact (decode_encode a (proj1 Ra))|]. split; [exact HU|]. split; [exact HV|].
  intros g' d sk' ok' ss' r' Hd ED'. pose proof (C56_dec g' d sk' _ _ Hd HU HV) as D. rewrite (decode_encode a (proj1 Ra)), ED' in D.
  destruct D as (d' & E & _). exists d', (xor_list (xor_list pt (shake128 ss 16)) (shake128 ss' 16)).
  destruct (derive_ok _ _ _ _ _ _ _ (proj1 Ra) (proj1 Hd) zero64_ok ED') as (Hs' & _). pose proof (H128_length ss' Hs') as L'. unfold H128 in L'.
  rewrite take_entry in E by (apply xor16_length; [apply Hm|exact L]). split; [exact E|]. destruct Hm as [_ Lm].
  split; [intros ->; apply xor_cancel; lia|]. rewrite xor_mask_inj by lia. split; intros X; symmetry; exact X.
Qed.
Print Assumptions C56_roundtrip.
(* The same in terms of the group action.  The premise is commutativity: whatever the random draws, acting with skA on
   sk's public key and with sk on skA's public key gives the same curve. *)
Definition commute (skA sk : list Z) : Prop := forall q a ra q' b rb t s rs t' s' rs', bytes q -> bytes q' -> bytes t -> bytes t' ->
  generatePublicKey skA q = Ret (a, ra) -> generatePublicKey sk q' = Ret (b, rb) ->
  groupActionFp b skA t = Some (s, rs) -> groupActionFp a sk t' = Some (s', rs') -> s = s'.
Lemma validate_bytes : forall a rng ok r, bytes rng -> validate a rng = Ret (ok, r) -> bytes r.
Proof.
  intros a rng ok r Hb V. unfold validate in V. destruct (negb (isLess a p)); [injection V as _ <-; exact Hb|]. destruct (orb _ _); [injection V as _ <-; exact Hb|].
  destruct (validLoopFp (S (length rng)) a rng) as [[ok' r0]|] eqn:VL; [|discriminate]. injection V as -> ->.
  exact (validLoop_bytes _ _ _ _ _ Hb VL).
Qed.
Theorem C56_commute : forall g g' c d sk q pk rq pt c' U V skA r1 ss r2 ss' r', pkeOk c -> pkeOk d -> isMsg pt -> bytes q ->
  generatePublicKey sk q = Ret (pk, rq) -> pkeEnc g (Some c) pk pt = Ret (c', (U, V)) ->
  generatePrivateKey (pRng c) = (false, skA, r1) -> commute skA sk ->
  deriveSecret zero64 pk skA r1 = Ret (true, ss, r2) -> deriveSecret zero64 (decodePub U) sk (pRng d) = Ret (true, ss', r') ->
  exists d', pkeDec g' (Some d) sk U V = Ret (d', pt).
Proof.
  intros g g' c d sk q pk rq pt c' U V skA r1 ss r2 ss' r' Hc Hd Hm Hq EQ H EG HC ED ED'.
  destruct (genPub_ok _ _ _ _ Hq EQ) as (Rk & _ & _).
  destruct (C56_roundtrip g c pk pt c' U V Hc (proj1 Rk) Hm H) as (err & skA' & r1' & ok & s0 & r2' & a & r3 & E1 & E2 & E3 & EU & _ & _ & F).
  rewrite EG in E1. injection E1 as <- <- <-. rewrite ED in E2. injection E2 as <- <- <-. rewrite EU in ED'.
  destruct (F g' d sk _ _ _ Hd ED') as (d' & m & E & X & _). exists d'. rewrite E. rewrite X; [reflexivity|]. clear E X F.
  pose proof (genPriv_bytes _ _ _ _ (proj1 Hc) EG) as Hr1. destruct (derive_ok _ _ _ _ _ _ _ (proj1 Rk) Hr1 zero64_ok ED) as (_ & Hr2 & _).
  pose proof (C35_derive zero64 pk skA r1) as D1. rewrite ED in D1. destruct D1 as (v1 & V1 & s1 & G1 & ->).
  pose proof (C35_derive zero64 a sk (pRng d)) as D2. rewrite ED' in D2. destruct D2 as (v2 & V2 & s2 & G2 & ->).
  assert (s1 = s2) as ->; [|reflexivity].
  exact (HC r2 a r3 q pk rq v1 s1 r2 v2 s2 r' Hr2 Hq (validate_bytes _ _ _ _ Hr1 V1) (validate_bytes _ _ _ _ (proj1 Hd) V2) E3 EQ G1 G2).
Qed.
Print Assumptions C56_commute.
(* the premise is met by the trivial key on either side *)
Theorem C56_commute_zero : forall sk, commute zeroKey sk -> commute sk zeroKey.
Proof.
  intros sk H q a ra q' b rb t s rs t' s' rs' Hq Hq' Ht Ht' E1 E2 G1 G2. symmetry. exact (H q' b rb q a ra t' s' rs' t s rs Hq' Hq Ht' Ht E2 E1 G2 G1).
Qed.
Theorem C56_commute_trivial : commute zeroKey zeroKey.
Proof.
  intros q a ra q' b rb t s rs t' s' rs' _ _ _ _ E1 E2 G1 G2. rewrite (C67_public _ _ _ E1) in G2. rewrite (C67_public _ _ _ E2) in G1.
  rewrite (C67_identity _ _ _ _ (proj1 frep_zero) G1), (C67_identity _ _ _ _ (proj1 frep_zero) G2). reflexivity.
Qed.

(* ---------- C57 ---------- *)
(* A key that DeriveSecret refuses: the message is masked with SHAKE128 of 64 zero bytes, a public constant, and no error
   is reported; the call fails only if the random source does, in the later key generation. *)
Lemma mask0_length : length (shake128 (repeat 0 64) 16) = 16%nat.
Proof. apply shake128_length, Forall_repeat. unfold is_byte. lia. Qed.
Theorem C57_enc : forall g c pk pt skA err r, pkeOk c -> fp_ok pk -> isMsg pt -> generatePrivateKey (pRng c) = (err, skA, r) ->
  forall r1, validate pk r = Ret (false, r1) ->
  match generatePublicKey skA r1 with
  | Panic => pkeEnc g (Some c) pk pt = Panic
  | Ret (a, _) => exists c', pkeEnc g (Some c) pk pt = Ret (c', (le_enc 64 (val a), xor_list pt (shake128 (repeat 0 64) 16) ++ repeat 0 48))
  end.
Proof.
  intros g c pk pt skA err r Hc Hp Hm EG r1 V. pose proof (C56_enc g c pk pt Hc Hp Hm) as X. rewrite EG in X.
  assert (D : deriveSecret zero64 pk skA r = Ret (false, zero64, r1)) by (unfold deriveSecret; rewrite V; reflexivity). rewrite D in X.
  destruct (generatePublicKey skA r1) as [[a r2]|]; [|exact X]. destruct X as (c' & E & _). exists c'. exact E.
Qed.
Print Assumptions C57_enc.
(* every coefficient that is not reduced, and the two singular curves *)
Theorem C57_bad_keys : forall g c pk pt c' U V, pkeOk c -> fp_ok pk -> isMsg pt ->
  P <= val pk \/ val pk = (2 * 2 ^ 512) mod P \/ val pk = ((-2) * 2 ^ 512) mod P ->
  pkeEnc g (Some c) pk pt = Ret (c', (U, V)) ->
  (* anybody can read the message *)
  xor_list (firstn 16 V) (shake128 (repeat 0 64) 16) = pt.
Proof.
  intros g c pk pt c' U V Hc Hp Hm HB H. destruct (generatePrivateKey (pRng c)) as [[err sk] r] eqn:EG.
  pose proof (C57_enc g c pk pt sk err r Hc Hp Hm EG r (proj1 (C35_reject pk r Hp HB))) as X.
  destruct (generatePublicKey sk r) as [[a r2]|]; [|rewrite H in X; discriminate]. destruct X as (c1 & E). rewrite H in E. injection E as _ _ ->.
  clear HB. pose proof mask0_length as L. rewrite take_entry by (apply xor16_length; [apply Hm|exact L]).
  apply xor_cancel. destruct Hm as [_ Lm]. lia.
Qed.
Print Assumptions C57_bad_keys.
(* Decryption of a ciphertext with a refused key part does not use the secret key: anybody can make every object output
   any chosen message. *)
Theorem C57_dec : forall g c sk U m, pkeOk c -> is64 U -> isMsg m ->
  P <= le_dec U \/ le_dec U = (2 * 2 ^ 512) mod P \/ le_dec U = ((-2) * 2 ^ 512) mod P ->
  exists c', pkeDec g (Some c) sk U (xor_list m (shake128 (repeat 0 64) 16) ++ repeat 0 48) = Ret (c', m).
Proof.
  intros g c sk U m Hc HU Hm HB. pose proof mask0_length as L.
  assert (HV : is64 (xor_list m (shake128 (repeat 0 64) 16) ++ repeat 0 48)) by (apply entry_64; [exact Hm|apply shake128_bytes|exact L]).
  pose proof (C56_dec g c sk U _ Hc HU HV) as X. destruct (import_decode U HU) as [_ HI].
  assert (V : val (decodePub U) = le_dec U).
  { unfold decodePub. rewrite limbs_val. apply Z.mod_small. destruct HU as [Hb LU]. pose proof (le_dec_bound U Hb) as W. rewrite LU in W. exact W. }
  rewrite <- V in HB. destruct (C35_reject (decodePub U) (pRng c) HI HB) as [_ R]. rewrite R in X. clear HB R V. destruct X as (c' & E & _). exists c'. rewrite E.
  rewrite take_entry by (apply xor16_length; [apply Hm|exact L]). change zero64 with (repeat 0 64). rewrite xor_cancel by (destruct Hm as [_ Lm]; lia). reflexivity.
Qed.
Print Assumptions C57_dec.

(* ---------- C58 ---------- *)
(* Any history of Enc, Dec and Encrypt on one object, from Allocate on: what is returned, and Ct0 and Cts after every
   Encrypt, are those of the ideal object of CPKE_Spec, in which Encrypt's first mask depends on the call before. *)
Lemma history_from : forall g ops c x, absAt g c x -> Forall opOk ops -> mpkeRun g c ops = idealRun x ops.
Proof.
  intros g. induction ops as [|o ops IH]; intros c x HA HO; [reflexivity|]. inversion HO as [|? ? Ho HO']; subst.
  destruct o as [pk pt|sk U V|keys pt]; cbn [mpkeRun idealRun]; cbn [opOk] in Ho.
  - pose proof (enc_ideal g c x pk pt HA (proj1 Ho) (proj2 Ho)) as X. destruct (idealEnc x pk pt) as [[x' [U V]]|]; [|rewrite X; reflexivity].
    destruct X as (c' & E & HA'). rewrite E, (IH c' x' HA' HO'). reflexivity.
  - pose proof (dec_ideal g c x sk U V HA (proj1 (proj2 Ho)) (proj2 (proj2 Ho))) as X. destruct (idealDec x sk U V) as [[x' m]|]; [|rewrite X; reflexivity].
    destruct X as (c' & E & HA'). rewrite E, (IH c' x' HA' HO'). reflexivity.
  - pose proof (encrypt_ideal g c x keys pt HA (proj1 Ho) (proj2 Ho)) as X. destruct (idealEncrypt x keys pt) as [x'|]; [|rewrite X; reflexivity].
    destruct X as (c' & E & HA'). rewrite E, (IH c' x' HA' HO'). destruct HA' as (_ & _ & _ & E0 & _ & EC). rewrite E0, EC. reflexivity.
Qed.
Theorem C58_history : forall g n rng ct0 ops, bytes rng -> length ct0 = 64%nat -> Forall opOk ops ->
  mpkeRun g (mpkeAllocate n rng ct0) ops = idealRun (mkIdeal rng None ct0 (repeat (repeat 0 64) (Z.to_nat n))) ops.
Proof.
  intros g n rng ct0 ops Hb L0 HO. apply history_from; [|exact HO]. exact (conj eq_refl (conj Hb (conj eq_refl (conj eq_refl (conj L0 eq_refl))))).
Qed.
Print Assumptions C58_history.

(* the state of the hash object between calls *)
Definition clean (c : mpke) : Prop := bytes (pRng (mP c)) /\ length (mCt0 c) = 64%nat /\ pH (mP c) = NewShake128.
Definition stale (g : bool) (c : mpke) (q : list Z) : Prop := bytes (pRng (mP c)) /\ length (mCt0 c) = 64%nat /\ hashAt g (pH (mP c)) (Some q).
Definition absOf (c : mpke) (prev : option (list Z)) : ideal := mkIdeal (pRng (mP c)) prev (mCt0 c) (mCts c).
Lemma clean_abs : forall g c, clean c -> absAt g c (absOf c None).
Proof. intros g c (A & B' & C). exact (conj eq_refl (conj A (conj C (conj eq_refl (conj B' eq_refl))))). Qed.
Lemma stale_abs : forall g c q, stale g c q -> absAt g c (absOf c (Some q)).
Proof. intros g c q (A & B' & C). exact (conj eq_refl (conj A (conj C (conj eq_refl (conj B' eq_refl))))). Qed.
Lemma abs_clean : forall g c x, absAt g c x -> xPrev x = None -> clean c.
Proof. intros g c x (A & B' & C & D & E & F) H. rewrite H in C. split; [rewrite A; exact B'|]. split; [exact E|exact C]. Qed.
Lemma abs_stale : forall g c x q, absAt g c x -> xPrev x = Some q -> stale g c q.
Proof. intros g c x q (A & B' & C & D & E & F) H. rewrite H in C. split; [rewrite A; exact B'|]. split; [exact E|exact C]. Qed.

Theorem C58_allocated : forall n rng ct0, bytes rng -> length ct0 = 64%nat -> clean (mpkeAllocate n rng ct0).
Proof. intros n rng ct0 H L. exact (conj H (conj L eq_refl)). Qed.
(* Encrypt to at least one recipient leaves the object clean, whatever state it was in *)
Theorem C58_clean_after : forall g c keys pt c', clean c \/ (exists q, stale g c q) -> keys <> [] -> Forall fp_ok keys -> isMsg pt ->
  mpkeEncrypt g (Some c) keys pt = Ret c' -> clean c'.
Proof.
  intros g c keys pt c' HS HN Hk Hm H. assert (X : exists prev, absAt g c (absOf c prev)).
  { destruct HS as [HS|[q HS]]; [exists None; exact (clean_abs g c HS)|exists (Some q); exact (stale_abs g c q HS)]. }
  destruct X as [prev HA]. pose proof (encrypt_ideal g c _ keys pt HA Hk Hm) as X. destruct (idealEncrypt (absOf c prev) keys pt) as [x'|] eqn:E; [|rewrite H in X; discriminate].
  destruct X as (c1 & E1 & HA'). rewrite H in E1. injection E1 as <-. apply (abs_clean g c' x' HA'). unfold idealEncrypt in E.
  destruct (generatePrivateKey _) as [[err sk] r]. destruct (idealEntries _ _ _ _ _ _ _) as [[r1 cts]|]; [|discriminate]. destruct (generatePublicKey sk r1) as [[a r2]|]; [|discriminate].
  injection E as <-. destruct keys; [contradiction|reflexivity].
Qed.
Print Assumptions C58_clean_after.
(* Enc and Dec leave it stale *)
Theorem C58_stale_after : forall g c, clean c \/ (exists q, stale g c q) ->
  (forall pk pt c' ct, fp_ok pk -> isMsg pt -> mpkeEnc g c pk pt = Ret (c', ct) ->
     exists q, stale g c' q /\ exists err sk r ok r', generatePrivateKey (pRng (mP c)) = (err, sk, r) /\ deriveSecret zero64 pk sk r = Ret (ok, q, r')) /\
  (forall sk U V c' m, is64 U -> is64 V -> mpkeDec g c sk U V = Ret (c', m) ->
     exists q, stale g c' q /\ exists ok r', deriveSecret zero64 (decodePub U) sk (pRng (mP c)) = Ret (ok, q, r')).
Proof.
  intros g c HS. assert (X : exists prev, absAt g c (absOf c prev)).
  { destruct HS as [HS|[q HS]]; [exists None; exact (clean_abs g c HS)|exists (Some q); exact (stale_abs g c q HS)]. }
  destruct X as [prev HA]. split.
  - intros pk pt c' ct Hp Hm H. pose proof (enc_ideal g c _ pk pt HA Hp Hm) as X. unfold idealEnc in X. cbn [absOf xRng] in X.
    destruct (generatePrivateKey (pRng (mP c))) as [[err sk] r] eqn:EG. destruct (deriveSecret zero64 pk sk r) as [[[ok ss] r1]|] eqn:ED; [|rewrite H in X; discriminate].
    destruct (generatePublicKey sk r1) as [[a r2]|]; [|rewrite H in X; discriminate]. destruct X as (c1 & E1 & HA'). rewrite H in E1. injection E1 as <- _.
    exists ss. split; [exact (abs_stale g c' _ ss HA' eq_refl)|]. exists err, sk, r, ok, r1. split; [reflexivity|exact ED].
  - intros sk U V c' m HU HV H. pose proof (dec_ideal g c _ sk U V HA HU HV) as X. unfold idealDec in X. cbn [absOf xRng] in X.
    destruct (deriveSecret zero64 (decodePub U) sk (pRng (mP c))) as [[[ok ss] r1]|] eqn:ED; [|rewrite H in X; discriminate].
    destruct X as (c1 & E1 & HA'). rewrite H in E1. injection E1 as <- _. exists ss. split; [exact (abs_stale g c' _ ss HA' eq_refl)|]. exists ok, r1. reflexivity.
Qed.
Print Assumptions C58_stale_after.

(* The secrets shared with a list of recipients, derived one after the other from one random source. *)
Fixpoint secrets (sk r : list Z) (keys : list (list Z)) : res (list (list Z) * list Z) :=
  match keys with
  | [] => Ret ([], r)
  | pk :: keys =>
    match deriveSecret zero64 pk sk r with
    | Ret (true, ss, r) => match secrets sk r keys with Panic => Panic | Ret (l, r) => Ret (ss :: l, r) end
    | _ => Panic
    end
  end.
Lemma derive_indep : forall out a e rng ss r, is64 out -> fp_ok a -> bytes rng -> deriveSecret zero64 a e rng = Ret (true, ss, r) -> deriveSecret out a e rng = Ret (true, ss, r).
Proof.
  intros out a e rng ss r [Ho Lo] Ha Hb H. unfold deriveSecret in *. destruct (validate a rng) as [[ok r0]|] eqn:V; [|discriminate]. destruct ok; [|discriminate].
  destruct (groupActionFp a e r0) as [[s r1]|] eqn:G; [|discriminate]. unfold pubExport in *. rewrite Lo. exact H.
Qed.
Definition maskOf (prev : option (list Z)) (ss : list Z) : list Z := match prev with None => shake128 ss 16 | Some q => skipn 16 (shake128 q 32) end.
Lemma entries_secrets : forall keys ss sk r pt prev cts l r', is64 ss -> Forall fp_ok keys -> bytes r -> match prev with Some q => is64 q | None => True end -> secrets sk r keys = Ret (l, r') -> (length keys <= length cts)%nat ->
  length l = length keys /\ Forall is64 l /\ bytes r' /\
  exists cts', idealEntries ss sk r pt prev cts keys = Ret (r', cts') /\ length cts' = length cts /\
    (forall i, (length keys <= i)%nat -> nth_error cts' i = nth_error cts i) /\
    forall i s, nth_error l i = Some s -> exists old, nth_error cts i = Some old /\
      nth_error cts' i = Some (xor_list pt (maskOf (match i with O => prev | _ => None end) s) ++ skipn 16 old).
Proof.
  induction keys as [|pk keys IH]; intros ss sk r pt prev cts l r' Hs Hk Hr HP H L; cbn [secrets idealEntries] in *.
  - injection H as <- <-. split; [reflexivity|]. split; [constructor|]. split; [exact Hr|]. exists cts. split; [reflexivity|]. split; [reflexivity|]. split; [intros; reflexivity|].
    intros [|i] s X; discriminate X.
  - inversion Hk as [|? ? Hp Hk']; subst. destruct (deriveSecret zero64 pk sk r) as [[[ok s1] r1]|] eqn:ED; [|discriminate]. destruct ok; [|discriminate].
    destruct (secrets sk r1 keys) as [[l1 r2]|] eqn:ES; [|discriminate]. injection H as <- <-.
    destruct (derive_ok _ _ _ _ _ _ _ Hp Hr zero64_ok ED) as (Hs1 & Hr1 & _). rewrite (derive_indep ss pk sk r s1 r1 Hs Hp Hr ED).
    destruct cts as [|ct cts]; [cbn [length] in L; lia|].
    set (mask := match prev with Some q => H128next q | None => H128 s1 end).
    assert (M : bytes mask /\ length mask = 16%nat).
    { destruct prev as [q|]; [split; [apply Forall_skipn, shake128_bytes|apply H128next_length, HP]|split; [apply shake128_bytes|apply H128_length, Hs1]]. }
    destruct (IH (mask ++ skipn 16 s1) sk r1 pt None cts l1 r2 (is64_mix _ _ (proj1 M) (proj2 M) Hs1) Hk' Hr1 I ES ltac:(cbn [length] in L; lia)) as (Ll & Fl & Br & cts' & E & Lc & Tail & Ent).
    split; [cbn [length]; lia|]. split; [constructor; assumption|]. split; [exact Br|]. rewrite E. exists ((xor_list pt mask ++ skipn 16 ct) :: cts'). split; [reflexivity|].
    split; [cbn [length]; lia|]. split.
    + intros [|i] Hi; [cbn [length] in Hi; lia|]. cbn [nth_error]. apply Tail. cbn [length] in Hi. lia.
    + intros [|i] s X; cbn [nth_error] in *.
      * injection X as <-. exists ct. split; [reflexivity|]. reflexivity.
      * destruct (Ent i s X) as (old & O1 & O2). exists old. split; [exact O1|]. rewrite O2. destruct i; reflexivity.
Qed.
Lemma encrypt_entries : forall g c prev keys pt err sk r l r1, absAt g c (absOf c prev) -> Forall fp_ok keys -> isMsg pt ->
  generatePrivateKey (pRng (mP c)) = (err, sk, r) -> secrets sk r keys = Ret (l, r1) -> (length keys <= length (mCts c))%nat ->
  match generatePublicKey sk r1 with
  | Panic => mpkeEncrypt g (Some c) keys pt = Panic
  | Ret (a, _) => exists c', mpkeEncrypt g (Some c) keys pt = Ret c' /\ mCt0 c' = encodePub a /\ length l = length keys /\ Forall is64 l /\ fp_red a /\
      (forall i, (length keys <= i)%nat -> nth_error (mCts c') i = nth_error (mCts c) i) /\
      forall i s, nth_error l i = Some s -> exists old, nth_error (mCts c) i = Some old /\
        nth_error (mCts c') i = Some (xor_list pt (maskOf (match i with O => prev | _ => None end) s) ++ skipn 16 old)
  end.
Proof.
  intros g c prev keys pt err sk r l r1 HA Hk Hm EG ES L. pose proof (encrypt_ideal g c _ keys pt HA Hk Hm) as X. unfold idealEncrypt in X. cbn [absOf xRng xPrev xCts] in X. rewrite EG in X.
  assert (Hb : bytes (pRng (mP c))) by (destruct HA as (_ & B' & _); exact B'). pose proof (genPriv_bytes _ _ _ _ Hb EG) as Hr.
  assert (HP : match prev with Some q => is64 q | None => True end) by (destruct HA as (_ & _ & C & _); destruct prev; [exact (proj1 C)|exact I]).
  destruct (entries_secrets keys zero64 sk r pt prev (mCts c) l r1 zero64_ok Hk Hr HP ES L) as (Ll & Fl & Br & cts' & E & Lc & Tail & Ent). rewrite E in X.
  destruct (generatePublicKey sk r1) as [[a r2]|] eqn:EP; [|exact X]. destruct X as (c' & E1 & HA'). exists c'. split; [exact E1|].
  destruct HA' as (_ & _ & _ & E0 & _ & EC). cbn [xCt0 xCts] in E0, EC. rewrite E0, EC. split; [reflexivity|]. split; [exact Ll|]. split; [exact Fl|].
  split; [exact (proj1 (genPub_ok _ _ _ _ Br EP))|]. split; [exact Tail|exact Ent].
Qed.
(* On a clean object every recipient's entry is the message masked with SHAKE128 of the shared secret; the remaining 48
   bytes of an entry, and entries beyond the recipients, keep what they held. *)
Theorem C58_clean : forall g c keys pt err sk r l r1 a r2, clean c -> Forall fp_ok keys -> isMsg pt ->
  generatePrivateKey (pRng (mP c)) = (err, sk, r) -> secrets sk r keys = Ret (l, r1) -> (length keys <= length (mCts c))%nat -> generatePublicKey sk r1 = Ret (a, r2) ->
  exists c', mpkeEncrypt g (Some c) keys pt = Ret c' /\ mCt0 c' = le_enc 64 (val a) /\ length l = length keys /\
    (forall i, (length keys <= i)%nat -> nth_error (mCts c') i = nth_error (mCts c) i) /\
    forall i s, nth_error l i = Some s -> exists old, nth_error (mCts c) i = Some old /\
      nth_error (mCts c') i = Some (xor_list pt (shake128 s 16) ++ skipn 16 old).
Proof.
  intros g c keys pt err sk r l r1 a r2 HC Hk Hm EG ES L EP. pose proof (encrypt_entries g c None keys pt err sk r l r1 (clean_abs g c HC) Hk Hm EG ES L) as X. rewrite EP in X.
  destruct X as (c' & E & E0 & Ll & _ & _ & T & N). exists c'. split; [exact E|]. split; [exact E0|]. split; [exact Ll|]. split; [exact T|].
  intros i s Hi. destruct (N i s Hi) as (old & O1 & O2). exists old. split; [exact O1|]. rewrite O2. destruct i; reflexivity.
Qed.
Print Assumptions C58_clean.
(* After Enc or Dec with secret q the first entry is masked with bytes 16 to 31 of SHAKE128(q) whoever the recipient is;
   the other entries are as on a clean object. *)
Theorem C58_stale : forall g c q keys pt err sk r l r1 a r2, stale g c q -> Forall fp_ok keys -> isMsg pt ->
  generatePrivateKey (pRng (mP c)) = (err, sk, r) -> secrets sk r keys = Ret (l, r1) -> (length keys <= length (mCts c))%nat -> generatePublicKey sk r1 = Ret (a, r2) ->
  exists c', mpkeEncrypt g (Some c) keys pt = Ret c' /\ mCt0 c' = le_enc 64 (val a) /\
    forall i s, nth_error l i = Some s -> exists old, nth_error (mCts c) i = Some old /\
      nth_error (mCts c') i = Some (xor_list pt (match i with O => skipn 16 (shake128 q 32) | _ => shake128 s 16 end) ++ skipn 16 old).
Proof.
  intros g c q keys pt err sk r l r1 a r2 HC Hk Hm EG ES L EP. pose proof (encrypt_entries g c (Some q) keys pt err sk r l r1 (stale_abs g c q HC) Hk Hm EG ES L) as X. rewrite EP in X.
  destruct X as (c' & E & E0 & Ll & _ & _ & T & N). exists c'. split; [exact E|]. split; [exact E0|].
  intros i s Hi. destruct (N i s Hi) as (old & O1 & O2). exists old. split; [exact O1|]. rewrite O2. destruct i; reflexivity.
Qed.
Print Assumptions C58_stale.
(* What a recipient decrypts from Ct0 and an entry of Cts. *)
Theorem C58_receive : forall g d sk a pt mask tail ok ss r, pkeOk d -> fp_ok a -> isMsg pt -> bytes mask -> length mask = 16%nat -> bytes tail -> length tail = 48%nat ->
  deriveSecret zero64 a sk (pRng d) = Ret (ok, ss, r) ->
  exists d' m, pkeDec g (Some d) sk (le_enc 64 (val a)) (xor_list pt mask ++ tail) = Ret (d', m) /\ (m = pt <-> mask = shake128 ss 16).
Proof.
  intros g d sk a pt mask tail ok ss r Hd Ha Hm Hk Lk Ht Lt ED. destruct (derive_ok _ _ _ _ _ _ _ Ha (proj1 Hd) zero64_ok ED) as (Hs & _). pose proof (H128_length ss Hs) as L. unfold H128 in L.
  assert (HU : is64 (encodePub a)) by (split; [apply le_enc_bytes|apply le_enc_length]).
  assert (HV : is64 (xor_list pt mask ++ tail)).
  { split; [apply bytes_app; [apply xor_list_bytes; [apply Hm|exact Hk]|exact Ht]|]. rewrite app_length, xor16_length by (try apply Hm; assumption). lia. }
  pose proof (C56_dec g d sk _ _ Hd HU HV) as D. rewrite (decode_encode a Ha), ED in D. destruct D as (d' & E & _).
  rewrite take_entry in E by (apply xor16_length; [apply Hm|exact Lk]). exists d'. eexists. split; [exact E|]. apply xor_mask_inj; destruct Hm; lia.
Qed.
Print Assumptions C58_receive.
(* More keys than Allocate made room for: panic, after the first entries were written. *)
Theorem C58_too_many : forall g c keys pt, clean c \/ (exists q, stale g c q) -> Forall fp_ok keys -> isMsg pt -> (length (mCts c) < length keys)%nat -> mpkeEncrypt g (Some c) keys pt = Panic.
Proof.
  intros g c keys pt HS Hk Hm L. assert (Y : exists prev, absAt g c (absOf c prev)).
  { destruct HS as [HS|[q HS]]; [exists None; exact (clean_abs g c HS)|exists (Some q); exact (stale_abs g c q HS)]. }
  destruct Y as [prev HA]. pose proof (encrypt_ideal g c _ keys pt HA Hk Hm) as X. unfold idealEncrypt in X. cbn [absOf xRng xPrev xCts] in X.
  destruct (generatePrivateKey (pRng (mP c))) as [[err sk] r].
  assert (E : forall keys ss r prev cts, (length cts < length keys)%nat -> idealEntries ss sk r pt prev cts keys = Panic).
  { clear. induction keys as [|pk keys IH]; intros ss r prev cts L; [cbn [length] in L; lia|]. cbn [idealEntries].
    destruct (deriveSecret ss pk sk r) as [[[ok s1] r1]|]; [|reflexivity]. destruct cts as [|ct cts]; [reflexivity|]. rewrite IH; [reflexivity|cbn [length] in L; lia]. }
  rewrite E in X by exact L. exact X.
Qed.
Print Assumptions C58_too_many.
(* A refused key in Encrypt.  In first place on a clean object: the mask is the public constant again.  Later: the mask is
   SHAKE128 of the array the previous recipient left behind, which that recipient can compute. *)
Theorem C57_multi : forall sk r pt pk keys cts ss r1 r' cts', is64 ss -> fp_ok pk -> validate pk r = Ret (false, r1) ->
  idealEntries ss sk r pt None cts (pk :: keys) = Ret (r', cts') ->
  exists ct rest, cts = ct :: rest /\ nth_error cts' 0 = Some (xor_list pt (shake128 ss 16) ++ skipn 16 ct).
Proof.
  intros sk r pt pk keys cts ss r1 r' cts' Hs Hp V H. cbn [idealEntries] in H. assert (D : deriveSecret ss pk sk r = Ret (false, ss, r1)) by (unfold deriveSecret; rewrite V; reflexivity).
  rewrite D in H. destruct cts as [|ct cts]; [discriminate|]. destruct (idealEntries _ _ _ _ _ _ _) as [[r2 c2]|]; [|discriminate]. injection H as _ <-. exists ct, cts. split; reflexivity.
Qed.
Print Assumptions C57_multi.
Theorem C57_multi_first : forall g c pk keys pt c' err sk r, clean c -> Forall fp_ok (pk :: keys) -> isMsg pt ->
  P <= val pk \/ val pk = (2 * 2 ^ 512) mod P \/ val pk = ((-2) * 2 ^ 512) mod P ->
  generatePrivateKey (pRng (mP c)) = (err, sk, r) -> mpkeEncrypt g (Some c) (pk :: keys) pt = Ret c' ->
  exists e, nth_error (mCts c') 0 = Some e /\ xor_list (firstn 16 e) (shake128 (repeat 0 64) 16) = pt.
Proof.
  intros g c pk keys pt c' err sk r HC Hk Hm HB EG H. pose proof (encrypt_ideal g c _ (pk :: keys) pt (clean_abs g c HC) Hk Hm) as X.
  unfold idealEncrypt in X. cbn [absOf xRng xPrev xCts] in X. rewrite EG in X. inversion Hk as [|? ? Hp _]; subst.
  destruct (idealEntries zero64 sk r pt None (mCts c) (pk :: keys)) as [[r1 cts']|] eqn:EI; [|rewrite H in X; discriminate].
  destruct (C57_multi sk r pt pk keys (mCts c) zero64 r r1 cts' zero64_ok Hp (proj1 (C35_reject pk r Hp HB)) EI) as (ct & rest & _ & N).
  destruct (generatePublicKey sk r1) as [[a r2]|]; [|rewrite H in X; discriminate]. destruct X as (c1 & E1 & HA'). rewrite H in E1. injection E1 as <-.
  destruct HA' as (_ & _ & _ & _ & _ & EC). cbn [xCts] in EC. rewrite EC. eexists. split; [exact N|]. clear HB.
  pose proof mask0_length as L. rewrite take_entry by (apply xor16_length; [apply Hm|exact L]). apply xor_cancel. destruct Hm as [_ Lm]. lia.
Qed.
Print Assumptions C57_multi_first.

(* ---------- a concrete history ---------- *)
Definition ex_seed : list Z := repeat 0 128 ++ drawBytes ex_x4 ++ drawBytes ex_xm4.
Definition ex_pt : list Z := map Z.of_nat (seq 1 16).
Lemma ex_seed_bytes : bytes ex_seed.
Proof. apply bytes_app; [apply Forall_repeat; unfold is_byte; lia|apply bytes_app; apply le_enc_bytes]. Qed.
Lemma ex_pt_ok : isMsg ex_pt.
Proof. split; [|reflexivity]. apply Forall_forall. intros x Hx. unfold ex_pt in Hx. apply in_map_iff in Hx. destruct Hx as (i & <- & Hi). apply in_seq in Hi. unfold is_byte. lia. Qed.
Lemma ex_priv : forall r, generatePrivateKey (repeat 0 128 ++ r) = (false, zeroKey, r).
Proof.
  intros r. unfold generatePrivateKey. rewrite app_length, repeat_length. change (128 + length r)%nat with (S (S (S (125 + length r)))). cbn [genLoop].
  change (0 <? primeCount)%nat with true. cbv iota. unfold readFull64 at 1. rewrite app_length, repeat_length. replace (128 + length r <? 64)%nat with false by (symmetry; apply Nat.ltb_ge; lia).
  rewrite firstn_app, skipn_app, repeat_length. change (64 - 128)%nat with 0%nat. rewrite firstn_O, skipn_O, app_nil_r.
  change (firstn 64 (repeat 0 128)) with (repeat 0 64). change (skipn 64 (repeat 0 128)) with (repeat 0 64).
  assert (E1 : genBuf (repeat 0 64) 0 (repeat 0 PrivateKeySize) = (64%nat, repeat 0 37)) by (vm_compute; reflexivity). rewrite E1.
  change (64 <? primeCount)%nat with true. cbv iota. unfold readFull64 at 1. rewrite app_length, repeat_length. replace (64 + length r <? 64)%nat with false by (symmetry; apply Nat.ltb_ge; lia).
  rewrite firstn_app, skipn_app, repeat_length, Nat.sub_diag, firstn_O, skipn_O, app_nil_r. change (firstn 64 (repeat 0 64)) with (repeat 0 64). change (skipn 64 (repeat 0 64)) with (@nil Z).
  assert (E2 : genBuf (repeat 0 64) 64 (repeat 0 37) = (74%nat, repeat 0 37)) by (vm_compute; reflexivity). rewrite E2. reflexivity.
Qed.
(* Enc to the refused key p, then Encrypt to it *)
Definition ex_ops : list op := [OEnc p ex_pt; OEncrypt [p] ex_pt].
Example ex_ops_ok : Forall opOk ex_ops.
Proof.
  constructor; [exact (conj p_ok ex_pt_ok)|]. constructor; [|constructor]. split; [constructor; [exact p_ok|constructor]|exact ex_pt_ok].
Qed.
Definition ex_U : list Z := repeat 0 64.
Lemma ex_run_ideal : forall ct0, idealRun (mkIdeal (ex_seed ++ ex_seed) None ct0 [repeat 0 64]) ex_ops =
  [SCt ex_U (xor_list ex_pt (shake128 (repeat 0 64) 16) ++ repeat 0 48); SMulti ex_U [xor_list ex_pt (skipn 16 (shake128 (repeat 0 64) 32)) ++ repeat 0 48]].
Proof.
  intros ct0. unfold ex_ops. cbn [idealRun]. unfold idealEnc. cbn [xRng]. unfold ex_seed at 1. rewrite <- app_assoc, ex_priv.
  assert (R : forall out e r, deriveSecret out p e r = Ret (false, out, r)) by (intros out e r; apply (C35_reject p r p_ok (or_introl (Z.le_refl _)))).
  rewrite R, <- app_assoc, ex_C67. cbn [idealRun]. unfold idealEncrypt. cbn [xRng xPrev xCts xCt0]. unfold ex_seed at 1. rewrite ex_priv.
  cbn [idealEntries]. rewrite R. rewrite <- (app_nil_r (drawBytes ex_x4 ++ drawBytes ex_xm4)), <- app_assoc, ex_C67. cbn [xCt0 xCts].
  assert (EU : encodePub (repeat 0 8) = ex_U) by (vm_compute; reflexivity). rewrite EU. reflexivity.
Qed.
Example ex_run : mpkeRun true (mpkeAllocate 1 (ex_seed ++ ex_seed) (repeat 0 64)) ex_ops =
  [SCt ex_U (xor_list ex_pt (shake128 (repeat 0 64) 16) ++ repeat 0 48); SMulti ex_U [xor_list ex_pt (skipn 16 (shake128 (repeat 0 64) 32)) ++ repeat 0 48]].
Proof.
  rewrite (C58_history true 1 (ex_seed ++ ex_seed) (repeat 0 64) ex_ops (bytes_app _ _ ex_seed_bytes ex_seed_bytes) (repeat_length _ _) ex_ops_ok). apply ex_run_ideal.
Qed.
(* Encrypt is not history independent: the same object state apart from the hash gives a different entry. *)
Theorem C58_history_independent_refuted : exists n rng ct0 ops1 ops2 e1 e2 ct, bytes rng /\ Forall opOk ops1 /\ Forall opOk ops2 /\
  mpkeRun true (mpkeAllocate n rng ct0) (ops1 ++ [OEncrypt [p] ex_pt]) = [ct; SMulti ex_U [e1]] /\
  mpkeRun true (mpkeAllocate n rng ct0) ops2 = [SMulti ex_U [e2]] /\ ops2 = [OEncrypt [p] ex_pt] /\ e1 <> e2.
Proof.
  exists 1, (ex_seed ++ ex_seed), (repeat 0 64), [OEnc p ex_pt], [OEncrypt [p] ex_pt], (xor_list ex_pt (skipn 16 (shake128 (repeat 0 64) 32)) ++ repeat 0 48),
    (xor_list ex_pt (shake128 (repeat 0 64) 16) ++ repeat 0 48). eexists.
  split; [exact (bytes_app _ _ ex_seed_bytes ex_seed_bytes)|]. pose proof ex_ops_ok as HO. inversion HO as [|? ? H1 H2]; subst.
  split; [constructor; [exact H1|constructor]|]. split; [exact H2|]. split; [exact ex_run|]. split; [|split; [reflexivity|]].
  - rewrite (C58_history true 1 (ex_seed ++ ex_seed) (repeat 0 64) _ (bytes_app _ _ ex_seed_bytes ex_seed_bytes) (repeat_length _ _) H2).
    change (repeat (repeat 0 64) (Z.to_nat 1)) with [repeat 0 64]. cbn [idealRun]. unfold idealEncrypt. cbn [xRng xPrev xCts xCt0]. unfold ex_seed at 1. rewrite <- app_assoc, ex_priv. cbn [idealEntries].
    assert (R : forall out e r, deriveSecret out p e r = Ret (false, out, r)) by (intros out e r; apply (C35_reject p r p_ok (or_introl (Z.le_refl _)))).
    rewrite R. rewrite <- (app_assoc (drawBytes ex_x4) (drawBytes ex_xm4) ex_seed). rewrite ex_C67. cbn [xCt0 xCts]. assert (EU : encodePub (repeat 0 8) = ex_U) by (vm_compute; reflexivity). rewrite EU. reflexivity.
  - intros E. apply (f_equal (fun l => nth 0 l 0)) in E. revert E. vm_compute. discriminate.
Qed.
Print Assumptions C58_history_independent_refuted.
