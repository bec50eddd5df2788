(* C50-C53, C66: the SIKE key encapsulation of dh/sidh/sike.go (and its copy in kem/mkem/sike.go). *)
From Coq Require Import ZArith List Lia Bool.
From Verif Require Import Lib Sha3_Spec Sha3_Iface Sha3_Model Sha3_Client.
From Verif Require Import MP Instr SIDH_Consts SIDH_Field SIDH_FieldProofs SIDH_Inst SIDH_Curve SIDH_Line SIDH_Traverse SIDH_Bytes P_SIDH_Field SIDH_Final SIDH_Api SIDH_ApiProofs P_SIDH_Api SIKE_Model SIKE_Spec SIKE_Proofs.
Import ListNotations.
Open Scope Z_scope.

(* ---------- the key agreement seen by SIKE ---------- *)
(* pub has the coordinates of prv's public key (it may be stored unreduced) *)
Definition matches (prv : prvKey) (pub : pubKey) : Prop := pubParams pub = prvParams prv /\ pubVariant pub = prvVariant prv /\
  exists c, hasCoords pub c /\ hasCoords (pubOf prv) c.
(* a SIKE private key as the constructor makes it *)
Definition sikePrv (prv : prvKey) : Prop := shaped prv /\ prvVariant prv = KeyVariantSike /\ bytes (Scalar prv) /\ bytes (prvS prv).
Lemma eph_bytes : forall P m pk, bytes (Scalar (ephKey P m pk)).
Proof. intros. apply le_enc_bytes. Qed.
(* both sides get the same j-invariant, whatever representation the keys came in *)
Lemma dh : forall P a prv pub, registered P -> prvParams a = P -> prvVariant a = KeyVariantSidhA -> longEnough a -> bytes (Scalar a) ->
  prvParams prv = P -> prvVariant prv = KeyVariantSike -> longEnough prv -> bytes (Scalar prv) -> matches prv pub ->
  sharedOf a pub = sharedOf prv (keyOf P KeyVariantSidhA (exported (pubOf a))).
Proof.
  intros P [Pa va ka sa] prv pub RP EA VA LA BA EB VB LB BB (M1 & M2 & cM & M3 & M4). pose proof (reg_sizes P RP) as Z. destruct Z.
  destruct (pubOf_ok P RP (mkPrv Pa va ka sa) EA LA) as (O1 & O2 & O3). destruct (pubOf_ok P RP prv EB LB) as (O4 & O5 & O6).
  set (e := exported (pubOf (mkPrv Pa va ka sa))) in *. destruct (exported_ok P RP _ O2) as (X1 & X2 & X3). fold e in X1, X2, X3.
  destruct (keyOf_ok P RP KeyVariantSidhA e X1 X2) as (I1 & I2 & I3 & I4). unfold hasCoords in M3, M4. rewrite M1, EB in M3. rewrite O5 in M4.
  destruct prv as [Pb vb kb sb]. cbn [prvParams prvVariant Scalar] in *. subst Pa Pb va vb.
  unfold longEnough, bitsOf in LA, LB. cbn [prvParams prvVariant Scalar] in LA, LB. change (onA KeyVariantSidhA) with true in LA. change (onA KeyVariantSike) with false in LB. cbv iota in LA, LB.
  assert (LA0 : 0 <= SecretBitLen (pA P)) by lia. assert (LB0 : 0 <= SecretBitLen (pB P)) by lia.
  destruct (sidh_set_agrees P (primeOf P) (reg_set P RP) ka kb (conj BA (conj LA0 LA)) (conj BB (conj LB0 LB)))
    as (uA & vA & tA & uB & vB & tB & s & GA & GB & (A1 & A2 & A3) & (B1 & B2 & B3) & BS & LS & DA & DB).
  destruct (valid_hold P uA vA tA A1 A2 A3) as (cA & HA & RA).
  assert (EOA : pubOf (mkPrv P KeyVariantSidhA ka sa) = mkPub P KeyVariantSidhA (uA, vA, tA)).
  { unfold GeneratePublicKey, freshKey in O1. cbn [pubVariant prvVariant pubParams prvParams Scalar] in O1. rewrite !Z.eqb_refl in O1. cbn [negb orb] in O1. rewrite (reg_pkg P RP) in O1. cbn [bind] in O1.
    change (onA KeyVariantSidhA) with true in O1. cbv iota in O1. rewrite GA in O1. cbn [bind three] in O1. apply Ret_inj in O1. symmetry. exact O1. }
  assert (EOB : pubOf (mkPrv P KeyVariantSike kb sb) = mkPub P KeyVariantSike (uB, vB, tB)).
  { unfold GeneratePublicKey, freshKey in O4. cbn [pubVariant prvVariant pubParams prvParams Scalar] in O4. rewrite !Z.eqb_refl in O4. cbn [negb orb] in O4. rewrite (reg_pkg P RP) in O4. cbn [bind] in O4.
    change (onA KeyVariantSike) with false in O4. cbv iota in O4. rewrite GB in O4. cbn [bind three] in O4. apply Ret_inj in O4. symmetry. exact O4. }
  destruct (wire P KeyVariantSidhA KeyVariantSidhA (uA, vA, tA) cA RP HA RA) as (e' & k' & W1 & W2 & W3 & W4 & W5).
  assert (EE : e = e').
  { unfold e, exported. rewrite EOA. cbn [pubParams]. rewrite W1. reflexivity. }
  rewrite <- EE in W2. change (freshPub P KeyVariantSidhA) with (freshKey P KeyVariantSidhA) in W2. rewrite I1 in W2. apply Ret_inj in W2. apply (f_equal fst) in W2. cbn [fst] in W2.
  rewrite EOB in M4. cbn [affine3Pt] in M4.
  destruct pub as [Pp vp [[x0 x1] x2]]. cbn [pubParams pubVariant affine3Pt] in *. subst Pp vp.
  destruct (same_hold P _ _ _ M4 M3) as (Q1 & Q2 & Q3).
  assert (LZ : 2 * Bytelen P <= Z.of_nat (length (repeat 0 (Z.to_nat (SharedSecretSize P))))) by (rewrite repeat_length; lia).
  pose proof (DA _ _ _ _ Q1 Q2 Q3 LZ) as D1.
  destruct (keyOf P KeyVariantSidhA e) as [Pk vk [[y0 y1] y2]] eqn:EK. cbn [pubParams pubVariant affine3Pt] in *. subst Pk vk. rewrite <- W2 in W5. cbn [affine3Pt] in W5.
  destruct (same_hold P _ _ _ HA W5) as (R1 & R2 & R3). pose proof (DB _ _ _ _ R1 R2 R3 LZ) as D2.
  unfold sharedOf, DeriveSecret. cbn [pubVariant prvVariant pubParams prvParams Scalar affine3Pt]. change (KeyVariantSike =? KeyVariantSidhA) with false. change (KeyVariantSidhA =? KeyVariantSike) with false.
  rewrite Z.eqb_refl. cbn [negb orb]. rewrite (reg_pkg P RP). cbn [bind]. change (onA KeyVariantSidhA) with true. change (onA KeyVariantSike) with false. cbv iota. rewrite D1, D2. reflexivity.
Qed.
Lemma exported_coords : forall P k k' c, registered P -> pubParams k = P -> pubParams k' = P -> hold3 P (affine3Pt k) c -> hold3 P (affine3Pt k') c -> exported k = exported k'.
Proof.
  intros P k k' c RP E E' H H'. unfold exported. rewrite E, E'.
  assert (L : PublicKeySize P <= Z.of_nat (length (repeat 0 (Z.to_nat (PublicKeySize P))))) by (rewrite repeat_length; lia).
  pose proof (export_val k c (repeat 0 (Z.to_nat (PublicKeySize P)))) as A. pose proof (export_val k' c (repeat 0 (Z.to_nat (PublicKeySize P)))) as A'.
  rewrite E in A. rewrite E' in A'. rewrite (A RP H L), (A' RP H' L). reflexivity.
Qed.
(* the private key's own public key matches it, and so does an exported and re-imported one *)
Theorem C50_matches : forall prv, sikePrv prv -> matches prv (pubOf prv) /\ matches prv (keyOf (prvParams prv) KeyVariantSike (exported (pubOf prv))).
Proof.
  intros prv (SH & VB & BB & _). pose proof SH as (RP & _). pose proof (shaped_long prv SH) as LB. set (P := prvParams prv) in *.
  destruct (pubOf_ok P RP prv eq_refl LB) as (O4 & O5 & O6).
  assert (EC : exists c, hold3 P (affine3Pt (pubOf prv)) c /\ all6 (fun x => 0 <= x < primeOf P) c).
  { pose proof (reg_sizes P RP) as Z. destruct Z. pose proof LB as LB1. unfold longEnough, bitsOf in LB1. rewrite VB in LB1. change (onA KeyVariantSike) with false in LB1. cbv iota in LB1. fold P in LB1.
    assert (LB0 : 0 <= SecretBitLen (pB P)) by lia. set (ka := repeat 0 (Z.to_nat (SecretByteLen (pA P)))).
    assert (LA : long (pA P) ka) by (split; [apply Forall_repeat; unfold is_byte; lia|unfold ka; rewrite repeat_length; lia]).
    destruct (sidh_set_agrees P (primeOf P) (reg_set P RP) ka (Scalar prv) LA (conj BB (conj LB0 LB1)))
      as (uA & vA & tA & uB & vB & tB & s & GA & GB & (A1 & A2 & A3) & (B1 & B2 & B3) & BS & LS & DA & DB).
    unfold GeneratePublicKey, freshKey in O4. cbn [pubVariant prvVariant pubParams prvParams Scalar] in O4. fold P in O4. rewrite !Z.eqb_refl in O4. cbn [negb orb] in O4. rewrite (reg_pkg P RP) in O4. cbn [bind] in O4.
    rewrite VB in O4. change (onA KeyVariantSike) with false in O4. cbv iota in O4. rewrite GB in O4. cbn [bind three] in O4. apply Ret_inj in O4. rewrite <- O4. cbn [affine3Pt].
    exact (valid_hold P uB vB tB B1 B2 B3). }
  destruct EC as (c & H & H6). destruct (exported_ok P RP _ O5) as (X1 & X2 & _). destruct (keyOf_ok P RP KeyVariantSike _ X1 X2) as (I1 & I2 & I3 & I4).
  split.
  - split; [exact O5|]. split; [exact O6|]. exists c. unfold hasCoords. rewrite O5. split; exact H.
  - split; [exact I2|]. split; [rewrite VB; exact I3|]. exists c. unfold hasCoords. rewrite I2, O5. split; [|exact H].
    destruct (pubOf prv) as [Po vo xo] eqn:EO. cbn [pubParams pubVariant affine3Pt] in *. subst Po vo.
    destruct (wire P (prvVariant prv) KeyVariantSike xo c RP H H6) as (e' & k' & W1 & W2 & W3 & W4 & W5).
    assert (EE : exported (mkPub P (prvVariant prv) xo) = e') by (unfold exported; cbn [pubParams]; rewrite W1; reflexivity).
    rewrite <- EE in W2. change (freshPub P KeyVariantSike) with (freshKey P KeyVariantSike) in W2. rewrite I1 in W2. apply Ret_inj in W2. apply (f_equal fst) in W2. cbn [fst] in W2. rewrite W2. exact W5.
Qed.
Print Assumptions C50_matches.

(* ---------- objects in use ---------- *)
Inductive usedKem (g : bool) (r : registry) : kem -> Prop :=
| u_new : forall id rng c, id = Fp434 \/ id = Fp503 \/ id = Fp751 -> bytes rng -> Allocate r id rng = Ret c -> usedKem g r c
| u_enc : forall c ct ss pub c' ct' ss' e, usedKem g r c -> bytes ct -> registered (pubParams pub) -> Encapsulate g r (Some c) ct ss pub = Ret (c', ct', ss', e) -> usedKem g r c'
| u_dec : forall c ss prv pub ct c' ss' e, usedKem g r c -> bytes ct -> registered (pubParams pub) -> shaped prv -> bytes (prvS prv) -> Decapsulate g r (Some c) ss prv pub ct = Ret (c', ss', e) -> usedKem g r c'
| u_reset : forall c, usedKem g r c -> usedKem g r (kemReset c).

(* ---------- C52: sizes and variants ---------- *)
Lemma enc_other : forall g r c ct ss pub, later r -> kemOk c -> registered (pubParams pub) -> pubParams pub <> kParams c -> bytes (kRng c) -> MsgLen (kParams c) <= Z.of_nat (length (kRng c)) ->
  Encapsulate g r (Some c) ct ss pub = Panic.
Proof.
  intros g r [rng msg0 sec0 P s0] ct ss pub LR (RP & K1 & K2 & K3) RQ NE Hr LM. cbn [kRng kMsg kSecret kParams kShake] in *. pose proof (reg_sizes P RP) as Z. destruct Z.
  unfold Encapsulate. cbn [kRng kMsg kSecret kParams kShake]. destruct (negb _); [reflexivity|]. destruct (_ <? _); [reflexivity|]. destruct (_ <? _); [reflexivity|].
  rewrite readFull_ok by lia. rewrite (new_key P RP r KeyVariantSidhA LR). cbn [bind].
  destruct (pubExport pub _) as [buf|]; [|reflexivity]. cbn [bind]. destruct (sub buf _ _) as [b|]; [|reflexivity]. cbn [bind]. destruct (shakeRun _ _ _ _) as [s1 sc]. destruct (maskA P sc) as [sc'|]; [|reflexivity]. cbn [bind].
  destruct (GeneratePublicKey _ _); [|reflexivity]. cbn [bind]. unfold generateCiphertext, DeriveSecret. cbn [prvParams prvVariant].
  assert (NI : (pID (pubParams pub) =? pID P) = false) by (apply Z.eqb_neq; intros X; apply NE; apply reg_id; assumption).
  rewrite NI. cbn [negb]. rewrite orb_true_r. reflexivity.
Qed.
Theorem C52_encapsulate : forall g r c ct ss pub, later r -> kemOk c -> bytes (kRng c) -> bytes ct -> registered (pubParams pub) -> let P := kParams c in
  (Encapsulate g r (Some c) ct ss pub = Panic <->
     pubVariant pub <> KeyVariantSike \/ Z.of_nat (length ss) < KemSize P \/ Z.of_nat (length ct) < CiphertextSize P \/ (pubParams pub <> P /\ MsgLen P <= Z.of_nat (length (kRng c)))) /\
  (forall c' ct' ss' e, Encapsulate g r (Some c) ct ss pub = Ret (c', ct', ss', e) ->
     length ct' = length ct /\ length ss' = length ss /\ (e = true <-> Z.of_nat (length (kRng c)) < MsgLen P) /\ (e = true -> ct' = ct /\ ss' = ss)).
Proof.
  intros g r c ct ss pub LR KO Hr Hc RQ P. pose proof KO as (RP & _). fold P in RP. pose proof (reg_sizes P RP) as Z. destruct Z.
  assert (PAN : pubVariant pub <> KeyVariantSike \/ Z.of_nat (length ss) < KemSize P \/ Z.of_nat (length ct) < CiphertextSize P -> Encapsulate g r (Some c) ct ss pub = Panic).
  { intros H. unfold Encapsulate. fold P. destruct (Z.eqb_spec KeyVariantSike (pubVariant pub)) as [E|E]; cbn [negb]; [|reflexivity]. destruct (Z.ltb_spec (Z.of_nat (length ss)) (KemSize P)); [reflexivity|].
    destruct (Z.ltb_spec (Z.of_nat (length ct)) (CiphertextSize P)); [reflexivity|]. exfalso. destruct H as [H|[H|H]]; [congruence|lia|lia]. }
  destruct (Z.eq_dec (pubVariant pub) KeyVariantSike) as [EV|NV].
  2:{ rewrite (PAN (or_introl NV)). split; [split; auto|discriminate]. }
  destruct (Z_lt_le_dec (Z.of_nat (length ss)) (KemSize P)) as [L1|L1].
  { rewrite (PAN (or_intror (or_introl L1))). split; [split; auto|discriminate]. }
  destruct (Z_lt_le_dec (Z.of_nat (length ct)) (CiphertextSize P)) as [L2|L2].
  { rewrite (PAN (or_intror (or_intror L2))). split; [split; auto|discriminate]. }
  destruct (Z_lt_le_dec (Z.of_nat (length (kRng c))) (MsgLen P)) as [L3|L3].
  { rewrite (enc_fail g r c ct ss pub KO EV L3 L2 L1). split.
    - split; [discriminate|]. intros [H|[H|[H|[_ H]]]]; [congruence|lia|lia|lia].
    - intros c' ct' ss' e H. apply Ret_inj in H. pose proof (f_equal snd H) as H1. pose proof (f_equal (fun q => snd (fst q)) H) as H2. pose proof (f_equal (fun q => snd (fst (fst q))) H) as H3. cbn [fst snd] in H1, H2, H3. subst ct' ss' e.
      split; [reflexivity|]. split; [reflexivity|]. split; [split; [intros _; exact L3|reflexivity]|]. intros _. split; reflexivity. }
  assert (DEC : pubParams pub = P \/ pubParams pub <> P).
  { destruct (Z.eq_dec (pID (pubParams pub)) (pID P)) as [E|E]; [left; apply reg_id; assumption|right; intros X; apply E; rewrite X; reflexivity]. }
  destruct DEC as [EP|NP].
  2:{ rewrite (enc_other g r c ct ss pub LR KO RQ NP Hr L3). split; [split; auto 6|discriminate]. }
  destruct (enc_ok g r c ct ss pub LR KO EP EV Hr Hc L3 L2 L1) as (s' & HS & E). rewrite E. fold P. split.
  - split; [discriminate|]. intros [H|[H|[H|[H _]]]]; [congruence|lia|lia|contradiction].
  - intros c' ct' ss' e H. apply Ret_inj in H. pose proof (f_equal snd H) as H1. pose proof (f_equal (fun q => snd (fst q)) H) as H2. pose proof (f_equal (fun q => snd (fst (fst q))) H) as H3. cbn [fst snd] in H1, H2, H3. subst ct' ss' e.
    set (m := firstn (Z.to_nat (MsgLen P)) (kRng c)). assert (Bm : bytes m) by (apply Forall_firstn; exact Hr).
    destruct (pubOf_ok P RP (ephKey P m (exported pub)) eq_refl (eph_long P RP m _)) as (G1 & G2 & G3).
    destruct (exported_ok P RP _ G2) as (Y1 & Y2 & _).
    destruct (derive_gen P RP (ephKey P m (exported pub)) pub eq_refl (eph_long P RP m _) ltac:(rewrite EV; discriminate) ltac:(rewrite EP; reflexivity)) as (D1 & D2 & _).
    assert (LC : Z.of_nat (length (sikeCt P m pub)) = CiphertextSize P).
    { unfold sikeCt, sikeC0. rewrite app_length, pad_length by exact D1. unfold m at 2. rewrite firstn_length_le by lia. lia. }
    assert (BC : bytes (sikeCt P m pub)) by (apply bytes_app; [exact Y1|apply pad_bytes; exact Bm]).
    split; [rewrite app_length, skipn_length; lia|]. split.
    { unfold sikeKey. rewrite app_length, shake_length, skipn_length; [lia|]. apply bytes_app; [exact Bm|]. apply bytes_app; [exact BC|apply Forall_skipn; exact Hc]. }
    split; [|discriminate]. split; [discriminate|lia].
Qed.
Print Assumptions C52_encapsulate.
(* pub of another field: the re-encryption never matches *)
Lemma dec_other : forall g r c ss prv pub ct, later r -> kemOk c -> let P := kParams c in
  registered (pubParams pub) -> pubParams pub <> P -> pubVariant pub = KeyVariantSike -> prvParams prv = P -> prvVariant prv = KeyVariantSike -> longEnough prv ->
  bytes (prvS prv) -> Z.of_nat (length (prvS prv)) = MsgLen P -> bytes ct -> Z.of_nat (length ct) = CiphertextSize P -> KemSize P <= Z.of_nat (length ss) ->
  exists sc s', (CiphertextSize P < PublicKeySize (pubParams pub) \/ keeps s' (sikeKey P (prvS prv) ct)) /\ Z.of_nat (length sc) = SecretByteLen (pA P) /\ Decapsulate g r (Some c) ss prv pub ct =
    if CiphertextSize P <? PublicKeySize (pubParams pub) then Panic
    else Ret (mkKem (kRng c) (kMsg c) sc P s', sikeKey P (prvS prv) ct ++ skipn (Z.to_nat (KemSize P)) ss, false).
Proof.
  intros g r [rng msg0 sec0 P s0] ss prv pub ct LR (RP & K1 & K2 & K3). cbn [kRng kMsg kSecret kParams kShake] in *. cbv zeta.
  intros RQ NQ EV EP' EV' LE BS LS Hc LC Lss. pose proof (reg_sizes P RP) as Z. destruct Z. set (Q := pubParams pub) in *.
  destruct (exported_ok Q RQ pub eq_refl) as (X1 & X2 & X3).
  assert (Q188 : PublicKeySize Q <= 564) by (pose proof (reg_sizes Q RQ) as ZQ; destruct ZQ; lia).
  assert (NPK : PublicKeySize Q <> PublicKeySize P).
  { destruct RP as [->|[->| ->]]; destruct RQ as [->|[->| ->]]; try (exfalso; apply NQ; reflexivity); vm_compute; discriminate. }
  unfold Decapsulate. cbn [kRng kMsg kSecret kParams kShake]. rewrite EV, EV', !Z.eqb_refl. cbn [negb].
  replace (_ <? _) with false by (symmetry; apply Z.ltb_ge; lia). replace (_ =? _) with true by (symmetry; apply Z.eqb_eq; lia). cbn [negb].
  rewrite (new_key P RP r KeyVariantSidhA LR). cbn [bind].
  destruct (decrypt_ok g r s0 P prv ct LR RP K3 EP' EV' LE Hc LC) as (s1 & H1 & E1 & Bm & Lm). rewrite E1. cbn [bind].
  set (m := sikeMsg P prv ct) in *.
  rewrite X3 by (rewrite zeros_length; unfold MaxSharedSecretBsz; lia). cbn [bind]. rewrite (sub_prefix m) by lia. cbn [bind].
  set (pkb := exported pub ++ _). assert (Lpk : Z.of_nat (length pkb) = 564) by (unfold pkb; rewrite app_length, skipn_length, zeros_length; unfold MaxSharedSecretBsz; lia).
  assert (Bpk : bytes pkb) by (unfold pkb; apply bytes_app; [exact X1|apply Forall_skipn, Forall_repeat; unfold is_byte; lia]).
  rewrite sub_ok by lia. rewrite Z.sub_0_r, skipn_O. cbn [bind]. set (e := firstn _ pkb). assert (Be : bytes e) by (apply Forall_firstn; exact Bpk).
  destruct (shake_to g s1 [m; e] (zeros MaxSidhPrivateKeyBsz) (SecretByteLen (pA P)) H1 ltac:(constructor; [exact Bm|constructor; [exact Be|constructor]]) ltac:(rewrite zeros_length; unfold MaxSidhPrivateKeyBsz; lia)) as (s2 & E2 & H2).
  rewrite E2. cbn [bind concat]. rewrite app_nil_r.
  assert (LH : length (shake256 (m ++ e) (Z.to_nat (SecretByteLen (pA P)))) = Z.to_nat (SecretByteLen (pA P))) by (apply shake_length, bytes_app; assumption).
  rewrite sub_prefix by lia. cbn [bind]. rewrite (mask_ok P RP) by (try apply shake_bytes; lia). cbn [bind]. rewrite LH.
  match goal with |- context[le_enc ?n ?x] => change (le_enc n x) with (ephScalar P m e) end.
  set (sc := ephScalar P m e). assert (Lsc : length sc = length sec0) by (unfold sc, ephScalar; rewrite le_enc_length; lia).
  assert (EI : prvImport (mkPrv P KeyVariantSidhA sec0 []) sc = Ret (ephKey P m e, false)).
  { unfold prvImport, prvSize. cbn [Scalar prvS prvVariant prvParams length]. change (KeyVariantSidhA =? KeyVariantSike) with false. cbv iota. replace (_ =? _) with true by (symmetry; apply Z.eqb_eq; lia). cbn [negb].
    rewrite sub_ok by (cbn; lia). cbn [bind]. rewrite sub_ok by (cbn; lia). cbn [bind]. rewrite skipn_O, firstn_all2 by lia. rewrite gocopy_full by lia. reflexivity. }
  rewrite EI. cbn [bind].
  destruct (pubOf_ok P RP (ephKey P m e) eq_refl (eph_long P RP m _)) as (G1 & G2 & G3). change (prvVariant (ephKey P m e)) with KeyVariantSidhA in G1. rewrite G1. cbn [bind].
  destruct (exported_ok P RP _ G2) as (Y1 & Y2 & Y3).
  rewrite Y3 by lia. cbn [bind]. rewrite sub_prefix by lia. cbn [bind]. fold Q.
  destruct (Z.ltb_spec (CiphertextSize P) (PublicKeySize Q)) as [LQ|LQ].
  { rewrite sub_bad by lia. exists sc, s2. split; [left; exact LQ|]. split; [lia|reflexivity]. }
  rewrite sub_ok by (pose proof (reg_sizes Q RQ) as ZQ; destruct ZQ; lia). rewrite Z.sub_0_r, skipn_O. cbn [bind].
  unfold ConstantTimeCompare. destruct (list_eq_dec _ _ _) as [EQ|NE].
  { exfalso. apply (f_equal (@length Z)) in EQ. rewrite firstn_length_le in EQ by lia. lia. }
  rewrite Cpick_0 by (try exact BS; lia). cbn [bind]. rewrite firstn_all2 by lia.
  destruct (shake_keeps g s2 [prvS prv; ct] ss (KemSize P) H2 ltac:(constructor; [exact BS|constructor; [exact Hc|constructor]]) ltac:(lia) ltac:(lia)) as (s3 & E3 & H3). rewrite E3. cbn [bind concat] in *. rewrite app_nil_r in *.
  exists sc, s3. split; [right; exact H3|]. split; [lia|reflexivity].
Qed.
Lemma same_params : forall P Q, registered P -> registered Q -> P = Q \/ P <> Q.
Proof. intros P Q RP RQ. destruct (Z.eq_dec (pID P) (pID Q)) as [E|E]; [left; apply reg_id; assumption|right; intros X; apply E; rewrite X; reflexivity]. Qed.
Theorem C52_decapsulate : forall g r c ss prv pub ct, later r -> kemOk c -> bytes ct -> registered (pubParams pub) -> shaped prv -> bytes (prvS prv) -> let P := kParams c in
  (Decapsulate g r (Some c) ss prv pub ct = Panic <->
     pubVariant pub <> KeyVariantSike \/ prvVariant prv <> pubVariant pub \/ Z.of_nat (length ss) < KemSize P \/ Z.of_nat (length ct) <> CiphertextSize P \/
     prvParams prv <> P \/ CiphertextSize P < PublicKeySize (pubParams pub)) /\
  (forall c' ss' e, Decapsulate g r (Some c) ss prv pub ct = Ret (c', ss', e) -> e = false /\ length ss' = length ss /\ kemOk c' /\ kParams c' = P /\ kRng c' = kRng c /\ kMsg c' = kMsg c) /\
  (forall c' ss' e, pubParams pub <> P -> Decapsulate g r (Some c) ss prv pub ct = Ret (c', ss', e) -> ss' = sikeKey P (prvS prv) ct ++ skipn (Z.to_nat (KemSize P)) ss).
Proof.
  intros g r c ss prv pub ct LR KO Hc RQ SH BS P. pose proof KO as (RP & K1 & K2 & K3). fold P in RP, K1, K2. pose proof (reg_sizes P RP) as Z. destruct Z. pose proof SH as (RV & S1 & S2).
  assert (PAN : pubVariant pub <> KeyVariantSike \/ prvVariant prv <> pubVariant pub \/ Z.of_nat (length ss) < KemSize P \/ Z.of_nat (length ct) <> CiphertextSize P -> Decapsulate g r (Some c) ss prv pub ct = Panic).
  { intros H. unfold Decapsulate. fold P. destruct (Z.eqb_spec KeyVariantSike (pubVariant pub)) as [E|E]; cbn [negb]; [|reflexivity]. destruct (Z.eqb_spec (pubVariant pub) (prvVariant prv)) as [E'|E']; cbn [negb]; [|reflexivity].
    destruct (Z.ltb_spec (Z.of_nat (length ss)) (KemSize P)); [reflexivity|]. destruct (Z.eqb_spec (Z.of_nat (length ct)) (CiphertextSize P)); cbn [negb]; [|reflexivity]. exfalso. destruct H as [H|[H|[H|H]]]; [congruence|congruence|lia|contradiction]. }
  destruct (Z.eq_dec (pubVariant pub) KeyVariantSike) as [EV|NV].
  2:{ rewrite PAN by auto. split; [split; auto|split; discriminate]. }
  destruct (Z.eq_dec (prvVariant prv) (pubVariant pub)) as [EV'|NV'].
  2:{ rewrite PAN by auto. split; [split; auto|split; discriminate]. }
  destruct (Z_lt_le_dec (Z.of_nat (length ss)) (KemSize P)) as [L1|L1].
  { rewrite PAN by auto. split; [split; auto|split; discriminate]. }
  destruct (Z.eq_dec (Z.of_nat (length ct)) (CiphertextSize P)) as [L2|L2].
  2:{ rewrite PAN by auto. split; [split; auto|split; discriminate]. }
  rewrite EV in EV'. rewrite EV' in S2. change (KeyVariantSike =? KeyVariantSike) with true in S2. cbv iota in S2.
  destruct (same_params (prvParams prv) P RV RP) as [EP|NP].
  2:{ assert (X : Decapsulate g r (Some c) ss prv pub ct = Panic).
      { unfold Decapsulate. fold P. destruct (negb _); [reflexivity|]. destruct (negb _); [reflexivity|]. destruct (_ <? _); [reflexivity|]. destruct (negb _); [reflexivity|].
        rewrite (new_key P RP r KeyVariantSidhA LR). cbn [bind].
        assert (D : decrypt g r (kShake c) (zeros MaxMsgBsz) prv ct = Panic).
        { unfold decrypt. rewrite (new_key _ RV r KeyVariantSidhA LR). cbn [bind].
          destruct (Z_lt_le_dec (Z.of_nat (length ct)) (PublicKeySize (prvParams prv))) as [LL|LL]; [rewrite sub_bad by exact LL; reflexivity|].
          assert (BIG : 40 < Z.of_nat (length ct) - PublicKeySize (prvParams prv)).
          { rewrite L2. rewrite L2 in LL. destruct RV as [RV|[RV|RV]]; destruct RP as [RP|[RP|RP]]; rewrite RV, RP in *; try (exfalso; apply NP; reflexivity); vm_compute in LL |- *; try reflexivity; exfalso; apply LL; reflexivity. }
          destruct (sub ct 0 _) as [b|]; [|reflexivity]. cbn [bind]. destruct (pubImport _ b) as [[c0 err]|]; [|reflexivity]. cbn [bind].
          destruct (DeriveSecret _ _ _) as [j|]; [|reflexivity]. cbn [bind]. destruct (sub j _ _) as [j'|]; [|reflexivity]. cbn [bind]. unfold shakeTo.
          rewrite sub_bad by (rewrite zeros_length; unfold MaxMsgBsz; lia). reflexivity. }
        rewrite D. reflexivity. }
      rewrite X. split; [split; auto 8|split; discriminate]. }
  pose proof (shaped_long prv SH) as LE. rewrite EP in S2.
  destruct (same_params (pubParams pub) P RQ RP) as [EQ|NQ].
  - destruct (dec_ok g r c ss prv pub ct LR KO EQ EV EP EV' LE BS S2 Hc L2 L1) as (s' & HS & E). rewrite E. fold P. split; [|split].
    + split; [discriminate|]. intros [H|[H|[H|[H|[H|H]]]]]; try congruence; try lia. rewrite EQ in H. lia.
    + intros c' ss' e H. apply Ret_inj in H. pose proof (f_equal snd H) as H1. pose proof (f_equal (fun q => snd (fst q)) H) as H2. pose proof (f_equal (fun q => fst (fst q)) H) as H3. cbn [fst snd] in H1, H2, H3. subst c' ss' e.
      split; [reflexivity|]. split.
      { unfold sikeDecaps, sikeKey. rewrite app_length, skipn_length, shake_length; [lia|]. apply bytes_app; [|exact Hc]. destruct (decrypt_ok g r (kShake c) P prv ct LR RP K3 EP EV' LE Hc L2) as (_ & _ & _ & Bm & _). destruct (list_eq_dec _ _ _); assumption. }
      split; [|split; [reflexivity|split; reflexivity]]. split; [exact RP|]. cbn [kMsg kParams kSecret kShake]. split; [exact K1|]. split; [unfold ephScalar; rewrite le_enc_length; lia|apply HS].
    + intros c' ss' e H. contradiction.
  - destruct (dec_other g r c ss prv pub ct LR KO RQ NQ EV EP EV' LE BS S2 Hc L2 L1) as (sc & s' & HS & Lsc & E). rewrite E. fold P. fold P in Lsc.
    destruct (Z.ltb_spec (CiphertextSize P) (PublicKeySize (pubParams pub))) as [L3|L3].
    { split; [split; auto 8|split; discriminate]. }
    split; [|split].
    + split; [discriminate|]. intros [H|[H|[H|[H|[H|H]]]]]; try congruence; try lia.
    + intros c' ss' e H. apply Ret_inj in H. pose proof (f_equal snd H) as H1. pose proof (f_equal (fun q => snd (fst q)) H) as H2. pose proof (f_equal (fun q => fst (fst q)) H) as H3. cbn [fst snd] in H1, H2, H3. subst c' ss' e.
      split; [reflexivity|]. split; [unfold sikeKey; rewrite app_length, skipn_length, shake_length by (apply bytes_app; assumption); lia|].
      split; [|split; [reflexivity|split; reflexivity]]. split; [exact RP|]. cbn [kMsg kParams kSecret kShake]. split; [exact K1|]. split; [exact Lsc|]. fold P in HS; destruct HS as [HS|HS]; [lia|apply HS].
    + intros c' ss' e _ H. apply Ret_inj in H. pose proof (f_equal (fun q => snd (fst q)) H) as H2. cbn [fst snd] in H2. symmetry. exact H2.
Qed.
Print Assumptions C52_decapsulate.
Lemma used_ok : forall g r c, later r -> usedKem g r c -> kemOk c /\ bytes (kRng c).
Proof.
  intros g r c LR H. induction H as [id rng c HI Hb HA|c ct ss pub c' ct' ss' e H [K Hb] Hc RQ HE|c ss prv pub ct c' ss' e H [K Hb] Hc RQ SH BS HD|c H [K Hb]].
  - unfold Allocate in HA. destruct (C49_builtin r LR) as (A & C & D). assert (EP : exists P, Params r id = Ret P /\ registered P).
    { destruct HI as [->|[->| ->]]; [exists params434|exists params503|exists params751]; (split; [assumption|]); [left|right; left|right; right]; reflexivity. }
    destruct EP as (P & EP & RP). rewrite EP in HA. cbn [bind] in HA. apply Ret_inj in HA. subst c. split; [|exact Hb]. unfold kemOk. cbn [kParams kMsg kSecret kShake]. rewrite !zeros_length.
    pose proof (reg_sizes P RP) as Z. destruct Z. split; [exact RP|]. split; [lia|]. split; [lia|exact isShake_new].
  - destruct (C52_encapsulate g r c ct ss pub LR K Hb Hc RQ) as [A D]. rewrite HE in A. pose proof K as (RP & K1 & K2 & K3). pose proof (reg_sizes _ RP) as Z. destruct Z.
    assert (NP : ~ (pubVariant pub <> KeyVariantSike \/ Z.of_nat (length ss) < KemSize (kParams c) \/ Z.of_nat (length ct) < CiphertextSize (kParams c) \/ pubParams pub <> kParams c /\ MsgLen (kParams c) <= Z.of_nat (length (kRng c)))) by (intros X; apply A in X; discriminate).
    destruct (Z.eq_dec (pubVariant pub) KeyVariantSike) as [EV|]; [|tauto]. destruct (Z_lt_le_dec (Z.of_nat (length ss)) (KemSize (kParams c))) as [|L1]; [tauto|]. destruct (Z_lt_le_dec (Z.of_nat (length ct)) (CiphertextSize (kParams c))) as [|L2]; [tauto|].
    destruct (Z_lt_le_dec (Z.of_nat (length (kRng c))) (MsgLen (kParams c))) as [L3|L3].
    + rewrite (enc_fail g r c ct ss pub K EV L3 L2 L1) in HE. apply Ret_inj in HE. pose proof (f_equal (fun q => fst (fst (fst q))) HE) as X. cbn [fst snd] in X. subst c'. split; [|constructor]. unfold kemOk. cbn [kParams kMsg kSecret kShake].
      split; [exact RP|]. split; [rewrite app_length, skipn_length; lia|]. split; [exact K2|exact K3].
    + destruct (same_params (pubParams pub) (kParams c) RQ RP) as [EP|NE]; [|tauto].
      destruct (enc_ok g r c ct ss pub LR K EP EV Hb Hc L3 L2 L1) as (s' & HS & E). rewrite E in HE. apply Ret_inj in HE. pose proof (f_equal (fun q => fst (fst (fst q))) HE) as X. cbn [fst snd] in X. subst c'.
      unfold kemOk. cbn [kParams kMsg kSecret kShake kRng]. split; [|apply Forall_skipn; exact Hb]. split; [exact RP|]. split; [rewrite firstn_length_le; lia|]. split; [unfold ephScalar; rewrite le_enc_length; lia|apply HS].
  - destruct (C52_decapsulate g r c ss prv pub ct LR K Hc RQ SH BS) as (_ & D & _). destruct (D _ _ _ HD) as (_ & _ & K' & _ & ER & _). split; [exact K'|]. rewrite ER. exact Hb.
  - destruct K as (RP & K1 & K2 & K3). split; [|exact Hb]. unfold kemOk, kemReset. cbn [kParams kMsg kSecret kShake]. rewrite !zeros_length, !Nat2Z.id. split; [exact RP|]. split; [exact K1|]. split; [exact K2|exact K3].
Qed.

(* ---------- C50: correctness ---------- *)
Lemma sikePrv_facts : forall prv, sikePrv prv -> registered (prvParams prv) /\ longEnough prv /\ prvVariant prv = KeyVariantSike /\ bytes (Scalar prv) /\ bytes (prvS prv) /\ Z.of_nat (length (prvS prv)) = MsgLen (prvParams prv).
Proof.
  intros prv (SH & EV & B1 & B2). pose proof SH as (RP & S1 & S2). rewrite EV in S2. split; [exact RP|]. split; [exact (shaped_long prv SH)|]. split; [exact EV|]. split; [exact B1|]. split; [exact B2|exact S2].
Qed.
Lemma ct_facts : forall P prv pub m, prvParams prv = P -> sikePrv prv -> matches prv pub -> bytes m -> Z.of_nat (length m) = MsgLen P ->
  let ct := sikeCt P m pub in bytes ct /\ Z.of_nat (length ct) = CiphertextSize P /\ firstn (Z.to_nat (PublicKeySize P)) ct = sikeC0 P m (exported pub) /\ sikeMsg P prv ct = m.
Proof.
  intros P prv pub m EP SP MT Bm Lm. destruct (sikePrv_facts prv SP) as (RP & LE & EV & BS & BS' & LS). rewrite EP in *. pose proof (reg_sizes P RP) as Z. destruct Z. pose proof MT as (M1 & M2 & _). rewrite EP in M1. rewrite EV in M2.
  destruct (pubOf_ok P RP (ephKey P m (exported pub)) eq_refl (eph_long P RP m _)) as (G1 & G2 & G3). destruct (exported_ok P RP _ G2) as (Y1 & Y2 & _).
  destruct (derive_gen P RP (ephKey P m (exported pub)) pub eq_refl (eph_long P RP m _) ltac:(rewrite M2; discriminate) ltac:(rewrite M1; reflexivity)) as (D1 & D2 & _).
  intros ct. assert (L0 : length (sikeC0 P m (exported pub)) = Z.to_nat (PublicKeySize P)) by (unfold sikeC0; lia).
  split; [apply bytes_app; [exact Y1|apply pad_bytes; exact Bm]|]. split; [unfold ct, sikeCt; rewrite app_length, pad_length by exact D1; lia|].
  assert (F : firstn (Z.to_nat (PublicKeySize P)) ct = sikeC0 P m (exported pub)) by (apply firstn_prefix; exact L0). split; [exact F|].
  unfold sikeMsg. rewrite F. unfold ct, sikeCt. rewrite (skipn_prefix (sikeC0 P m (exported pub))) by exact L0. unfold sikeC0.
  rewrite <- (dh P (ephKey P m (exported pub)) prv pub RP eq_refl eq_refl (eph_long P RP m _) (eph_bytes P m _) EP EV LE BS MT). apply pad_pad. exact D1.
Qed.
Lemma matches_exported : forall prv pub pub', registered (prvParams prv) -> matches prv pub -> matches prv pub' -> pubParams (pubOf prv) = prvParams prv -> exported pub = exported pub'.
Proof.
  intros prv pub pub' RP (M1 & _ & c & A & C) (M1' & _ & c' & A' & C') EO. unfold hasCoords in *. rewrite M1 in A. rewrite M1' in A'. rewrite EO in C, C'.
  transitivity (exported (pubOf prv)); [eapply exported_coords with (c := c)|symmetry; eapply exported_coords with (c := c')]; try eassumption.
Qed.
Lemma dec_honest : forall P prv pub pub' m, prvParams prv = P -> sikePrv prv -> matches prv pub -> matches prv pub' -> bytes m -> Z.of_nat (length m) = MsgLen P ->
  sikeDecaps P prv pub' (sikeCt P m pub) = sikeKey P m (sikeCt P m pub).
Proof.
  intros P prv pub pub' m EP SP MT MT' Bm Lm. destruct (ct_facts P prv pub m EP SP MT Bm Lm) as (_ & _ & F & SM). destruct (sikePrv_facts prv SP) as (RP & LE & _). destruct (pubOf_ok _ RP prv eq_refl LE) as (_ & O & _).
  unfold sikeDecaps. rewrite SM, F. rewrite (matches_exported prv pub' pub RP MT' MT O). destruct (list_eq_dec Z.eq_dec _ _) as [_|N]; [reflexivity|]. contradiction N. reflexivity.
Qed.
Theorem C50_sike : forall g g' r r' c d ct ss ss' prv pub pub', later r -> later r' -> usedKem g r c -> usedKem g' r' d -> kParams d = kParams c ->
  sikePrv prv -> prvParams prv = kParams c -> matches prv pub -> matches prv pub' -> let P := kParams c in
  MsgLen P <= Z.of_nat (length (kRng c)) -> bytes ct -> Z.of_nat (length ct) = CiphertextSize P -> KemSize P <= Z.of_nat (length ss) -> KemSize P <= Z.of_nat (length ss') ->
  exists c' d' ct' K, Encapsulate g r (Some c) ct ss pub = Ret (c', ct', K ++ skipn (length K) ss, false) /\
    Decapsulate g' r' (Some d) ss' prv pub' ct' = Ret (d', K ++ skipn (length K) ss', false) /\
    Z.of_nat (length K) = KemSize P /\ Z.of_nat (length ct') = CiphertextSize P.
Proof.
  intros g g' r r' c d ct ss ss' prv pub pub' LR LR' UC UD ED SP EP MT MT' P LM Hc LC LS LS'. destruct (used_ok g r c LR UC) as [KC HB]. destruct (used_ok g' r' d LR' UD) as [KD _].
  destruct (sikePrv_facts prv SP) as (RP & LE & EV & BS & BS' & LSs). rewrite EP in RP, LSs. fold P in EP, RP, LSs. pose proof (reg_sizes P RP) as Z. destruct Z.
  pose proof MT as (M1 & M2 & _). pose proof MT' as (M1' & M2' & _). rewrite EP in M1, M1'. rewrite EV in M2, M2'.
  destruct (enc_ok g r c ct ss pub LR KC M1 M2 HB Hc LM ltac:(fold P; lia) LS) as (s1 & H1 & E1). fold P in E1. rewrite (skipn_all2 ct), app_nil_r in E1 by (rewrite <- LC; lia).
  set (m := firstn (Z.to_nat (MsgLen P)) (kRng c)) in *. assert (Bm : bytes m) by (apply Forall_firstn; exact HB). assert (Lm : Z.of_nat (length m) = MsgLen P) by (unfold m; rewrite firstn_length_le; lia).
  destruct (ct_facts P prv pub m EP SP MT Bm Lm) as (BC & LCt & _ & _).
  assert (LK : length (sikeKey P m (sikeCt P m pub)) = Z.to_nat (KemSize P)) by (unfold sikeKey; apply shake_length, bytes_app; assumption).
  destruct (dec_ok g' r' d ss' prv pub' (sikeCt P m pub) LR' KD ltac:(rewrite ED; exact M1') M2' ltac:(rewrite ED; exact EP) EV LE BS' ltac:(rewrite ED; exact LSs) BC ltac:(rewrite ED; exact LCt) ltac:(rewrite ED; exact LS')) as (s2 & H2 & E2).
  rewrite ED in E2. fold P in E2. rewrite (dec_honest P prv pub pub' m EP SP MT MT' Bm Lm) in E2.
  eexists. eexists. exists (sikeCt P m pub), (sikeKey P m (sikeCt P m pub)). rewrite LK. split; [exact E1|]. split; [exact E2|]. split; [lia|exact LCt].
Qed.
Print Assumptions C50_sike.
(* the values, as the SIKE document defines them *)
Theorem C50_encapsulate_value : forall g r c ct ss pub, later r -> usedKem g r c -> let P := kParams c in let m := firstn (Z.to_nat (MsgLen P)) (kRng c) in
  pubParams pub = P -> pubVariant pub = KeyVariantSike -> MsgLen P <= Z.of_nat (length (kRng c)) -> bytes ct -> Z.of_nat (length ct) = CiphertextSize P -> KemSize P <= Z.of_nat (length ss) ->
  exists c', Encapsulate g r (Some c) ct ss pub = Ret (c', sikeCt P m pub, sikeKey P m (sikeCt P m pub) ++ skipn (Z.to_nat (KemSize P)) ss, false) /\ kRng c' = skipn (Z.to_nat (MsgLen P)) (kRng c).
Proof.
  intros g r c ct ss pub LR UC P m EP EV LM Hc LC LS. destruct (used_ok g r c LR UC) as [KC HB].
  destruct (enc_ok g r c ct ss pub LR KC EP EV HB Hc LM ltac:(fold P; lia) LS) as (s1 & H1 & E1). fold P m in E1. rewrite (skipn_all2 ct), app_nil_r in E1 by (rewrite <- LC; lia).
  eexists. split; [exact E1|reflexivity].
Qed.
Print Assumptions C50_encapsulate_value.
(* the public-key encryption under the KEM *)
Theorem C50_pke : forall g g' r r' s s' ct rng prv pub m, later r -> later r' -> isShake s -> isShake s' -> sikePrv prv -> matches prv pub -> let P := prvParams prv in
  bytes rng -> SecretByteLen (pA P) <= Z.of_nat (length rng) -> Z.of_nat (length ct) = CiphertextSize P -> bytes m -> Z.of_nat (length m) = KemSize P ->
  exists s1 s2 ct' rest, encrypt g r s ct rng pub m = Ret (s1, ct', rest, false) /\ Z.of_nat (length ct') = CiphertextSize P /\
    decrypt g' r' s' (zeros MaxMsgBsz) prv ct' = Ret (s2, m ++ zeros (MaxMsgBsz - MsgLen P), MsgLen P, false).
Proof.
  intros g g' r r' s s' ct rng prv pub m LR LR' HS HS' SP MT P Hr LN LC Bm Lm. destruct (sikePrv_facts prv SP) as (RP & LE & EV & BS & BS' & LSs). fold P in RP, LSs. pose proof (reg_sizes P RP) as Z. destruct Z.
  pose proof MT as (M1 & M2 & _). fold P in M1. rewrite EV in M2.
  unfold encrypt. rewrite M1. replace (_ =? _) with true by (symmetry; apply Z.eqb_eq; exact Lm). cbn [negb].
  assert (HID : pID P = Fp434 \/ pID P = Fp503 \/ pID P = Fp751) by (destruct RP as [->|[->| ->]]; auto).
  destruct (C43_new r (pID P) KeyVariantSidhA LR HID) as (a & EA & SA & VA & IA & _). rewrite EA, (new_key P RP r KeyVariantSidhA LR). cbn [bind].
  assert (PA : prvParams a = P) by (apply reg_id; [apply SA|exact RP|exact IA]).
  assert (NA : (need a <= length rng)%nat).
  { unfold need. destruct SA as (_ & S1 & S2). rewrite VA in S2. change (KeyVariantSidhA =? KeyVariantSike) with false in S2. cbv iota in S2. unfold scalarLen in S1. rewrite VA, PA in S1. change (onA KeyVariantSidhA) with true in S1. cbv iota in S1. lia. }
  assert (GE : exists a', Generate a rng = Ret (a', skipn (need a) rng, false) /\ shaped a' /\ bytes (Scalar a') /\ prvParams a' = P /\ prvVariant a' = KeyVariantSidhA).
  { assert (DA : p434A a \/ ~ p434A a).
    { unfold p434A. rewrite PA, VA. change (onA KeyVariantSidhA) with true. destruct (same_params P params434 RP (or_introl eq_refl)) as [X|X]; [left; split; [exact X|reflexivity]|right; intros [Y _]; exact (X Y)]. }
    destruct DA as [DA|DA].
    - destruct (C44_generate_p434A a rng SA Hr NA DA) as (a' & E & S1 & S2 & S3 & S4 & _). exists a'. rewrite PA in S3. rewrite VA in S4. exact (conj E (conj S1 (conj S2 (conj S3 S4)))).
    - destruct (C44_generate a rng SA Hr NA DA) as (a' & E & S1 & S2 & S3 & S4 & _). exists a'. rewrite PA in S3. rewrite VA in S4. exact (conj E (conj S1 (conj S2 (conj S3 S4)))). }
  destruct GE as (a' & E & S1 & S2 & S3 & S4). rewrite E. cbn [bind]. pose proof (shaped_long a' S1) as LA.
  destruct (pubOf_ok P RP a' S3 LA) as (G1 & G2 & G3). rewrite S4 in G1. rewrite G1. cbn [bind].
  destruct (gen_ct g s P a' (pubOf a') pub m ct RP HS S3 LA G2 ltac:(rewrite M1; reflexivity) ltac:(rewrite M2, S4; discriminate) Bm ltac:(lia) ltac:(lia)) as (s1 & H1 & E1). rewrite E1. cbn [bind].
  rewrite (skipn_all2 ct), app_nil_r by lia. set (ct' := exported (pubOf a') ++ _).
  destruct (exported_ok P RP _ G2) as (Y1 & Y2 & _). destruct (derive_gen P RP a' pub S3 LA ltac:(rewrite M2, S4; discriminate) ltac:(rewrite M1; reflexivity)) as (D1 & D2 & _).
  assert (LC' : Z.of_nat (length ct') = CiphertextSize P) by (unfold ct'; rewrite app_length, pad_length by exact D1; lia).
  assert (BC : bytes ct') by (apply bytes_app; [exact Y1|apply pad_bytes; exact Bm]).
  destruct (decrypt_ok g' r' s' P prv ct' LR' RP HS' eq_refl EV LE BC LC') as (s2 & H2 & E2 & _).
  assert (EM : sikeMsg P prv ct' = m).
  { unfold sikeMsg, ct'. rewrite firstn_prefix, skipn_prefix by lia. rewrite <- (dh P a' prv pub RP S3 S4 LA S2 eq_refl EV LE BS MT). apply pad_pad. exact D1. }
  rewrite EM in E2. exists s1, s2, ct'. eexists. split; [reflexivity|]. split; [exact LC'|exact E2].
Qed.
Print Assumptions C50_pke.

(* ---------- C51: implicit rejection ---------- *)
(* the ciphertexts Decapsulate accepts are exactly the ones Encapsulate can produce for this key; for all others
   the result is determined by the private S and the ciphertext; there is never an error *)
Theorem C51_sike : forall g r d ss prv pub ct, later r -> usedKem g r d -> let P := kParams d in sikePrv prv -> prvParams prv = P -> matches prv pub ->
  bytes ct -> Z.of_nat (length ct) = CiphertextSize P -> KemSize P <= Z.of_nat (length ss) ->
  let honest m := bytes m /\ Z.of_nat (length m) = MsgLen P /\ ct = sikeCt P m pub in
  (exists d' m, honest m /\ Decapsulate g r (Some d) ss prv pub ct = Ret (d', shake256 (m ++ ct) (Z.to_nat (KemSize P)) ++ skipn (Z.to_nat (KemSize P)) ss, false)) \/
  (exists d', ~ (exists m, honest m) /\ Decapsulate g r (Some d) ss prv pub ct = Ret (d', shake256 (prvS prv ++ ct) (Z.to_nat (KemSize P)) ++ skipn (Z.to_nat (KemSize P)) ss, false)).
Proof.
  intros g r d ss prv pub ct LR UD P SP EP MT Hc LC LS honest. destruct (used_ok g r d LR UD) as [KD _].
  destruct (sikePrv_facts prv SP) as (RP & LE & EV & BS & BS' & LSs). rewrite EP in RP, LSs. pose proof (reg_sizes P RP) as Z. destruct Z.
  pose proof MT as (M1 & M2 & _). rewrite EP in M1. rewrite EV in M2.
  destruct (dec_ok g r d ss prv pub ct LR KD M1 M2 EP EV LE BS' LSs Hc LC LS) as (s2 & H2 & E2). fold P in E2.
  destruct (decrypt_ok g r (kShake d) P prv ct LR RP ltac:(apply KD) EP EV LE Hc LC) as (_ & _ & _ & Bm & Lm).
  unfold sikeDecaps in E2. set (m := sikeMsg P prv ct) in *. destruct (list_eq_dec Z.eq_dec (sikeC0 P m (exported pub)) (firstn (Z.to_nat (PublicKeySize P)) ct)) as [EQ|NE].
  - left. eexists. exists m. split; [|exact E2]. split; [exact Bm|]. split; [exact Lm|].
    rewrite <- (firstn_skipn (Z.to_nat (PublicKeySize P)) ct) at 1. unfold sikeCt. rewrite <- EQ. f_equal.
    rewrite (dh P (ephKey P m (exported pub)) prv pub RP eq_refl eq_refl (eph_long P RP m _) (eph_bytes P m _) EP EV LE BS MT).
    change (exported (pubOf (ephKey P m (exported pub)))) with (sikeC0 P m (exported pub)). rewrite EQ.
    unfold m, sikeMsg. symmetry. apply pad_pad.
    destruct (keyOf_ok P RP KeyVariantSidhA (firstn (Z.to_nat (PublicKeySize P)) ct) ltac:(apply Forall_firstn; exact Hc) ltac:(rewrite firstn_length_le; lia)) as (I1 & I2 & I3 & _).
    apply (derive_gen P RP prv _ EP LE); [rewrite I3, EV; discriminate|rewrite I2; reflexivity].
  - right. eexists. split; [|exact E2]. intros (m' & Bm' & Lm' & E). destruct (ct_facts P prv pub m' EP SP MT Bm' Lm') as (_ & _ & F & SM). rewrite <- E in F, SM. apply NE. fold m in SM. rewrite SM. symmetry. exact F.
Qed.
Print Assumptions C51_sike.
(* whatever public key of the field is passed along: the result is one of the two hashes *)
Theorem C51_any_public_key : forall g r d ss prv pub ct, later r -> usedKem g r d -> let P := kParams d in sikePrv prv -> prvParams prv = P -> pubParams pub = P -> pubVariant pub = KeyVariantSike ->
  bytes ct -> Z.of_nat (length ct) = CiphertextSize P -> KemSize P <= Z.of_nat (length ss) ->
  let m := sikeMsg P prv ct in
  exists d', Decapsulate g r (Some d) ss prv pub ct =
    Ret (d', shake256 ((if list_eq_dec Z.eq_dec (sikeC0 P m (exported pub)) (firstn (Z.to_nat (PublicKeySize P)) ct) then m else prvS prv) ++ ct) (Z.to_nat (KemSize P)) ++ skipn (Z.to_nat (KemSize P)) ss, false).
Proof.
  intros g r d ss prv pub ct LR UD P SP EP M1 M2 Hc LC LS m. destruct (used_ok g r d LR UD) as [KD _].
  destruct (sikePrv_facts prv SP) as (RP & LE & EV & BS & BS' & LSs). rewrite EP in RP, LSs.
  destruct (dec_ok g r d ss prv pub ct LR KD M1 M2 EP EV LE BS' LSs Hc LC LS) as (s2 & H2 & E2). eexists. exact E2.
Qed.
Print Assumptions C51_any_public_key.

(* ---------- C52: a ciphertext buffer with spare room ---------- *)
(* the sender's key is the hash of the whole buffer, the receiver's that of the ciphertext: they agree only if
   SHAKE256 collides on these two different strings *)
Theorem C52_oversize : forall g g' r r' c d ct ss ss' prv pub, later r -> later r' -> usedKem g r c -> usedKem g' r' d -> kParams d = kParams c ->
  sikePrv prv -> prvParams prv = kParams c -> matches prv pub -> let P := kParams c in
  MsgLen P <= Z.of_nat (length (kRng c)) -> bytes ct -> CiphertextSize P < Z.of_nat (length ct) -> KemSize P <= Z.of_nat (length ss) -> KemSize P <= Z.of_nat (length ss') ->
  let n := Z.to_nat (KemSize P) in
  exists c' d' C m, Z.of_nat (length C) = CiphertextSize P /\ length m = Z.to_nat (MsgLen P) /\
    Encapsulate g r (Some c) ct ss pub = Ret (c', C ++ skipn (length C) ct, shake256 (m ++ C ++ skipn (length C) ct) n ++ skipn n ss, false) /\
    Decapsulate g' r' (Some d) ss' prv pub (C ++ skipn (length C) ct) = Panic /\
    Decapsulate g' r' (Some d) ss' prv pub C = Ret (d', shake256 (m ++ C) n ++ skipn n ss', false) /\
    m ++ C ++ skipn (length C) ct <> m ++ C.
Proof.
  intros g g' r r' c d ct ss ss' prv pub LR LR' UC UD ED SP EP MT P LM Hc LC LS LS' n. destruct (used_ok g r c LR UC) as [KC HB]. destruct (used_ok g' r' d LR' UD) as [KD _].
  destruct (sikePrv_facts prv SP) as (RP & LE & EV & BS & BS' & LSs). pose proof SP as (SH & _). rewrite EP in RP, LSs. fold P in EP, RP, LSs. pose proof (reg_sizes P RP) as Z. destruct Z.
  pose proof MT as (M1 & M2 & _). rewrite EP in M1. rewrite EV in M2.
  destruct (enc_ok g r c ct ss pub LR KC M1 M2 HB Hc LM ltac:(fold P; lia) LS) as (s1 & H1 & E1). fold P in E1.
  set (m := firstn (Z.to_nat (MsgLen P)) (kRng c)) in *. assert (Bm : bytes m) by (apply Forall_firstn; exact HB). assert (Lm : Z.of_nat (length m) = MsgLen P) by (unfold m; rewrite firstn_length_le; lia).
  destruct (ct_facts P prv pub m EP SP MT Bm Lm) as (BC & LCt & _ & _).
  destruct (dec_ok g' r' d ss' prv pub (sikeCt P m pub) LR' KD ltac:(rewrite ED; exact M1) M2 ltac:(rewrite ED; exact EP) EV LE BS' ltac:(rewrite ED; exact LSs) BC ltac:(rewrite ED; exact LCt) ltac:(rewrite ED; exact LS')) as (s2 & H2 & E2).
  rewrite ED in E2. fold P in E2. rewrite (dec_honest P prv pub pub m EP SP MT MT Bm Lm) in E2.
  eexists. eexists. exists (sikeCt P m pub), m. replace (length (sikeCt P m pub)) with (Z.to_nat (CiphertextSize P)) by lia. split; [lia|]. split; [lia|].
  split; [exact E1|]. split.
  { assert (BW : bytes (sikeCt P m pub ++ skipn (Z.to_nat (CiphertextSize P)) ct)) by (apply bytes_app; [exact BC|apply Forall_skipn; exact Hc]).
    assert (RQ : registered (pubParams pub)) by (rewrite M1; exact RP).
    apply (proj1 (C52_decapsulate g' r' d ss' prv pub _ LR' KD BW RQ SH BS')). right. right. right. left. rewrite ED. fold P. rewrite app_length, skipn_length. lia. }
  split; [exact E2|]. intros X. apply (f_equal (@length Z)) in X. rewrite !app_length, skipn_length in X. lia.
Qed.
Print Assumptions C52_oversize.
Theorem C52_unallocated : forall g r ct ss pub prv, Encapsulate g r None ct ss pub = Panic /\ Decapsulate g r None ss prv pub ct = Panic.
Proof. intros. split; reflexivity. Qed.
Print Assumptions C52_unallocated.

(* ---------- C53: no state between operations ---------- *)
Definition encResult (x : res (kem * list Z * list Z * bool)) : res (list Z * list Z * bool * list Z) :=
  match x with Ret (c, ct, ss, e) => Ret (ct, ss, e, kRng c) | Panic => Panic end.
Definition decResult (x : res (kem * list Z * bool)) : res (list Z * bool) :=
  match x with Ret (_, ss, e) => Ret (ss, e) | Panic => Panic end.
Theorem C53_encapsulate : forall g g' r r' c d ct ss pub, later r -> later r' -> usedKem g r c -> usedKem g' r' d -> kParams c = kParams d -> kRng c = kRng d -> bytes ct -> registered (pubParams pub) ->
  encResult (Encapsulate g r (Some c) ct ss pub) = encResult (Encapsulate g' r' (Some d) ct ss pub).
Proof.
  intros g g' r r' c d ct ss pub LR LR' UC UD EP ER Hc RQ. destruct (used_ok g r c LR UC) as [KC HC]. destruct (used_ok g' r' d LR' UD) as [KD HD].
  destruct (C52_encapsulate g r c ct ss pub LR KC HC Hc RQ) as [A _]. destruct (C52_encapsulate g' r' d ct ss pub LR' KD HD Hc RQ) as [A' _].
  assert (AA : Encapsulate g r (Some c) ct ss pub = Panic <-> Encapsulate g' r' (Some d) ct ss pub = Panic) by (rewrite A, A', EP, ER; reflexivity).
  destruct (Z.eq_dec (pubVariant pub) KeyVariantSike) as [EV|NV].
  2:{ rewrite (proj2 A), (proj2 A') by auto. reflexivity. }
  destruct (Z_lt_le_dec (Z.of_nat (length ss)) (KemSize (kParams c))) as [L1|L1].
  { rewrite (proj1 AA) by (apply A; auto). rewrite (proj2 A) by auto. reflexivity. }
  destruct (Z_lt_le_dec (Z.of_nat (length ct)) (CiphertextSize (kParams c))) as [L2|L2].
  { rewrite (proj1 AA) by (apply A; auto). rewrite (proj2 A) by auto. reflexivity. }
  destruct (Z_lt_le_dec (Z.of_nat (length (kRng c))) (MsgLen (kParams c))) as [L3|L3].
  { rewrite (enc_fail g r c ct ss pub KC EV L3 L2 L1). rewrite EP, ER in *. rewrite (enc_fail g' r' d ct ss pub KD EV L3 L2 L1). reflexivity. }
  destruct (same_params (pubParams pub) (kParams c) RQ ltac:(apply KC)) as [EQ|NQ].
  2:{ rewrite (proj1 AA) by (apply A; auto 6). rewrite (proj2 A) by auto 6. reflexivity. }
  destruct (enc_ok g r c ct ss pub LR KC EQ EV HC Hc L3 L2 L1) as (s1 & H1 & E1). rewrite E1. rewrite EP, ER in *.
  destruct (enc_ok g' r' d ct ss pub LR' KD EQ EV HD Hc L3 L2 L1) as (s2 & H2 & E2). rewrite E2. reflexivity.
Qed.
Print Assumptions C53_encapsulate.
Theorem C53_decapsulate : forall g g' r r' c d ct ss prv pub, later r -> later r' -> usedKem g r c -> usedKem g' r' d -> kParams c = kParams d -> bytes ct -> registered (pubParams pub) -> shaped prv -> bytes (prvS prv) ->
  decResult (Decapsulate g r (Some c) ss prv pub ct) = decResult (Decapsulate g' r' (Some d) ss prv pub ct).
Proof.
  intros g g' r r' c d ct ss prv pub LR LR' UC UD EP Hc RQ SH BS. destruct (used_ok g r c LR UC) as [KC HC]. destruct (used_ok g' r' d LR' UD) as [KD HD].
  destruct (C52_decapsulate g r c ss prv pub ct LR KC Hc RQ SH BS) as (A & B1 & B2). destruct (C52_decapsulate g' r' d ss prv pub ct LR' KD Hc RQ SH BS) as (A' & B1' & B2').
  destruct (Decapsulate g r (Some c) ss prv pub ct) as [[[c' s1] e1]|] eqn:E1.
  2:{ assert (X : Decapsulate g' r' (Some d) ss prv pub ct = Panic) by (apply A'; rewrite <- EP; apply A; reflexivity). rewrite X. reflexivity. }
  destruct (Decapsulate g' r' (Some d) ss prv pub ct) as [[[d' s2] e2]|] eqn:E2.
  2:{ exfalso. assert (X : Ret (c', s1, e1) = Panic) by (apply A; rewrite EP; apply A'; reflexivity). discriminate. }
  destruct (B1 _ _ _ eq_refl) as (-> & _). destruct (B1' _ _ _ eq_refl) as (-> & _). cbn [decResult]. f_equal. f_equal.
  destruct (same_params (pubParams pub) (kParams c) RQ ltac:(apply KC)) as [EQ|NQ].
  2:{ rewrite (B2 _ _ _ NQ eq_refl). rewrite EP in NQ |- *. rewrite (B2' _ _ _ NQ eq_refl). reflexivity. }
  assert (N : ~ (pubVariant pub <> KeyVariantSike \/ prvVariant prv <> pubVariant pub \/ Z.of_nat (length ss) < KemSize (kParams c) \/ Z.of_nat (length ct) <> CiphertextSize (kParams c) \/ prvParams prv <> kParams c \/ CiphertextSize (kParams c) < PublicKeySize (pubParams pub))).
  { intros X. apply A in X. discriminate. }
  pose proof SH as (RV & _ & S2).
  assert (F : pubVariant pub = KeyVariantSike /\ prvVariant prv = pubVariant pub /\ KemSize (kParams c) <= Z.of_nat (length ss) /\ Z.of_nat (length ct) = CiphertextSize (kParams c) /\ prvParams prv = kParams c).
  { destruct (Z.eq_dec (pubVariant pub) KeyVariantSike); [|tauto]. destruct (Z.eq_dec (prvVariant prv) (pubVariant pub)); [|tauto]. destruct (Z_lt_le_dec (Z.of_nat (length ss)) (KemSize (kParams c))); [tauto|].
    destruct (Z.eq_dec (Z.of_nat (length ct)) (CiphertextSize (kParams c))); [|tauto]. destruct (same_params (prvParams prv) (kParams c) RV ltac:(apply KC)); tauto. }
  destruct F as (F1 & F2 & F3 & F4 & F5). rewrite F1 in F2. rewrite F2, F5 in S2. change (KeyVariantSike =? KeyVariantSike) with true in S2. cbv iota in S2.
  destruct (dec_ok g r c ss prv pub ct LR KC EQ F1 F5 F2 (shaped_long _ SH) BS S2 Hc F4 F3) as (t1 & _ & X1). rewrite X1 in E1. apply Ret_inj in E1. apply (f_equal (fun q => snd (fst q))) in E1. cbn [fst snd] in E1.
  rewrite EP in *. destruct (dec_ok g' r' d ss prv pub ct LR' KD EQ F1 F5 F2 (shaped_long _ SH) BS S2 Hc F4 F3) as (t2 & _ & X2). rewrite X2 in E2. apply Ret_inj in E2. apply (f_equal (fun q => snd (fst q))) in E2. cbn [fst snd] in E2.
  rewrite <- E1, <- E2. reflexivity.
Qed.
Print Assumptions C53_decapsulate.
Theorem C53_reset : forall c, Forall (eq 0) (kMsg (kemReset c)) /\ Forall (eq 0) (kSecret (kemReset c)) /\ length (kMsg (kemReset c)) = length (kMsg c) /\ length (kSecret (kemReset c)) = length (kSecret c) /\
  kRng (kemReset c) = kRng c /\ kParams (kemReset c) = kParams c.
Proof.
  intros c. unfold kemReset. cbn [kMsg kSecret kRng kParams]. rewrite !zeros_length, !Nat2Z.id.
  split; [apply Forall_repeat; reflexivity|]. split; [apply Forall_repeat; reflexivity|]. repeat split; reflexivity.
Qed.
Print Assumptions C53_reset.

(* ---------- C66: what Reset leaves behind ---------- *)
(* the shared secret of the last operation is still at the front of the hash object's buffer *)
Theorem C66_encapsulate_reset : forall g r c ct ss pub c' ct' ss', later r -> usedKem g r c -> bytes ct -> registered (pubParams pub) ->
  Encapsulate g r (Some c) ct ss pub = Ret (c', ct', ss', false) -> let n := Z.to_nat (KemSize (kParams c)) in
  firstn n (data (kShake (kemReset c'))) = firstn n ss'.
Proof.
  intros g r c ct ss pub c' ct' ss' LR UC Hc RQ H n. destruct (used_ok g r c LR UC) as [KC HC]. pose proof KC as (RP & _). pose proof (reg_sizes _ RP) as Z. destruct Z.
  destruct (C52_encapsulate g r c ct ss pub LR KC HC Hc RQ) as [A D]. destruct (D _ _ _ _ H) as (_ & _ & E & _). rewrite H in A.
  assert (N : ~ (pubVariant pub <> KeyVariantSike \/ Z.of_nat (length ss) < KemSize (kParams c) \/ Z.of_nat (length ct) < CiphertextSize (kParams c) \/ (pubParams pub <> kParams c /\ MsgLen (kParams c) <= Z.of_nat (length (kRng c))))).
  { intros X. apply A in X. discriminate. }
  assert (L3 : MsgLen (kParams c) <= Z.of_nat (length (kRng c))).
  { destruct (Z_lt_le_dec (Z.of_nat (length (kRng c))) (MsgLen (kParams c))) as [L|L]; [|exact L]. apply E in L. discriminate. }
  destruct (Z.eq_dec (pubVariant pub) KeyVariantSike) as [EV|]; [|tauto]. destruct (Z_lt_le_dec (Z.of_nat (length ss)) (KemSize (kParams c))) as [|L1]; [tauto|]. destruct (Z_lt_le_dec (Z.of_nat (length ct)) (CiphertextSize (kParams c))) as [|L2]; [tauto|].
  destruct (same_params (pubParams pub) (kParams c) RQ RP) as [EQ|NQ]; [|tauto].
  destruct (enc_ok g r c ct ss pub LR KC EQ EV HC Hc L3 L2 L1) as (s1 & (H1 & H2) & E1). rewrite E1 in H. apply Ret_inj in H.
  pose proof (f_equal (fun q => kShake (fst (fst (fst q)))) H) as X. pose proof (f_equal (fun q => snd (fst q)) H) as Y. cbn [fst snd kShake] in X, Y. rewrite <- Y. cbn [kemReset kShake]. rewrite <- X.
  set (K := sikeKey _ _ _) in *. assert (LK : length K = n).
  { destruct (enc_ok g r c ct ss pub LR KC EQ EV HC Hc L3 L2 L1) as (s1' & _ & E1'). destruct (D _ _ _ _ E1') as (_ & LS & _). fold K in LS. rewrite app_length, skipn_length in LS. fold n in LS. lia. }
  rewrite firstn_prefix by exact LK. rewrite <- LK. exact H2.
Qed.
Print Assumptions C66_encapsulate_reset.
Theorem C66_decapsulate_reset : forall g r c ct ss prv pub c' ss', later r -> usedKem g r c -> bytes ct -> pubParams pub = kParams c -> shaped prv -> bytes (prvS prv) ->
  Decapsulate g r (Some c) ss prv pub ct = Ret (c', ss', false) -> let n := Z.to_nat (KemSize (kParams c)) in
  firstn n (data (kShake (kemReset c'))) = firstn n ss'.
Proof.
  intros g r c ct ss prv pub c' ss' LR UC Hc EQ SH BS H n. destruct (used_ok g r c LR UC) as [KC HC]. pose proof KC as (RP & _). pose proof (reg_sizes _ RP) as Z. destruct Z.
  assert (RQ : registered (pubParams pub)) by (rewrite EQ; exact RP).
  destruct (C52_decapsulate g r c ss prv pub ct LR KC Hc RQ SH BS) as (A & D & _). destruct (D _ _ _ H) as (_ & LS & _). rewrite H in A.
  assert (N : ~ (pubVariant pub <> KeyVariantSike \/ prvVariant prv <> pubVariant pub \/ Z.of_nat (length ss) < KemSize (kParams c) \/ Z.of_nat (length ct) <> CiphertextSize (kParams c) \/ prvParams prv <> kParams c \/ CiphertextSize (kParams c) < PublicKeySize (pubParams pub))).
  { intros X. apply A in X. discriminate. }
  pose proof SH as (RV & _ & S2).
  assert (F : pubVariant pub = KeyVariantSike /\ prvVariant prv = pubVariant pub /\ KemSize (kParams c) <= Z.of_nat (length ss) /\ Z.of_nat (length ct) = CiphertextSize (kParams c) /\ prvParams prv = kParams c).
  { destruct (Z.eq_dec (pubVariant pub) KeyVariantSike); [|tauto]. destruct (Z.eq_dec (prvVariant prv) (pubVariant pub)); [|tauto]. destruct (Z_lt_le_dec (Z.of_nat (length ss)) (KemSize (kParams c))); [tauto|].
    destruct (Z.eq_dec (Z.of_nat (length ct)) (CiphertextSize (kParams c))); [|tauto]. destruct (same_params (prvParams prv) (kParams c) RV RP); tauto. }
  destruct F as (F1 & F2 & F3 & F4 & F5). rewrite F1 in F2. rewrite F2, F5 in S2. change (KeyVariantSike =? KeyVariantSike) with true in S2. cbv iota in S2.
  destruct (dec_ok g r c ss prv pub ct LR KC EQ F1 F5 F2 (shaped_long _ SH) BS S2 Hc F4 F3) as (t1 & (H1 & H2) & X1). rewrite X1 in H. apply Ret_inj in H.
  pose proof (f_equal (fun q => kShake (fst (fst q))) H) as X. pose proof (f_equal (fun q => snd (fst q)) H) as Y. cbn [fst snd kShake] in X, Y. rewrite <- Y. cbn [kemReset kShake]. rewrite <- X.
  set (K := sikeDecaps _ _ _ _) in *. assert (LK : length K = n).
  { rewrite <- Y in LS. rewrite app_length, skipn_length in LS. fold n in LS. lia. }
  rewrite firstn_prefix by exact LK. rewrite <- LK. exact H2.
Qed.
Print Assumptions C66_decapsulate_reset.

(* ---------- a case meeting the hypotheses ---------- *)
(* fresh objects (the first used and reset before), a generated key and its exported and re-imported public key *)
Example ex_SIKE : exists r c d prv rest, later r /\ NewSike434 r (repeat 7 40) = Ret c /\ NewSike434 r [] = Ret d /\
  bind (NewPrivateKey r Fp434 KeyVariantSike) (fun k => Generate k (repeat 99 60)) = Ret (prv, rest, false) /\
  usedKem true r c /\ usedKem false r d /\ sikePrv prv /\ prvParams prv = kParams c /\ rest = repeat 99 16 /\
  let pub := keyOf params434 KeyVariantSike (exported (pubOf prv)) in matches prv pub /\
  (exists c1 d1 ct K, Encapsulate true r (Some (kemReset c)) (repeat 5 346) (repeat 0 20) pub = Ret (c1, ct, K ++ repeat 0 4, false) /\ length K = 16%nat /\ length ct = 346%nat /\
    Decapsulate false r (Some d) (repeat 1 16) prv pub ct = Ret (d1, K, false) /\ Decapsulate true r (Some c1) (repeat 1 15) prv pub ct = Panic) /\
  Encapsulate false r (Some d) (repeat 5 346) (repeat 0 20) pub = Ret (d, repeat 5 346, repeat 0 20, true) /\
  Encapsulate false r (Some d) (repeat 5 346) (repeat 0 20) (keyOf params434 KeyVariantSidhB (exported (pubOf prv))) = Panic.
Proof.
  set (r := [(Fp751, params751); (Fp503, params503); (Fp434, params434)]). assert (LR : later r) by (apply l_init; reflexivity).
  set (prv := mkPrv params434 KeyVariantSike (repeat 99 27 ++ [1]) (repeat 99 16)).
  assert (b7 : bytes (repeat 7 40)) by (apply Forall_repeat; unfold is_byte; lia). assert (b5 : bytes (repeat 5 346)) by (apply Forall_repeat; unfold is_byte; lia).
  assert (SP : sikePrv prv).
  { split; [split; [left; reflexivity|split; reflexivity]|]. split; [reflexivity|]. split; [apply bytes_app; [apply Forall_repeat; unfold is_byte; lia|repeat constructor; lia]|apply Forall_repeat; unfold is_byte; lia]. }
  exists r. eexists. eexists. exists prv, (repeat 99 16). split; [exact LR|]. split; [reflexivity|]. split; [reflexivity|]. split; [vm_compute; reflexivity|].
  match goal with |- usedKem _ _ ?x /\ usedKem _ _ ?y /\ _ => set (c := x); set (d := y) end.
  assert (UC : usedKem true r c) by (apply (u_new true r Fp434 (repeat 7 40)); [left; reflexivity|exact b7|reflexivity]).
  assert (UD : usedKem false r d) by (apply (u_new false r Fp434 []); [left; reflexivity|constructor|reflexivity]).
  split; [exact UC|]. split; [exact UD|]. split; [exact SP|]. split; [reflexivity|]. split; [reflexivity|]. intros pub. pose proof (proj2 (C50_matches prv SP)) as MT. change (prvParams prv) with params434 in MT. fold pub in MT.
  split; [exact MT|]. pose proof MT as (M1 & M2 & _). change (pubParams pub = params434) in M1. change (pubVariant pub = KeyVariantSike) in M2.
  split; [|split; [unfold Encapsulate; rewrite M2; reflexivity|reflexivity]]. clearbody pub.
  - assert (L1 : MsgLen (kParams (kemReset c)) <= Z.of_nat (length (kRng (kemReset c)))) by (apply Z.leb_le; reflexivity).
    assert (L2 : Z.of_nat (length (repeat 5 346)) = CiphertextSize (kParams (kemReset c))) by reflexivity.
    assert (L3 : KemSize (kParams (kemReset c)) <= Z.of_nat (length (repeat 0 20))) by (apply Z.leb_le; reflexivity).
    assert (L4 : KemSize (kParams (kemReset c)) <= Z.of_nat (length (repeat 1 16))) by (apply Z.leb_le; reflexivity).
    destruct (C50_sike true false r r (kemReset c) d (repeat 5 346) (repeat 0 20) (repeat 1 16) prv pub pub LR LR (u_reset _ _ _ UC) UD eq_refl SP eq_refl MT MT L1 b5 L2 L3 L4) as (c1 & d1 & ct & K & E1 & E2 & LK & LC).
    change (KemSize (kParams (kemReset c))) with 16 in LK. change (CiphertextSize (kParams (kemReset c))) with 346 in LC. assert (LK' : length K = 16%nat) by lia. rewrite LK' in E1, E2. rewrite skipn_all2, app_nil_r in E2 by (rewrite repeat_length; lia).
    exists c1, d1, ct, K. split; [exact E1|]. split; [exact LK'|]. split; [lia|]. split; [exact E2|].
    assert (EP : kParams c1 = params434).
    { destruct (enc_ok true r (kemReset c) (repeat 5 346) (repeat 0 20) pub LR (proj1 (used_ok _ _ _ LR (u_reset _ _ _ UC))) M1 M2 b7 b5 L1 ltac:(rewrite L2; apply Z.le_refl) L3) as (s1 & _ & E). rewrite E1 in E. apply Ret_inj in E. apply (f_equal (fun q => kParams (fst (fst (fst q))))) in E. exact E. }
    unfold Decapsulate. rewrite EP, M2. reflexivity.
Qed.
