(* The multi-recipient SIKE KEM: C54, C55. *)
From Coq Require Import ZArith List Lia Bool.
From Verif Require Import Lib Sha3_Spec Sha3_Iface Sha3_Model Sha3_Client Sha3_Proofs Sha3_Proofs2 P_SHA3.
From Verif Require Import MP Instr SIDH_Consts SIDH_Field SIDH_FieldProofs SIDH_Inst SIDH_Curve SIDH_Line SIDH_Traverse SIDH_Bytes P_SIDH_Field SIDH_Final SIDH_Api SIDH_ApiProofs P_SIDH_Api SIKE_Model SIKE_Spec SIKE_Proofs P_SIKE MKEM_Model MKEM_Spec MKEM_Proofs.
Import ListNotations.
Open Scope Z_scope.

(* ---------- what panics ---------- *)
Lemma good_or_bad : forall P pub, registered P -> Forall (fun pk => registered (pubParams pk)) pub ->
  Forall (goodPub P) pub \/ Exists (fun pk => pubVariant pk <> KeyVariantSike \/ pubParams pk <> P) pub.
Proof.
  intros P pub RP H. induction H as [|pk pub R H IH]; [left; constructor|]. destruct IH as [IH|IH]; [|right; apply Exists_cons_tl; exact IH].
  destruct (Z.eq_dec (pubVariant pk) KeyVariantSike) as [E|E]; [|right; apply Exists_cons_hd; left; exact E].
  destruct (same_params (pubParams pk) P R RP) as [Q|Q]; [|right; apply Exists_cons_hd; right; exact Q]. left. constructor; [split; assumption|exact IH].
Qed.
Theorem C55_panics : forall g r c ss pub, later r -> mkemOk c -> Forall (fun pk => registered (pubParams pk)) pub -> let k := mKem c in let P := kParams k in
  (multiEncapsulate g r (Some c) ss pub = Panic <->
    Z.of_nat (length ss) < KemSize P \/
    (MsgLen P <= Z.of_nat (length (kRng k)) /\ (Exists (fun pk => pubVariant pk <> KeyVariantSike \/ pubParams pk <> P) pub \/ (length (mCts c) < length pub)%nat))) /\
  (KemSize P <= Z.of_nat (length ss) -> Z.of_nat (length (kRng k)) < MsgLen P -> multiEncapsulate g r (Some c) ss pub =
     Ret (mkMulti (mkKem [] (kRng k ++ skipn (length (kRng k)) (kMsg k)) (kSecret k) P (kShake k)) (mCt0 c) (mCts c) (mJ c), ss, true)).
Proof.
  intros g r c ss pub LR KO HR k P. pose proof KO as ((RP & K1 & K2 & K3) & HB & HC0 & LC0 & HC & LJ). fold k in K1, K2, K3, HB, RP. fold P in K1, K2, RP. pose proof (reg_sizes P RP) as Z. destruct Z.
  assert (SH : KemSize P <= Z.of_nat (length ss) -> Z.of_nat (length (kRng k)) < MsgLen P -> multiEncapsulate g r (Some c) ss pub =
     Ret (mkMulti (mkKem [] (kRng k ++ skipn (length (kRng k)) (kMsg k)) (kSecret k) P (kShake k)) (mCt0 c) (mCts c) (mJ c), ss, true)).
  { intros LS LM. unfold multiEncapsulate. fold k P. replace (_ <? _) with false by (symmetry; apply Z.ltb_ge; lia). rewrite readFull_bad by lia. reflexivity. }
  split; [|exact SH]. split.
  - intros H. destruct (Z_lt_le_dec (Z.of_nat (length ss)) (KemSize P)) as [L|LS]; [left; exact L|]. right.
    destruct (Z_lt_le_dec (Z.of_nat (length (kRng k))) (MsgLen P)) as [L|LM]; [rewrite SH in H by assumption; discriminate|]. split; [exact LM|].
    destruct (le_lt_dec (length pub) (length (mCts c))) as [L|L]; [left|right; exact L].
    destruct (good_or_bad P pub RP HR) as [HG|HX]; [|exact HX].
    exfalso. destruct (menc_ok g r c ss pub LR KO HG L LM LS) as (s' & j' & _ & _ & E). rewrite E in H. discriminate.
  - intros [L|[LM HX]]; unfold multiEncapsulate; fold k P.
    + replace (_ <? _) with true by (symmetry; apply Z.ltb_lt; exact L). reflexivity.
    + destruct (_ <? _); [reflexivity|]. rewrite readFull_ok by lia. set (m := firstn _ (kRng k)).
      assert (Lm : Z.of_nat (length m) = MsgLen P) by (unfold m; rewrite firstn_length_le; lia). assert (Bm : bytes m) by (apply Forall_firstn; exact HB).
      rewrite (new_key P RP r KeyVariantSidhA LR). cbn [bind]. rewrite sub_ok by lia. rewrite Z.sub_0_r, skipn_O, firstn_all2 by lia. cbn [bind].
      destruct (scalar_ok g (kShake k) P m (kSecret k) RP K3 Bm K2) as (s1 & x & H1 & E1 & M1). rewrite E1, M1. cbn [bind]. fold (mkemEph P m).
      rewrite (gen_into P) by (try reflexivity; try assumption; apply mkem_long; exact RP). cbn [bind].
      destruct (pubOf_ok P RP (mkemEph P m) eq_refl (mkem_long P m RP)) as (_ & O2 & _). destruct (exported_ok P RP _ O2) as (X1 & X2 & X3). unfold MaxPublicKeySz in LC0. rewrite X3 by lia. cbn [bind].
      rewrite (loop_panic g P (mkemEph P m) m RP eq_refl eq_refl (mkem_long P m RP) Bm Lm pub s1 (mJ c) (mCts c) 0%nat H1 LJ HC HR); [reflexivity| |lia].
      destruct HX as [HX|HX]; [left|right; lia]. eapply Exists_impl; [|exact HX]. intros pk [A|A] [G G']; apply A; assumption.
Qed.
Print Assumptions C55_panics.
Theorem C54_panics : forall g r c ss prv pub ct, later r -> mkemOk c -> bytes (kMsg (mKem c)) -> registered (pubParams pub) -> shaped prv -> bytes (prvS prv) -> bytes ct -> let k := mKem c in let P := kParams k in
  multiDecapsulate g r (Some c) ss prv pub ct = Panic <->
    pubVariant pub <> KeyVariantSike \/ prvVariant prv <> pubVariant pub \/ Z.of_nat (length ss) < KemSize P \/ Z.of_nat (length ct) <> KemSize P \/ prvParams prv <> P \/ pubParams pub <> P.
Proof.
  intros g r c ss prv pub ct LR KO HM RQ SH BS Hc k P. pose proof KO as ((RP & K1 & K2 & K3) & HB & HC0 & LC0 & HC & LJ). fold k in K1, K2, K3, HB, RP. fold P in K1, K2, RP. pose proof (reg_sizes P RP) as Z. destruct Z.
  pose proof SH as (RV & _ & S2). pose proof (shaped_long prv SH) as LE. split.
  - intros H. destruct (Z.eq_dec (pubVariant pub) KeyVariantSike) as [EV|]; [right|left; assumption]. destruct (Z.eq_dec (prvVariant prv) (pubVariant pub)) as [EV'|]; [right|left; assumption].
    destruct (Z_lt_le_dec (Z.of_nat (length ss)) (KemSize P)) as [L|LS]; [left; exact L|right]. destruct (Z.eq_dec (Z.of_nat (length ct)) (KemSize P)) as [LC|]; [right|left; assumption].
    destruct (same_params (prvParams prv) P RV RP) as [E1|N1]; [right|left; exact N1]. destruct (same_params (pubParams pub) P RQ RP) as [E2|N2]; [exfalso|exact N2].
    rewrite EV in EV'. rewrite EV', E1 in S2. change (KeyVariantSike =? KeyVariantSike) with true in S2. cbv iota in S2.
    destruct (mdec_ok g r c ss prv pub ct LR KO E2 EV E1 EV' LE BS S2 HM Hc LC LS) as (s' & j' & _ & _ & E). rewrite E in H. discriminate.
  - intros H. unfold multiDecapsulate. fold k P. destruct (Z.eqb_spec KeyVariantSike (pubVariant pub)) as [EV|NV]; [|reflexivity]. cbn [negb].
    destruct (Z.eqb_spec (pubVariant pub) (prvVariant prv)) as [EV'|NV']; [|reflexivity]. cbn [negb]. destruct (Z.ltb_spec (Z.of_nat (length ss)) (KemSize P)) as [|LS]; [reflexivity|].
    destruct (Z.eqb_spec (Z.of_nat (length ct)) (KemSize P)) as [LC|]; [|reflexivity]. cbn [negb]. rewrite (new_key P RP r KeyVariantSidhA LR). cbn [bind].
    destruct (sub (mCt0 c) 0 (PublicKeySize P)) as [c0|] eqn:E0; [|reflexivity]. cbn [bind].
    unfold MaxPublicKeySz, MaxSharedSecretBsz in *. rewrite sub_ok in E0 by lia. apply Ret_inj in E0. rewrite Z.sub_0_r, skipn_O in E0. subst c0. set (c0 := firstn _ (mCt0 c)).
    assert (B0 : bytes c0) by (apply Forall_firstn; exact HC0). assert (L0 : Z.of_nat (length c0) = PublicKeySize P) by (unfold c0; rewrite firstn_length_le; lia).
    destruct (keyOf_ok P RP KeyVariantSidhA c0 B0 L0) as (I1 & I2 & I3 & _). rewrite I1. cbn [bind].
    destruct (same_params (prvParams prv) P RV RP) as [E1|N1].
    2:{ unfold DeriveSecret at 1. rewrite I2. destruct (Z.eqb_spec (pID P) (pID (prvParams prv))) as [E|E]; [exfalso; apply N1; symmetry; apply reg_id; assumption|]. rewrite orb_true_r. reflexivity. }
    destruct (same_params (pubParams pub) P RQ RP) as [E2|N2]; [exfalso; destruct H as [H|[H|[H|[H|[H|H]]]]]; try congruence; lia|].
    destruct (DeriveSecret prv (mJ c) _) as [j|]; [|reflexivity]. cbn [bind]. destruct (sub j 0 _) as [b|]; [|reflexivity]. cbn [bind]. destruct (shakeTo _ _ _ _ _) as [[s m]|]; [|reflexivity]. cbn [bind].
    destruct (sub ct 0 _) as [x|]; [|reflexivity]. cbn [bind]. destruct (xorInto m x) as [m1|]; [|reflexivity]. cbn [bind]. destruct (sub m1 0 _) as [p|]; [|reflexivity]. cbn [bind].
    destruct (shakeRun _ _ _ _) as [s1 sc]. destruct (maskA P sc) as [sc1|]; [|reflexivity]. cbn [bind]. destruct (GeneratePublicKey _ _) as [pk|]; [|reflexivity]. cbn [bind].
    destruct (sub (zeros _) 0 _) as [rb|]; [|reflexivity]. cbn [bind]. destruct (pubExport pk rb) as [rb1|]; [|reflexivity]. cbn [bind].
    unfold DeriveSecret at 1. cbn [prvParams]. destruct (Z.eqb_spec (pID (pubParams pub)) (pID P)) as [E|E]; [exfalso; apply N2; apply reg_id; assumption|]. rewrite orb_true_r. reflexivity.
Qed.
Print Assumptions C54_panics.
Theorem C54_unallocated : forall g r ss prv pub pubs ct, multiEncapsulate g r None ss pubs = Panic /\ multiDecapsulate g r None ss prv pub ct = Panic.
Proof. intros. split; reflexivity. Qed.
Print Assumptions C54_unallocated.

(* ---------- objects with a history ---------- *)
(* also through the methods of the embedded KEM *)
Inductive usedMulti (g : bool) (r : registry) : mkem -> Prop :=
| um_new : forall id n rng c, id = Fp434 \/ id = Fp503 \/ id = Fp751 -> bytes rng -> newMulti r id n rng = Ret c -> usedMulti g r c
| um_again : forall id n rng c c', usedMulti g r c -> id = Fp434 \/ id = Fp503 \/ id = Fp751 -> bytes rng -> multiAllocate r id n rng (mCt0 c) (mJ c) = Ret c' -> usedMulti g r c'
| um_enc : forall c ss pub c' ss' e, usedMulti g r c -> Forall (fun pk => registered (pubParams pk)) pub -> multiEncapsulate g r (Some c) ss pub = Ret (c', ss', e) -> usedMulti g r c'
| um_dec : forall c ss prv pub ct c' ss' e, usedMulti g r c -> bytes ct -> registered (pubParams pub) -> shaped prv -> bytes (prvS prv) -> multiDecapsulate g r (Some c) ss prv pub ct = Ret (c', ss', e) -> usedMulti g r c'
| um_kenc : forall c ct ss pub k' ct' ss' e, usedMulti g r c -> bytes ct -> registered (pubParams pub) -> Encapsulate g r (Some (mKem c)) ct ss pub = Ret (k', ct', ss', e) -> usedMulti g r (mkMulti k' (mCt0 c) (mCts c) (mJ c))
| um_kdec : forall c ss prv pub ct k' ss' e, usedMulti g r c -> bytes ct -> registered (pubParams pub) -> shaped prv -> bytes (prvS prv) -> Decapsulate g r (Some (mKem c)) ss prv pub ct = Ret (k', ss', e) -> usedMulti g r (mkMulti k' (mCt0 c) (mCts c) (mJ c))
| um_reset : forall c, usedMulti g r c -> usedMulti g r (multiReset c).
Lemma zeros_bytes : forall n, bytes (zeros n).
Proof. intros. apply Forall_repeat. unfold is_byte. lia. Qed.
Lemma pub_ok_bytes : forall P m, registered P -> bytes (mkemCt0 P m) /\ Z.of_nat (length (mkemCt0 P m)) = PublicKeySize P.
Proof.
  intros P m RP. destruct (pubOf_ok P RP (mkemEph P m) eq_refl (mkem_long P m RP)) as (_ & O2 & _). destruct (exported_ok P RP _ O2) as (X1 & X2 & _). split; assumption.
Qed.
Lemma cti_ok : forall P m pub, registered P -> bytes m -> goodPub P pub -> bytes (mkemCti P m pub) /\ length (mkemCti P m pub) = length m.
Proof.
  intros P m pub RP Hm [V Q]. destruct (derive_gen P RP (mkemEph P m) pub eq_refl (mkem_long P m RP) ltac:(rewrite V; discriminate) ltac:(rewrite Q; reflexivity)) as (D1 & D2 & _).
  split; [apply pad_bytes; exact Hm|apply pad_length, one_byte; [lia|exact D1]].
Qed.
Lemma fill_ok : forall P m, registered P -> bytes m -> Z.of_nat (length m) = MsgLen P -> forall pub cts, Forall (goodPub P) pub -> Forall (fun x => Z.of_nat (length x) = MaxMsgBsz) cts ->
  Forall (fun x => Z.of_nat (length x) = MaxMsgBsz) (fillCts (mkemCti P m) pub cts).
Proof.
  intros P m RP Hm Lm. pose proof (reg_sizes P RP) as Z. destruct Z. induction pub as [|pk pub IH]; intros [|x cts] HG HC; cbn [fillCts]; try assumption.
  inversion HG; subst. inversion HC; subst. constructor; [|apply IH; assumption]. destruct (cti_ok P m pk RP Hm ltac:(assumption)) as [_ L]. unfold MaxMsgBsz in *. rewrite app_length, skipn_length. lia.
Qed.
Lemma kenc_step : forall g r c ct ss pub c' ct' ss' e, later r -> kemOk c -> bytes (kRng c) -> bytes (kMsg c) -> bytes ct -> registered (pubParams pub) -> Encapsulate g r (Some c) ct ss pub = Ret (c', ct', ss', e) -> kemOk c' /\ bytes (kRng c') /\ bytes (kMsg c').
Proof.
  intros g r c ct ss pub c' ct' ss' e LR K Hb Hm Hc RQ HE.
  destruct (C52_encapsulate g r c ct ss pub LR K Hb Hc RQ) as [A D]. rewrite HE in A. pose proof K as (RP & K1 & K2 & K3). pose proof (reg_sizes _ RP) as Z. destruct Z.
  assert (NP : ~ (pubVariant pub <> KeyVariantSike \/ Z.of_nat (length ss) < KemSize (kParams c) \/ Z.of_nat (length ct) < CiphertextSize (kParams c) \/ pubParams pub <> kParams c /\ MsgLen (kParams c) <= Z.of_nat (length (kRng c)))) by (intros X; apply A in X; discriminate).
  destruct (Z.eq_dec (pubVariant pub) KeyVariantSike) as [EV|]; [|tauto]. destruct (Z_lt_le_dec (Z.of_nat (length ss)) (KemSize (kParams c))) as [|L1]; [tauto|]. destruct (Z_lt_le_dec (Z.of_nat (length ct)) (CiphertextSize (kParams c))) as [|L2]; [tauto|].
  destruct (Z_lt_le_dec (Z.of_nat (length (kRng c))) (MsgLen (kParams c))) as [L3|L3].
  + rewrite (enc_fail g r c ct ss pub K EV L3 L2 L1) in HE. apply Ret_inj in HE. pose proof (f_equal (fun q => fst (fst (fst q))) HE) as X. cbn [fst snd] in X. subst c'. split; [|split; [constructor|apply bytes_app; [exact Hb|apply Forall_skipn; exact Hm]]]. unfold kemOk. cbn [kParams kMsg kSecret kShake].
    split; [exact RP|]. split; [rewrite app_length, skipn_length; lia|]. split; [exact K2|exact K3].
  + destruct (same_params (pubParams pub) (kParams c) RQ RP) as [EP|NE]; [|tauto].
    destruct (enc_ok g r c ct ss pub LR K EP EV Hb Hc L3 L2 L1) as (s' & HS & E). rewrite E in HE. apply Ret_inj in HE. pose proof (f_equal (fun q => fst (fst (fst q))) HE) as X. cbn [fst snd] in X. subst c'.
    unfold kemOk. cbn [kParams kMsg kSecret kShake kRng]. split; [|split; [apply Forall_skipn; exact Hb|apply Forall_firstn; exact Hb]]. split; [exact RP|]. split; [rewrite firstn_length_le; lia|]. split; [unfold ephScalar; rewrite le_enc_length; lia|apply HS].
Qed.
Lemma usedMulti_ok : forall g r c, later r -> usedMulti g r c -> mkemOk c /\ bytes (kMsg (mKem c)).
Proof.
  intros g r c LR H. assert (AL : forall id rng ct0 j n c, id = Fp434 \/ id = Fp503 \/ id = Fp751 -> bytes rng -> bytes ct0 -> Z.of_nat (length ct0) = MaxPublicKeySz -> Z.of_nat (length j) = MaxSharedSecretBsz ->
    multiAllocate r id n rng ct0 j = Ret c -> mkemOk c /\ bytes (kMsg (mKem c))).
  { intros id rng ct0 j n c' HI Hb Hc Lc Lj HA. unfold multiAllocate in HA. destruct (C49_builtin r LR) as (A & C & D). assert (EP : exists P, Params r id = Ret P /\ registered P).
    { destruct HI as [->|[->| ->]]; [exists params434|exists params503|exists params751]; (split; [assumption|]); [left|right; left|right; right]; reflexivity. }
    destruct EP as (P & EP & RP). rewrite EP in HA. cbn [bind] in HA. apply Ret_inj in HA. subst c'. pose proof (reg_sizes P RP) as Z. destruct Z.
    split; [|apply zeros_bytes]. split; [|split; [exact Hb|split; [exact Hc|split; [exact Lc|split; [|exact Lj]]]]].
    - unfold kemOk. cbn [mKem kParams kMsg kSecret kShake]. rewrite !zeros_length. split; [exact RP|]. split; [lia|]. split; [lia|exact isShake_new].
    - cbn [mCts]. apply Forall_repeat. rewrite zeros_length. reflexivity. }
  induction H as [id n rng c HI Hb HA|id n rng c c' H [K Hm] HI Hb HA|c ss pub c' ss' e H [K Hm] RQ HE|c ss prv pub ct c' ss' e H [K Hm] Hc RQ SH BS HD|c ct ss pub k' ct' ss' e H [K Hm] Hc RQ HE|c ss prv pub ct k' ss' e H [K Hm] Hc RQ SH BS HD|c H [K Hm]].
  - apply (AL id rng (zeros MaxPublicKeySz) (zeros MaxSharedSecretBsz) n c HI Hb); [apply zeros_bytes|reflexivity|reflexivity|exact HA].
  - destruct K as (_ & _ & B0 & L0 & _ & LJ). exact (AL id rng (mCt0 c) (mJ c) n c' HI Hb B0 L0 LJ HA).
  - destruct (C55_panics g r c ss pub LR K RQ) as [A D]. rewrite HE in A. pose proof K as ((RP & K1 & K2 & K3) & HB & HC0 & LC0 & HC & LJ). pose proof (reg_sizes _ RP) as Z. destruct Z.
    destruct (Z_lt_le_dec (Z.of_nat (length ss)) (KemSize (kParams (mKem c)))) as [L|LS]; [discriminate (proj2 A ltac:((left; exact L)))|].
    destruct (Z_lt_le_dec (Z.of_nat (length (kRng (mKem c)))) (MsgLen (kParams (mKem c)))) as [L|LM].
    + rewrite D in HE by assumption. apply Ret_inj in HE. apply (f_equal (fun q => fst (fst q))) in HE. cbn [fst] in HE. subst c'. unfold mkemOk, kemOk. cbn [mKem mCt0 mCts mJ kRng kMsg kSecret kParams kShake].
      split; [|apply bytes_app; [exact HB|apply Forall_skipn; exact Hm]]. split; [split; [exact RP|split; [rewrite app_length, skipn_length; lia|split; [exact K2|exact K3]]]|]. split; [constructor|]. split; [exact HC0|]. split; [exact LC0|]. split; [exact HC|exact LJ].
    + destruct (good_or_bad _ pub RP RQ) as [HG|HX]; [|discriminate (proj2 A ltac:((right; auto)))].
      destruct (le_lt_dec (length pub) (length (mCts c))) as [L|L]; [|discriminate (proj2 A ltac:((right; auto)))].
      destruct (menc_ok g r c ss pub LR K HG L LM LS) as (s1 & j1 & H1 & L1 & E1). rewrite E1 in HE. apply Ret_inj in HE. apply (f_equal (fun q => fst (fst q))) in HE. cbn [fst] in HE. subst c'.
      unfold mkemOk, kemOk. cbn [mKem mCt0 mCts mJ kRng kMsg kSecret kParams kShake]. set (P := kParams (mKem c)) in *. set (m := firstn _ (kRng (mKem c))) in *.
      assert (Bm : bytes m) by (apply Forall_firstn; exact HB). assert (Lm : Z.of_nat (length m) = MsgLen P) by (unfold m; rewrite firstn_length_le; lia). destruct (pub_ok_bytes P m RP) as [Y1 Y2]. unfold MaxPublicKeySz in *.
      split; [|exact Bm]. split; [split; [exact RP|split; [exact Lm|split; [unfold mkemScalar; rewrite le_enc_length; lia|exact H1]]]|]. split; [apply Forall_skipn; exact HB|].
      split; [apply bytes_app; [exact Y1|apply Forall_skipn; exact HC0]|]. split; [rewrite app_length, skipn_length; lia|]. split; [apply fill_ok; assumption|exact L1].
  - pose proof (C54_panics g r c ss prv pub ct LR K Hm RQ SH BS Hc) as A. rewrite HD in A. pose proof K as ((RP & K1 & K2 & K3) & HB & HC0 & LC0 & HC & LJ). pose proof (reg_sizes _ RP) as Z. destruct Z.
    set (P := kParams (mKem c)) in *. pose proof SH as (RV & _ & S2).
    destruct (Z.eq_dec (pubVariant pub) KeyVariantSike) as [EV|N]; [|discriminate (proj2 A ltac:(auto))].
    destruct (Z.eq_dec (prvVariant prv) (pubVariant pub)) as [EV'|N]; [|discriminate (proj2 A ltac:(auto))].
    destruct (Z_lt_le_dec (Z.of_nat (length ss)) (KemSize P)) as [N|LS]; [discriminate (proj2 A ltac:(auto))|].
    destruct (Z.eq_dec (Z.of_nat (length ct)) (KemSize P)) as [LC|N]; [|discriminate (proj2 A ltac:(auto 6))].
    destruct (same_params (prvParams prv) P RV RP) as [E1|N]; [|discriminate (proj2 A ltac:(auto 7))].
    destruct (same_params (pubParams pub) P RQ RP) as [E2|N]; [|discriminate (proj2 A ltac:(auto 8))].
    rewrite EV in EV'. rewrite EV', E1 in S2. change (KeyVariantSike =? KeyVariantSike) with true in S2. cbv iota in S2.
    destruct (mdec_ok g r c ss prv pub ct LR K E2 EV E1 EV' (shaped_long prv SH) BS S2 Hm Hc LC LS) as (s1 & j1 & H1 & L1 & X). rewrite X in HD. apply Ret_inj in HD. apply (f_equal (fun q => fst (fst q))) in HD. cbn [fst] in HD. subst c'.
    unfold mkemOk, kemOk. cbn [mKem mCt0 mCts mJ kRng kMsg kSecret kParams kShake]. fold P.
    split; [|exact Hm]. split; [split; [exact RP|split; [exact K1|split; [unfold mkemScalar; rewrite le_enc_length; lia|exact H1]]]|]. split; [exact HB|]. split; [exact HC0|]. split; [exact LC0|]. split; [exact HC|exact L1].
  - destruct K as (K & HB & K'). destruct (kenc_step g r _ ct ss pub k' ct' ss' e LR K HB Hm Hc RQ HE) as (K1 & K2 & K3). split; [|exact K3]. split; [exact K1|]. split; [exact K2|exact K'].
  - destruct K as (K & HB & K'). destruct (C52_decapsulate g r _ ss prv pub ct LR K Hc RQ SH BS) as (_ & D & _). destruct (D _ _ _ HD) as (_ & _ & K1 & _ & ER & EM).
    split; [|cbn [mKem]; rewrite EM; exact Hm]. split; [exact K1|]. split; [cbn [mKem]; rewrite ER; exact HB|exact K'].
  - destruct K as ((RP & K1 & K2 & K3) & HB & HC0 & LC0 & HC & LJ). unfold multiReset, kemReset. cbn [mKem kMsg]. split; [|apply zeros_bytes]. split; [|split; [exact HB|split; [exact HC0|split; [exact LC0|split; [exact HC|exact LJ]]]]].
    unfold kemOk. cbn [mKem kParams kMsg kSecret kShake]. rewrite !zeros_length, !Nat2Z.id. split; [exact RP|]. split; [exact K1|]. split; [exact K2|exact K3].
Qed.

(* ---------- C55: what Encapsulate produces ---------- *)
(* one message and one ct0 for everybody; entry i is the encryption for key i; the other entries and the ends of
   the buffers keep their contents *)
Theorem C55_encapsulate : forall g r c ss pub, later r -> usedMulti g r c -> let k := mKem c in let P := kParams k in let m := firstn (Z.to_nat (MsgLen P)) (kRng k) in
  Forall (goodPub P) pub -> (length pub <= length (mCts c))%nat -> MsgLen P <= Z.of_nat (length (kRng k)) -> KemSize P <= Z.of_nat (length ss) ->
  exists c', multiEncapsulate g r (Some c) ss pub = Ret (c', mkemKey P m ++ skipn (Z.to_nat (KemSize P)) ss, false) /\
    mCt0 c' = mkemCt0 P m ++ skipn (Z.to_nat (PublicKeySize P)) (mCt0 c) /\ kMsg (mKem c') = m /\ kRng (mKem c') = skipn (Z.to_nat (MsgLen P)) (kRng k) /\ kParams (mKem c') = P /\
    length (mCts c') = length (mCts c) /\
    (forall i pk, nth_error pub i = Some pk -> exists old, nth_error (mCts c) i = Some old /\ nth_error (mCts c') i = Some (mkemCti P m pk ++ skipn (Z.to_nat (MsgLen P)) old)) /\
    (forall i, (length pub <= i)%nat -> nth_error (mCts c') i = nth_error (mCts c) i).
Proof.
  intros g r c ss pub LR UC k P m HG HL LM LS. destruct (usedMulti_ok g r c LR UC) as [KO Hm]. destruct (menc_ok g r c ss pub LR KO HG HL LM LS) as (s' & j' & _ & _ & E).
  pose proof KO as ((RP & _) & HB & _). fold k P in RP, HB. eexists. split; [exact E|]. cbn [mKem mCt0 mCts kMsg kRng kParams]. split; [reflexivity|]. split; [reflexivity|]. split; [reflexivity|]. split; [reflexivity|].
  split; [apply fill_length|]. split; [|intros i Hi; apply fill_rest; exact Hi]. intros i pk Hi.
  assert (Li : (i < length (mCts c))%nat) by (assert (i < length pub)%nat by (apply nth_error_Some; rewrite Hi; discriminate); lia).
  destruct (nth_error (mCts c) i) as [old|] eqn:EN; [|apply nth_error_None in EN; lia]. exists old. split; [reflexivity|]. rewrite (fill_nth _ _ _ _ _ _ Hi EN). fold k P m.
  assert (G : goodPub P pk) by (rewrite Forall_forall in HG; apply HG, (nth_error_In _ _ Hi)).
  destruct (cti_ok P m pk RP ltac:(apply Forall_firstn; exact HB) G) as [_ L]. rewrite L. replace (length m) with (Z.to_nat (MsgLen P)) by (unfold m; rewrite firstn_length_le; lia). reflexivity.
Qed.
Print Assumptions C55_encapsulate.
(* neither history, nor the contents of the scratch arrays, nor the other recipients matter for what a recipient sees *)
Theorem C55_only_own_key : forall g g' r r' c d ss ss' pub pub' i pk c' d' x x', later r -> later r' -> usedMulti g r c -> usedMulti g' r' d -> kParams (mKem c) = kParams (mKem d) -> kRng (mKem c) = kRng (mKem d) ->
  Forall (fun p => registered (pubParams p)) pub -> Forall (fun p => registered (pubParams p)) pub' -> nth_error pub i = Some pk -> nth_error pub' i = Some pk ->
  multiEncapsulate g r (Some c) ss pub = Ret (c', x, false) -> multiEncapsulate g' r' (Some d) ss' pub' = Ret (d', x', false) ->
  let P := kParams (mKem c) in let pk := Z.to_nat (PublicKeySize P) in let n := Z.to_nat (MsgLen P) in let k := Z.to_nat (KemSize P) in
  firstn pk (mCt0 c') = firstn pk (mCt0 d') /\ firstn k x = firstn k x' /\ firstn n (nth i (mCts c') []) = firstn n (nth i (mCts d') []).
Proof.
  assert (STEP : forall g r c ss pub c' x, later r -> usedMulti g r c -> Forall (fun p => registered (pubParams p)) pub -> multiEncapsulate g r (Some c) ss pub = Ret (c', x, false) ->
    let P := kParams (mKem c) in let m := firstn (Z.to_nat (MsgLen P)) (kRng (mKem c)) in registered P /\ bytes m /\ Z.of_nat (length m) = MsgLen P /\
    firstn (Z.to_nat (PublicKeySize P)) (mCt0 c') = mkemCt0 P m /\ firstn (Z.to_nat (KemSize P)) x = mkemKey P m /\ forall i pk, nth_error pub i = Some pk -> firstn (Z.to_nat (MsgLen P)) (nth i (mCts c') []) = mkemCti P m pk).
  { intros g r c ss pub c' x LR UC HR E P m. destruct (usedMulti_ok g r c LR UC) as [KO _]. pose proof KO as ((RP & _) & HB & _). fold P in RP. pose proof (reg_sizes P RP) as Z. destruct Z.
    destruct (C55_panics g r c ss pub LR KO HR) as [A D]. fold P in A, D. rewrite E in A.
    destruct (Z_lt_le_dec (Z.of_nat (length ss)) (KemSize P)) as [L|LS]; [discriminate (proj2 A (or_introl L))|].
    destruct (Z_lt_le_dec (Z.of_nat (length (kRng (mKem c)))) (MsgLen P)) as [L|LM]; [rewrite D in E by assumption; apply Ret_inj in E; apply (f_equal snd) in E; discriminate|].
    destruct (good_or_bad P pub RP HR) as [HG|HX]; [|discriminate (proj2 A (or_intror (conj LM (or_introl HX))))].
    destruct (le_lt_dec (length pub) (length (mCts c))) as [L|L]; [|discriminate (proj2 A (or_intror (conj LM (or_intror L))))].
    destruct (C55_encapsulate g r c ss pub LR UC HG L LM LS) as (c2 & E2 & F1 & F2 & F3 & F4 & F5 & F6 & F7). fold P m in E2, F1, F2, F3, F4, F5, F6, F7. rewrite E in E2. apply Ret_inj in E2.
    pose proof (f_equal (fun q => fst (fst q)) E2) as X1. pose proof (f_equal (fun q => snd (fst q)) E2) as X2. cbn [fst snd] in X1, X2. subst c2 x.
    assert (Lm : Z.of_nat (length m) = MsgLen P) by (unfold m; rewrite firstn_length_le; lia). assert (Bm : bytes m) by (apply Forall_firstn; exact HB).
    split; [exact RP|]. split; [exact Bm|]. split; [exact Lm|]. destruct (pub_ok_bytes P m RP) as [_ L0]. split; [rewrite F1; apply firstn_prefix; lia|].
    split; [apply firstn_prefix; unfold mkemKey; apply shake_length, one_byte; [lia|exact Bm]|]. intros i pk Hi. destruct (F6 i pk Hi) as (old & _ & N). rewrite (nth_error_nth _ _ _ N). apply firstn_prefix.
    destruct (cti_ok P m pk RP Bm) as [_ L']; [rewrite Forall_forall in HG; apply HG, (nth_error_In _ _ Hi)|lia]. }
  intros g g' r r' c d ss ss' pub pub' i pk c' d' x x' LR LR' UC UD EP ER HR HR' Hi Hi' E E' P n0 n k.
  destruct (STEP _ _ _ _ _ _ _ LR UC HR E) as (_ & _ & _ & A1 & A2 & A3). destruct (STEP _ _ _ _ _ _ _ LR' UD HR' E') as (_ & _ & _ & B1 & B2 & B3). rewrite <- EP, <- ER in B1, B2, B3. fold P in A1, A2, A3, B1, B2, B3.
  unfold n0, k, n. rewrite A1, A2, B1, B2. rewrite (A3 i pk Hi), (B3 i pk Hi'). split; [reflexivity|split; reflexivity].
Qed.
Print Assumptions C55_only_own_key.

(* ---------- C54 ---------- *)
Lemma mkem_agree : forall P m prv pub pub', registered P -> sikePrv prv -> prvParams prv = P -> matches prv pub -> matches prv pub' ->
  sharedOf (mkemEph P m) pub = sharedOf prv (keyOf P KeyVariantSidhA (mkemCt0 P m)) /\ sharedOf (mkemEph P m) pub' = sharedOf (mkemEph P m) pub.
Proof.
  intros P m prv pub pub' RP SP EP MT MT'. destruct (sikePrv_facts prv SP) as (_ & LE & EV & BS & _ & _).
  assert (BA : bytes (Scalar (mkemEph P m))) by apply le_enc_bytes.
  pose proof (dh P (mkemEph P m) prv pub RP eq_refl eq_refl (mkem_long P m RP) BA EP EV LE BS MT) as A. pose proof (dh P (mkemEph P m) prv pub' RP eq_refl eq_refl (mkem_long P m RP) BA EP EV LE BS MT') as A'.
  split; [exact A|]. rewrite A, A'. reflexivity.
Qed.
Lemma pad_inj : forall j a b, bytes j -> pad j a = pad j b -> a = b.
Proof. intros j a b H E. rewrite <- (pad_pad j a H), E. apply pad_pad, H. Qed.
Lemma match_good : forall P prv pub, sikePrv prv -> prvParams prv = P -> matches prv pub -> goodPub P pub.
Proof. intros P prv pub (_ & EV & _) EP (M1 & M2 & _). split; congruence. Qed.
Lemma shared_bytes : forall P m pub, registered P -> goodPub P pub -> bytes (2 :: sharedOf (mkemEph P m) pub).
Proof.
  intros P m pub RP [V Q]. destruct (derive_gen P RP (mkemEph P m) pub eq_refl (mkem_long P m RP) ltac:(rewrite V; discriminate) ltac:(rewrite Q; reflexivity)) as (D1 & _). apply one_byte; [lia|exact D1].
Qed.
(* an honest pair decrypts to its message *)
Lemma msg_honest : forall P m prv pub, registered P -> sikePrv prv -> prvParams prv = P -> matches prv pub -> mkemMsg P prv (mkemCt0 P m) (mkemCti P m pub) = m.
Proof.
  intros P m prv pub RP SP EP MT. destruct (mkem_agree P m prv pub pub RP SP EP MT MT) as [A _]. unfold mkemMsg, mkemCti. rewrite <- A. apply pad_pad. apply shared_bytes; [exact RP|apply (match_good P prv); assumption].
Qed.
(* the algorithm of the paper is correct: only the code's comparison is wrong *)
Theorem C54_paper : forall P m prv pub pub', registered P -> sikePrv prv -> prvParams prv = P -> matches prv pub -> matches prv pub' ->
  mkemDecaps P prv pub' (mkemCt0 P m) (mkemCti P m pub) = mkemKey P m.
Proof.
  intros P m prv pub pub' RP SP EP MT MT'. unfold mkemDecaps. rewrite (msg_honest P m prv pub RP SP EP MT).
  destruct (list_eq_dec _ _ _) as [_|N]; [reflexivity|]. contradiction N. unfold mkemCti. rewrite (proj2 (mkem_agree P m prv pub pub' RP SP EP MT MT')). reflexivity.
Qed.
Print Assumptions C54_paper.
(* the code's decapsulation accepts exactly the encryptions of the message that is in the object *)
Theorem C54_accepts : forall g r d ss prv pub ct, later r -> usedMulti g r d -> let k := mKem d in let P := kParams k in let c0 := firstn (Z.to_nat (PublicKeySize P)) (mCt0 d) in
  sikePrv prv -> prvParams prv = P -> matches prv pub -> bytes ct -> Z.of_nat (length ct) = KemSize P -> KemSize P <= Z.of_nat (length ss) ->
  exists d', multiDecapsulate g r (Some d) ss prv pub ct =
    Ret (d', (if list_eq_dec Z.eq_dec (c0 ++ ct) (mkemCt0 P (kMsg k) ++ mkemCti P (kMsg k) pub) then mkemKey P (kMsg k) else shake256 (3 :: prvS prv) (Z.to_nat (KemSize P))) ++ skipn (Z.to_nat (KemSize P)) ss, false) /\
    mCt0 d' = mCt0 d /\ mCts d' = mCts d /\ kMsg (mKem d') = kMsg k /\ kRng (mKem d') = kRng k /\ kParams (mKem d') = P.
Proof.
  intros g r d ss prv pub ct LR UD k P c0 SP EP MT Hc LC LS. destruct (usedMulti_ok g r d LR UD) as [KO HM]. destruct (sikePrv_facts prv SP) as (RP & LE & EV & BS & BS' & LSs). rewrite EP in RP, LSs.
  destruct (match_good P prv pub SP EP MT) as [G1 G2]. pose proof KO as ((_ & K1 & _) & HB & HC0 & LC0 & _). fold k P in K1. pose proof (reg_sizes P RP) as Z. destruct Z. unfold MaxPublicKeySz in LC0.
  assert (L0 : Z.of_nat (length c0) = PublicKeySize P) by (unfold c0; rewrite firstn_length_le; lia).
  destruct (mdec_ok g r d ss prv pub ct LR KO G2 G1 EP EV LE BS' LSs HM Hc LC LS) as (s' & j' & _ & _ & E). fold k P c0 in E. match type of E with _ = Ret (?o, _, _) => exists o end. rewrite E. clear E. split; [|cbn [mKem mCt0 mCts kMsg kRng kParams]; repeat (split; [reflexivity|]); reflexivity].
  1:{ f_equal. f_equal. f_equal. f_equal. unfold codeDecaps. set (M := kMsg k) in *. set (m := mkemMsg P prv c0 ct).
  assert (LMM : length M = length ct) by lia.
  destruct (list_eq_dec Z.eq_dec (c0 ++ ct) _) as [EQ|NE].
  - assert (L1 : length c0 = length (mkemCt0 P M)) by (destruct (pub_ok_bytes P M RP); lia).
    assert (Q1 : c0 = mkemCt0 P M) by (apply (f_equal (firstn (length c0))) in EQ; rewrite firstn_prefix in EQ by reflexivity; rewrite firstn_prefix in EQ by (symmetry; exact L1); exact EQ).
    assert (Q2 : ct = mkemCti P M pub) by (apply (f_equal (skipn (length c0))) in EQ; rewrite skipn_prefix in EQ by reflexivity; rewrite skipn_prefix in EQ by (symmetry; exact L1); exact EQ).
    assert (Em : m = M) by (unfold m; rewrite Q1, Q2; apply msg_honest; assumption). rewrite Em. rewrite <- Q1. destruct (list_eq_dec Z.eq_dec c0 c0) as [_|N]; [|contradiction N; reflexivity].
    fold (mkemCti P M pub). rewrite <- Q2. destruct (list_eq_dec Z.eq_dec ct ct) as [_|N]; [reflexivity|contradiction N; reflexivity].
  - destruct (list_eq_dec Z.eq_dec (mkemCt0 P m) c0) as [Q1|_]; [|reflexivity]. destruct (list_eq_dec Z.eq_dec ct _) as [Q2|_]; [|reflexivity]. exfalso. apply NE.
    assert (Em : m = M).
    { unfold m, mkemMsg. rewrite <- Q1. rewrite <- (proj1 (mkem_agree P m prv pub pub RP SP EP MT MT)). rewrite Q2. apply pad_pad. apply shared_bytes; [exact RP|split; assumption]. }
    rewrite Em in Q1, Q2. rewrite Q1. f_equal. exact Q2. }
Qed.
Print Assumptions C54_accepts.
(* on the object that encapsulated, also after any number of further decapsulations there, each recipient gets the secret *)
Inductive decaps (g : bool) (r : registry) : mkem -> mkem -> Prop :=
| d_none : forall c, decaps g r c c
| d_some : forall c c1 c2 ss prv pub ct ss' e, decaps g r c c1 -> bytes ct -> registered (pubParams pub) -> shaped prv -> bytes (prvS prv) -> multiDecapsulate g r (Some c1) ss prv pub ct = Ret (c2, ss', e) -> decaps g r c c2.
Lemma dec_keeps : forall g r c ss prv pub ct c' ss' e, later r -> usedMulti g r c -> bytes ct -> registered (pubParams pub) -> shaped prv -> bytes (prvS prv) -> multiDecapsulate g r (Some c) ss prv pub ct = Ret (c', ss', e) ->
  mCt0 c' = mCt0 c /\ mCts c' = mCts c /\ kMsg (mKem c') = kMsg (mKem c) /\ kParams (mKem c') = kParams (mKem c).
Proof.
  intros g r c ss prv pub ct c' ss' e LR UC Hc RQ SH BS HD. destruct (usedMulti_ok g r c LR UC) as [K Hm].
  pose proof (C54_panics g r c ss prv pub ct LR K Hm RQ SH BS Hc) as A. rewrite HD in A. pose proof K as ((RP & _) & _).
  set (P := kParams (mKem c)) in *. pose proof SH as (RV & _ & S2).
  destruct (Z.eq_dec (pubVariant pub) KeyVariantSike) as [EV|N]; [|discriminate (proj2 A ltac:(auto))].
  destruct (Z.eq_dec (prvVariant prv) (pubVariant pub)) as [EV'|N]; [|discriminate (proj2 A ltac:(auto))].
  destruct (Z_lt_le_dec (Z.of_nat (length ss)) (KemSize P)) as [N|LS]; [discriminate (proj2 A ltac:(auto))|].
  destruct (Z.eq_dec (Z.of_nat (length ct)) (KemSize P)) as [LC|N]; [|discriminate (proj2 A ltac:(auto 6))].
  destruct (same_params (prvParams prv) P RV RP) as [E1|N]; [|discriminate (proj2 A ltac:(auto 7))].
  destruct (same_params (pubParams pub) P RQ RP) as [E2|N]; [|discriminate (proj2 A ltac:(auto 8))].
  rewrite EV in EV'. rewrite EV', E1 in S2. change (KeyVariantSike =? KeyVariantSike) with true in S2. cbv iota in S2.
  destruct (mdec_ok g r c ss prv pub ct LR K E2 EV E1 EV' (shaped_long prv SH) BS S2 Hm Hc LC LS) as (s1 & j1 & H1 & L1 & X). rewrite X in HD. apply Ret_inj in HD. apply (f_equal (fun q => fst (fst q))) in HD. cbn [fst] in HD. subst c'.
  cbn [mKem mCt0 mCts kMsg kParams]. repeat (split; [reflexivity|]). reflexivity.
Qed.
Lemma decaps_keeps : forall g r c c', later r -> usedMulti g r c -> decaps g r c c' ->
  usedMulti g r c' /\ mCt0 c' = mCt0 c /\ mCts c' = mCts c /\ kMsg (mKem c') = kMsg (mKem c) /\ kParams (mKem c') = kParams (mKem c).
Proof.
  intros g r c c' LR UC H. induction H as [c|c c1 c2 ss prv pub ct ss' e H IH Hc RQ SH BS HD]; [split; [exact UC|]; repeat (split; [reflexivity|]); reflexivity|].
  destruct (IH UC) as (U1 & A1 & A2 & A3 & A4). destruct (dec_keeps g r c1 ss prv pub ct c2 ss' e LR U1 Hc RQ SH BS HD) as (B1 & B2 & B3 & B4).
  split; [exact (um_dec g r c1 ss prv pub ct c2 ss' e U1 Hc RQ SH BS HD)|]. split; [congruence|]. split; [congruence|]. split; congruence.
Qed.
Theorem C54_same_object : forall g r c ss pub i pk prv pk', later r -> usedMulti g r c -> let P := kParams (mKem c) in
  Forall (goodPub P) pub -> (length pub <= length (mCts c))%nat -> MsgLen P <= Z.of_nat (length (kRng (mKem c))) -> KemSize P <= Z.of_nat (length ss) ->
  nth_error pub i = Some pk -> sikePrv prv -> prvParams prv = P -> matches prv pk -> matches prv pk' ->
  exists c1 K cti, multiEncapsulate g r (Some c) ss pub = Ret (c1, K ++ skipn (length K) ss, false) /\ Z.of_nat (length K) = KemSize P /\ nth_error (mCts c1) i = Some cti /\
    forall c2 ss', decaps g r c1 c2 -> KemSize P <= Z.of_nat (length ss') ->
    exists c3, multiDecapsulate g r (Some c2) ss' prv pk' (firstn (Z.to_nat (KemSize P)) cti) = Ret (c3, K ++ skipn (length K) ss', false).
Proof.
  intros g r c ss pub i pk prv pk' LR UC P HG HL LM LS Hi SP EP MT MT'. destruct (usedMulti_ok g r c LR UC) as [KO _]. pose proof KO as ((RP & _) & HB & _). fold P in RP. pose proof (reg_sizes P RP) as Z. destruct Z.
  destruct (C55_encapsulate g r c ss pub LR UC HG HL LM LS) as (c1 & E1 & F1 & F2 & F3 & F4 & F5 & F6 & F7). fold P in E1, F1, F2, F3, F4, F5, F6, F7. set (m := firstn (Z.to_nat (MsgLen P)) (kRng (mKem c))) in *.
  assert (Lm : Z.of_nat (length m) = MsgLen P) by (unfold m; rewrite firstn_length_le; lia). assert (Bm : bytes m) by (apply Forall_firstn; exact HB).
  assert (LK : length (mkemKey P m) = Z.to_nat (KemSize P)) by (unfold mkemKey; apply shake_length, one_byte; [lia|exact Bm]).
  destruct (F6 i pk Hi) as (old & _ & N). exists c1, (mkemKey P m). eexists. rewrite LK. split; [exact E1|]. split; [lia|]. split; [exact N|].
  assert (GK : goodPub P pk) by (apply (match_good P prv); assumption). destruct (cti_ok P m pk RP Bm GK) as [BC LC].
  intros c2 ss' HD LS'. rewrite firstn_prefix by lia.
  assert (U1 : usedMulti g r c1).
  { eapply um_enc; [exact UC| |exact E1]. eapply Forall_impl; [|exact HG]. intros p [_ Q]. rewrite Q. exact RP. }
  destruct (decaps_keeps g r c1 c2 LR U1 HD) as (U2 & A1 & A2 & A3 & A4). rewrite F4 in A4. rewrite F2 in A3. rewrite F1 in A1.
  destruct (C54_accepts g r c2 ss' prv pk' (mkemCti P m pk) LR U2 SP ltac:(rewrite A4; exact EP) MT' BC ltac:(rewrite A4; lia) ltac:(rewrite A4; exact LS')) as (c3 & E3 & _). rewrite A4, A3, A1 in E3.
  rewrite firstn_prefix in E3 by (destruct (pub_ok_bytes P m RP); lia). exists c3. rewrite E3. f_equal. f_equal. f_equal. f_equal.
  destruct (list_eq_dec _ _ _) as [_|NE]; [reflexivity|]. contradiction NE. unfold mkemCti. rewrite (proj2 (mkem_agree P m prv pk pk' RP SP EP MT MT')). reflexivity.
Qed.
Print Assumptions C54_same_object.
(* any other object d of the recipient, given the transmitted ct0: the honest ciphertext of message m is accepted only
   if d happens to hold m itself *)
Definition receives (d : mkem) (c0 : list Z) : mkem := mkMulti (mKem d) (c0 ++ skipn (length c0) (mCt0 d)) (mCts d) (mJ d).
Lemma receives_ok : forall d P m, mkemOk d -> registered P -> mkemOk (receives d (mkemCt0 P m)).
Proof.
  intros d P m (K1 & K2 & K3 & K4 & K5) RP. destruct (pub_ok_bytes P m RP) as [B0 L0]. pose proof (reg_sizes P RP) as Z. destruct Z. unfold MaxPublicKeySz in *. unfold receives, mkemOk, MaxPublicKeySz. cbn [mKem mCt0 mCts mJ].
  split; [exact K1|]. split; [exact K2|]. split; [apply bytes_app; [exact B0|apply Forall_skipn; exact K3]|]. split; [rewrite app_length, skipn_length; lia|exact K5].
Qed.
Lemma other_gen : forall g r d ss prv pub pub' m, later r -> mkemOk d -> bytes (kMsg (mKem d)) -> let P := kParams (mKem d) in firstn (Z.to_nat (PublicKeySize P)) (mCt0 d) = mkemCt0 P m ->
  sikePrv prv -> prvParams prv = P -> matches prv pub -> matches prv pub' -> bytes m -> Z.of_nat (length m) = MsgLen P -> KemSize P <= Z.of_nat (length ss) ->
  exists d', multiDecapsulate g r (Some d) ss prv pub' (mkemCti P m pub) =
    Ret (d', (if list_eq_dec Z.eq_dec (kMsg (mKem d)) m then mkemKey P m else shake256 (3 :: prvS prv) (Z.to_nat (KemSize P))) ++ skipn (Z.to_nat (KemSize P)) ss, false).
Proof.
  intros g r d ss prv pub pub' m LR KO HM P E0 SP EP MT MT' Bm Lm LS. destruct (sikePrv_facts prv SP) as (RP & LE & EV & BS & BS' & LSs). rewrite EP in RP, LSs. pose proof (reg_sizes P RP) as Z. destruct Z.
  destruct (match_good P prv pub' SP EP MT') as [G1 G2]. pose proof (match_good P prv pub SP EP MT) as GP. destruct (cti_ok P m pub RP Bm GP) as [BC LC].
  destruct (mdec_ok g r d ss prv pub' (mkemCti P m pub) LR KO G2 G1 EP EV LE BS' LSs HM BC ltac:(fold P; lia) LS) as (s' & j' & _ & _ & E). fold P in E. rewrite E0 in E. eexists. rewrite E. f_equal. f_equal. f_equal. f_equal.
  unfold codeDecaps. rewrite (msg_honest P m prv pub RP SP EP MT). destruct (list_eq_dec Z.eq_dec (mkemCt0 P m) (mkemCt0 P m)) as [_|N]; [|contradiction N; reflexivity].
  pose proof (proj2 (mkem_agree P m prv pub pub' RP SP EP MT MT')) as EA. unfold mkemCti. pose proof (shared_bytes P m pub RP GP) as B2.
  destruct (list_eq_dec Z.eq_dec (kMsg (mKem d)) m) as [EM|NM].
  - destruct (list_eq_dec _ _ _) as [_|N]; [reflexivity|contradiction N; rewrite EA, EM; reflexivity].
  - destruct (list_eq_dec _ _ _) as [Q|_]; [|reflexivity]. exfalso. apply NM. symmetry. rewrite EA in Q. exact (pad_inj _ _ _ B2 Q).
Qed.
Theorem C54_other_object : forall g r d ss prv pub pub' m, later r -> usedMulti g r d -> let P := kParams (mKem d) in
  sikePrv prv -> prvParams prv = P -> matches prv pub -> matches prv pub' -> bytes m -> Z.of_nat (length m) = MsgLen P -> KemSize P <= Z.of_nat (length ss) ->
  exists d', multiDecapsulate g r (Some (receives d (mkemCt0 P m))) ss prv pub' (mkemCti P m pub) =
    Ret (d', (if list_eq_dec Z.eq_dec (kMsg (mKem d)) m then mkemKey P m else shake256 (3 :: prvS prv) (Z.to_nat (KemSize P))) ++ skipn (Z.to_nat (KemSize P)) ss, false).
Proof.
  intros g r d ss prv pub pub' m LR UD P SP EP MT MT' Bm Lm LS. destruct (usedMulti_ok g r d LR UD) as [KO HM]. pose proof KO as ((RP & _) & _). fold P in RP.
  apply (other_gen g r (receives d (mkemCt0 P m)) ss prv pub pub' m LR (receives_ok d P m KO RP) HM); try assumption.
  destruct (pub_ok_bytes P m RP). cbn [receives mCt0 mKem]. apply firstn_prefix. fold P. lia.
Qed.
Print Assumptions C54_other_object.
(* in particular a new object rejects every message but the zero one *)
Theorem C54_fresh_object : forall g r id n rng d ss prv pub m, later r -> id = Fp434 \/ id = Fp503 \/ id = Fp751 -> bytes rng -> newMulti r id n rng = Ret d -> let P := kParams (mKem d) in
  sikePrv prv -> prvParams prv = P -> matches prv pub -> bytes m -> Z.of_nat (length m) = MsgLen P -> (exists b, In b m /\ b <> 0) -> KemSize P <= Z.of_nat (length ss) ->
  exists d', multiDecapsulate g r (Some (receives d (mkemCt0 P m))) ss prv pub (mkemCti P m pub) = Ret (d', shake256 (3 :: prvS prv) (Z.to_nat (KemSize P)) ++ skipn (Z.to_nat (KemSize P)) ss, false).
Proof.
  intros g r id n rng d ss prv pub m LR HI Hb HN P SP EP MT Bm Lm (b & Ib & Nb) LS.
  assert (UD : usedMulti g r d) by exact (um_new g r id n rng d HI Hb HN). destruct (C54_other_object g r d ss prv pub pub m LR UD SP EP MT MT Bm Lm LS) as (d' & E). fold P in E. exists d'. rewrite E.
  destruct (list_eq_dec Z.eq_dec (kMsg (mKem d)) m) as [EM|_]; [|reflexivity]. exfalso. apply Nb. rewrite <- EM in Ib.
  unfold newMulti, multiAllocate in HN. destruct (Params r id) as [Q|]; [|discriminate]. cbn [bind] in HN. apply Ret_inj in HN. subst d. cbn [mKem kMsg] in Ib. apply repeat_spec in Ib. exact Ib.
Qed.
Print Assumptions C54_fresh_object.
(* and so does the encapsulating object itself once Reset, as its documentation demands between calls *)
Theorem C54_after_reset : forall g r c ss ss' pub i pk prv, later r -> usedMulti g r c -> let P := kParams (mKem c) in let m := firstn (Z.to_nat (MsgLen P)) (kRng (mKem c)) in
  Forall (goodPub P) pub -> (length pub <= length (mCts c))%nat -> MsgLen P <= Z.of_nat (length (kRng (mKem c))) -> KemSize P <= Z.of_nat (length ss) -> KemSize P <= Z.of_nat (length ss') ->
  nth_error pub i = Some pk -> sikePrv prv -> prvParams prv = P -> matches prv pk -> (exists b, In b m /\ b <> 0) ->
  exists c1 K cti d, multiEncapsulate g r (Some c) ss pub = Ret (c1, K, false) /\ nth_error (mCts c1) i = Some cti /\
    multiDecapsulate g r (Some (multiReset c1)) ss' prv pk (firstn (Z.to_nat (KemSize P)) cti) = Ret (d, shake256 (3 :: prvS prv) (Z.to_nat (KemSize P)) ++ skipn (Z.to_nat (KemSize P)) ss', false).
Proof.
  intros g r c ss ss' pub i pk prv LR UC P m HG HL LM LS LS' Hi SP EP MT (b & Ib & Nb). destruct (usedMulti_ok g r c LR UC) as [KO _]. pose proof KO as ((RP & _) & HB & _). fold P in RP. pose proof (reg_sizes P RP) as Z. destruct Z.
  destruct (C55_encapsulate g r c ss pub LR UC HG HL LM LS) as (c1 & E1 & F1 & F2 & F3 & F4 & F5 & F6 & F7). fold P m in E1, F1, F2, F3, F4, F5, F6, F7.
  assert (Lm : Z.of_nat (length m) = MsgLen P) by (unfold m; rewrite firstn_length_le; lia). assert (Bm : bytes m) by (apply Forall_firstn; exact HB).
  destruct (F6 i pk Hi) as (old & _ & N). assert (GK : goodPub P pk) by (apply (match_good P prv); assumption). destruct (cti_ok P m pk RP Bm GK) as [BC LC].
  assert (U1 : usedMulti g r c1).
  { eapply um_enc; [exact UC| |exact E1]. eapply Forall_impl; [|exact HG]. intros p [_ Q]. rewrite Q. exact RP. }
  destruct (usedMulti_ok g r _ LR (um_reset g r c1 U1)) as [K2 M2].
  assert (EK : kParams (mKem (multiReset c1)) = P) by exact F4.
  destruct (other_gen g r (multiReset c1) ss' prv pk pk m LR K2 M2) as (d & E); try rewrite EK; try assumption.
  { change (mCt0 (multiReset c1)) with (mCt0 c1). rewrite F1. apply firstn_prefix. destruct (pub_ok_bytes P m RP). lia. }
  rewrite EK in E. exists c1. eexists. eexists. exists d. split; [exact E1|]. split; [exact N|]. rewrite firstn_prefix by lia. rewrite E.
  destruct (list_eq_dec Z.eq_dec _ m) as [EM|_]; [|reflexivity]. exfalso. apply Nb. rewrite <- EM in Ib. cbn [multiReset kemReset mKem kMsg] in Ib. apply repeat_spec in Ib. exact Ib.
Qed.
Print Assumptions C54_after_reset.

(* Allocate makes room for exactly the recipients asked for, all slots zero, and keeps nothing else *)
Theorem C55_allocated : forall g r id n rng, later r -> id = Fp434 \/ id = Fp503 \/ id = Fp751 -> bytes rng -> 0 <= n ->
  exists c, newMulti r id n rng = Ret c /\ usedMulti g r c /\ let P := kParams (mKem c) in Params r id = Ret P /\ pID P = id /\
    Z.of_nat (length (mCts c)) = n /\ (forall x, In x (mCts c) -> x = repeat 0 40) /\ kRng (mKem c) = rng /\ kMsg (mKem c) = repeat 0 (Z.to_nat (MsgLen P)) /\
    forall ss pub, KemSize P <= Z.of_nat (length ss) -> MsgLen P <= Z.of_nat (length rng) -> Forall (goodPub P) pub ->
      (multiEncapsulate g r (Some c) ss pub = Panic <-> n < Z.of_nat (length pub)).
Proof.
  intros g r id n rng LR HI Hb Hn. destruct (C49_builtin r LR) as (A & C & D).
  assert (EP : exists P, Params r id = Ret P /\ pID P = id /\ registered P).
  { destruct HI as [->|[->| ->]]; [exists params434|exists params503|exists params751]; (split; [assumption|]); (split; [reflexivity|]); [left|right; left|right; right]; reflexivity. }
  destruct EP as (P & EP & EI & RP).
  assert (EN : exists c, newMulti r id n rng = Ret c /\ kParams (mKem c) = P /\ mCts c = repeat (zeros MaxMsgBsz) (Z.to_nat n) /\ kRng (mKem c) = rng /\ kMsg (mKem c) = repeat 0 (Z.to_nat (MsgLen P))).
  { unfold newMulti, multiAllocate. rewrite EP. cbn [bind]. eexists. split; [reflexivity|]. cbn [mKem kParams mCts kRng kMsg]. repeat split; reflexivity. }
  destruct EN as (c & EN & E1 & E2 & E3 & E4). exists c. split; [exact EN|].
  assert (UC : usedMulti g r c) by exact (um_new g r id n rng c HI Hb EN). split; [exact UC|]. intros P'. subst P'. rewrite E1, E2, E3, E4, repeat_length.
  split; [exact EP|]. split; [exact EI|]. split; [lia|]. split; [intros x Hx; apply repeat_spec in Hx; exact Hx|]. split; [reflexivity|]. split; [reflexivity|].
  intros ss pub LS LM HG.
  assert (HR : Forall (fun pk => registered (pubParams pk)) pub) by (eapply Forall_impl; [|exact HG]; intros pk [_ Q]; rewrite Q; exact RP).
  destruct (C55_panics g r c ss pub LR (proj1 (usedMulti_ok g r c LR UC)) HR) as [X _]. rewrite E1, E2, E3, repeat_length in X. rewrite X. split.
  - intros [L|[_ [L|L]]]; [lia| |lia]. exfalso. apply Exists_exists in L. destruct L as (pk & I & Q). rewrite Forall_forall in HG. destruct (HG pk I) as [G1 G2]. destruct Q; contradiction.
  - intro L. right. split; [exact LM|]. right. lia.
Qed.
Print Assumptions C55_allocated.

(* ---------- a case meeting the hypotheses ---------- *)
(* two recipients; both recover the secret on the sender's object; a recipient's own new object refuses *)
Example ex_MKEM : exists r c d prv prv2, later r /\ newMulti r Fp503 2 (repeat 7 30) = Ret c /\ newMulti r Fp503 0 [] = Ret d /\ usedMulti true r c /\ sikePrv prv /\ sikePrv prv2 /\
  let P := params503 in let m := repeat 7 24 in let pub := pubOf prv in let pub2 := keyOf P KeyVariantSike (exported (pubOf prv2)) in matches prv pub /\ matches prv2 pub2 /\
  (exists c1 K cti, multiEncapsulate true r (Some c) (repeat 0 24) [pub; pub2] = Ret (c1, K, false) /\ nth_error (mCts c1) 1 = Some cti /\
     exists c3, multiDecapsulate true r (Some c1) (repeat 1 24) prv2 pub2 (firstn 24 cti) = Ret (c3, K, false)) /\
  (exists c1, multiDecapsulate false r (Some (receives d (mkemCt0 P m))) (repeat 1 24) prv2 pub2 (mkemCti P m pub2) = Ret (c1, shake256 (3 :: repeat 98 24) 24, false)) /\
  multiEncapsulate true r (Some c) (repeat 0 24) [pub; pub2; pub] = Panic.
Proof.
  set (r := [(Fp751, params751); (Fp503, params503); (Fp434, params434)]). assert (LR : later r) by (apply l_init; reflexivity).
  set (prv := mkPrv params503 KeyVariantSike (repeat 99 32) (repeat 99 24)). set (prv2 := mkPrv params503 KeyVariantSike (repeat 98 32) (repeat 98 24)).
  assert (b7 : bytes (repeat 7 30)) by (apply Forall_repeat; unfold is_byte; lia). assert (b7' : bytes (repeat 7 24)) by (apply Forall_repeat; unfold is_byte; lia).
  assert (SP : forall b, 0 <= b < 256 -> sikePrv (mkPrv params503 KeyVariantSike (repeat b 32) (repeat b 24))).
  { intros b Hb. split; [split; [right; left; reflexivity|split; reflexivity]|]. split; [reflexivity|]. split; apply Forall_repeat; exact Hb. }
  exists r. eexists. eexists. exists prv, prv2. split; [exact LR|]. split; [reflexivity|]. split; [reflexivity|].
  match goal with |- usedMulti _ _ ?x /\ _ => set (c := x) end. match goal with |- context[receives ?x _] => set (d := x) end.
  assert (UC : usedMulti true r c) by (apply (um_new true r Fp503 2 (repeat 7 30)); [right; left; reflexivity|exact b7|reflexivity]).
  split; [exact UC|]. assert (S1 : sikePrv prv) by (apply SP; lia). assert (S2 : sikePrv prv2) by (apply SP; lia). split; [exact S1|]. split; [exact S2|]. intros P m pub pub2.
  pose proof (proj1 (C50_matches prv S1)) as MT. fold pub in MT. pose proof (proj2 (C50_matches prv2 S2)) as MT2. change (prvParams prv2) with params503 in MT2. fold P pub2 in MT2.
  split; [exact MT|]. split; [exact MT2|]. pose proof (match_good P prv pub S1 eq_refl MT) as G1. pose proof (match_good P prv2 pub2 S2 eq_refl MT2) as G2. clearbody pub pub2.
  assert (L1 : MsgLen (kParams (mKem c)) <= Z.of_nat (length (kRng (mKem c)))) by (apply Z.leb_le; reflexivity).
  assert (L2 : KemSize P <= Z.of_nat (length (repeat 0 24))) by (apply Z.leb_le; reflexivity). assert (L3 : KemSize P <= Z.of_nat (length (repeat 1 24))) by (apply Z.leb_le; reflexivity).
  split; [|split].
  - assert (HG : Forall (goodPub (kParams (mKem c))) [pub; pub2]) by (constructor; [exact G1|constructor; [exact G2|constructor]]).
    destruct (C54_same_object true r c (repeat 0 24) [pub; pub2] 1 pub2 prv2 pub2 LR UC HG (le_n 2) L1 L2 eq_refl S2 eq_refl MT2 MT2) as (c1 & K & cti & E1 & LK & N & D).
    change (KemSize (kParams (mKem c))) with 24 in *. change (Z.to_nat 24) with 24%nat in *. exists c1, K, cti. assert (LK' : length K = 24%nat) by lia. rewrite LK' in E1, D. rewrite skipn_all2, app_nil_r in E1 by (rewrite repeat_length; lia).
    split; [exact E1|]. split; [exact N|]. destruct (D c1 (repeat 1 24) (d_none _ _ _) L3) as (c3 & E3). exists c3. rewrite skipn_all2, app_nil_r in E3 by (rewrite repeat_length; lia). exact E3.
  - destruct (C54_fresh_object false r Fp503 0 [] d (repeat 1 24) prv2 pub2 m LR (or_intror (or_introl eq_refl)) (Forall_nil _) eq_refl S2 eq_refl MT2 b7' eq_refl) as (c1 & E1).
    { exists 7. split; [left; reflexivity|lia]. } { exact L3. }
    exists c1. change (kParams (mKem d)) with P in E1. change (Z.to_nat (KemSize P)) with 24%nat in E1. change (prvS prv2) with (repeat 98 24) in E1. rewrite skipn_all2, app_nil_r in E1 by (rewrite repeat_length; lia). exact E1.
  - apply (proj1 (C55_panics true r c (repeat 0 24) [pub; pub2; pub] LR (proj1 (usedMulti_ok true r c LR UC)) ltac:(constructor; [rewrite (proj2 G1)|constructor; [rewrite (proj2 G2)|constructor; [rewrite (proj2 G1)|constructor]]]; right; left; reflexivity))).
    right. split; [exact L1|]. right. apply le_n.
Qed.
