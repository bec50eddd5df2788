(* C86: the multi-recipient KEM with the field arithmetic and the hash in machine code. *)
From Coq Require Import ZArith List Bool Lia.
From Verif Require Import Lib Sha3_Spec Sha3_Iface Sha3_Model Sha3_Client Sha3_Amd P_Sha3_Amd MP Instr SIDH_Consts SIDH_Field SIDH_Curve X86 SIDH_AsmModel SIDH_AsmFp2 SIDH_AsmCore P_SIDH_AsmFp2.
From Verif Require Import SIDH_Api SIDH_ApiProofs P_SIDH_Api SIKE_Model SIKE_Spec SIKE_Proofs P_SIKE SIKE_Mach P_SIKE_Mach SIKE_Amd P_SIKE_Amd MKEM_Model MKEM_Spec MKEM_Proofs P_MKEM MKEM_Amd.
Import ListNotations.
Open Scope Z_scope.

Lemma fp2_prefix out x bl o : 0 <= bl -> Fp2ToBytes out x bl = Ret o -> bytes (firstn (Z.to_nat (2 * bl)) o).
Proof.
  intro H. unfold Fp2ToBytes. destruct (_ <? _); [discriminate|]. intro X. apply Ret_inj in X. rewrite <- X. rewrite app_assoc.
  assert (L : length (fpToBytes (fst x) bl ++ fpToBytes (snd x) bl) = Z.to_nat (2 * bl)). { rewrite app_length. unfold fpToBytes. rewrite !map_length, !seq_length. lia. }
  rewrite <- L, firstn_app, Nat.sub_diag, firstn_all, firstn_O, app_nil_r. apply bytes_app; apply bytes_fp.
Qed.
(* the secret is bytes whatever the buffer held *)
Lemma derive_prefix Q k ss pub o b : prvParams k = paramsOf Q -> DeriveSecret k ss pub = Ret o -> sub o 0 (SharedSecretSize (paramsOf Q)) = Ret b -> bytes b.
Proof.
  intros EP. unfold DeriveSecret. rewrite EP. destruct (_ || _); [discriminate|]. rewrite pkg_of. cbn [bind].
  assert (E2 : SharedSecretSize (paramsOf Q) = 2 * Bytelen (paramsOf Q)) by (destruct Q; reflexivity). assert (E0 : 0 <= Bytelen (paramsOf Q)) by (destruct Q; vm_compute; discriminate).
  intros ED ES. unfold sub in ES. destruct (_ && _)%bool; [|discriminate]. apply Ret_inj in ES. rewrite <- ES. cbn [Z.to_nat skipn]. rewrite Z.sub_0_r, E2. clear ES.
  destruct (onA _); [unfold DeriveSecretA_l in ED; destruct (DeriveJA _ _ _ _) as [j|]|unfold DeriveSecretB_l in ED; destruct (DeriveJB _ _ _ _) as [j|]]; try discriminate; cbn [bind] in ED; exact (fp2_prefix _ _ _ _ E0 ED).
Qed.
Lemma bytes_G1 : bytes G1. Proof. repeat constructor; lia. Qed.
Lemma bytes_G2 : bytes G2. Proof. repeat constructor; lia. Qed.
Lemma bytes_G3 : bytes G3. Proof. repeat constructor; lia. Qed.

Lemma loop_H K bp Q g skA msg : is_w64 bp -> right Q K -> prvParams skA = paramsOf Q -> forall pub s j cts i, isShake s -> Forall (fun pk => exists Q', sound Q' pk) pub ->
  multiLoopH K bp g s skA msg j cts i pub = go (multiLoop g s skA msg j cts i pub) /\ (forall s' j' cts', multiLoop g s skA msg j cts i pub = Ret (s', j', cts') -> isShake s').
Proof.
  intros Hb HK EP. induction pub as [|pkB pub IH]; intros s j cts i HS HP; [split; [reflexivity|intros s' j' cts' X; injection X as <- _ _; exact HS]|].
  inversion HP as [|? ? (Q' & S) HP']; subst. cbn [multiLoopH multiLoop]. cbv zeta. destruct (negb _); [split; [reflexivity|discriminate]|].
  rewrite (C84_secret K bp Q Q' skA j pkB Hb HK EP S). destruct (DeriveSecret skA j pkB) as [j1|] eqn:E1; [|split; [reflexivity|discriminate]]. cbn [go bind mb]. rewrite EP.
  destruct (sub j1 0 _) as [b|] eqn:E2; [|split; [reflexivity|discriminate]]. cbn [go bind mb]. pose proof (derive_prefix Q skA j pkB j1 b EP E1 E2) as Bb.
  destruct (nth_error cts i) as [ct|]; [|split; [reflexivity|discriminate]].
  destruct (shakeToH_ok K bp Hb g s [G2; b] ct (MsgLen (paramsOf Q)) HS (all2 _ _ bytes_G2 Bb)) as [EH SH]. rewrite EH. destruct (shakeTo _ _ _ _ _) as [[s1 ct1]|] eqn:E3; [|split; [reflexivity|discriminate]]. cbn [go bind mb].
  destruct (SH s1 ct1 eq_refl) as [S1 _]. destruct (sub msg 0 _) as [p|]; [|split; [reflexivity|discriminate]]. cbn [go bind mb]. destruct (xorInto ct1 p) as [ct2|]; [|split; [reflexivity|discriminate]]. cbn [go bind mb].
  apply IH; assumption.
Qed.

(* Encapsulate and Decapsulate of an object after any history do on every machine what they do in the portable build: same object (ct0, ciphertexts, message, hash), secret, error, panics; no run is stuck *)
Theorem C86_encapsulate : forall K bp g r c ss pub Q, is_w64 bp -> right Q K -> later r -> usedMulti g r c -> kParams (mKem c) = paramsOf Q -> Forall (fun pk => exists Q', sound Q' pk) pub ->
  multiEncapsulateH K bp g r (Some c) ss pub = go (multiEncapsulate g r (Some c) ss pub).
Proof.
  intros K bp g r c ss pub Q Hb HK L UC EP HP. destruct (usedMulti_ok g r c L UC) as [((_ & _ & _ & HS) & HR & _) HM]. unfold multiEncapsulateH, multiEncapsulate. cbv zeta. rewrite EP.
  destruct (_ <? _); [reflexivity|]. destruct (readFull (kRng (mKem c)) (kMsg (mKem c))) as [[msg rng] e] eqn:ER. destruct e; [reflexivity|].
  assert (Bm : bytes msg). { unfold readFull in ER. destruct (_ <? _)%nat; [discriminate|]. injection ER as <- _. apply Forall_firstn, HR. }
  apply step; [reflexivity|]. intros pkA EA. destruct (new_sound Q r _ pkA L EA) as [SA _].
  apply step; [reflexivity|]. intros p Ep. pose proof (bytes_sub _ _ _ _ Bm Ep) as Bp.
  rewrite shakeRunH_ok by (try apply all2; assumption || apply bytes_G1). cbn [stuckable mb]. destruct (shake_run g (kShake (mKem c)) [G1; p] (kSecret (mKem c)) HS (all2 _ _ bytes_G1 Bp)) as (s1 & E1 & S1 & _). rewrite E1.
  apply step; [reflexivity|]. intros sc' _.
  destruct (generate_M K bp Hb Q (mkPrv (paramsOf Q) KeyVariantSidhA sc' []) pkA HK eq_refl (proj1 SA)) as [EG SG].
  apply step; [exact EG|]. intros pkA' E'. destruct (SG pkA' E') as [SA' _]. apply step; [apply (export_M K bp Hb Q); exact SA'|]. intros ct0 _.
  destruct (loop_H K bp Q g (mkPrv (paramsOf Q) KeyVariantSidhA sc' []) msg Hb HK eq_refl pub s1 (mJ c) (mCts c) 0%nat S1 HP) as [EL SL].
  apply step; [exact EL|]. intros [[s2 j2] cts2] E2. pose proof (SL s2 j2 cts2 E2) as S2.
  apply step_pair; [apply shakeToH_ok; [exact Hb|exact S2|apply all2; [apply bytes_G3|exact Bm]]|]. intros s3 ss' _. reflexivity.
Qed.
Print Assumptions C86_encapsulate.
Theorem C86_decapsulate : forall K bp g r c ss prv pub ct Q Q' Qv, is_w64 bp -> right Q K -> right Qv K -> later r -> usedMulti g r c -> kParams (mKem c) = paramsOf Q -> sound Q' pub ->
  prvParams prv = paramsOf Qv -> bytes (prvS prv) -> bytes ct ->
  multiDecapsulateH K bp g r (Some c) ss prv pub ct = go (multiDecapsulate g r (Some c) ss prv pub ct).
Proof.
  intros K bp g r c ss prv pub ct Q Q' Qv Hb HK HV L UC EP S EV BS Hc. destruct (usedMulti_ok g r c L UC) as [((_ & _ & _ & HS) & _ & HC0 & _) HM]. unfold multiDecapsulateH, multiDecapsulate. cbv zeta. rewrite EP, EV.
  destruct (negb _); [reflexivity|]. destruct (negb _); [reflexivity|]. destruct (_ <? _); [reflexivity|]. destruct (negb _); [reflexivity|].
  apply step; [reflexivity|]. intros pkA EA. destruct (new_sound Q r _ pkA L EA) as [SA _].
  apply step; [reflexivity|]. intros c0 E0. pose proof (bytes_sub _ _ _ _ HC0 E0) as B0.
  assert (HK' : match K with Amd64 _ _ fp => is_w64 fp | Arm64 => True end) by (destruct K; [exact HK|exact I]).
  destruct (import_M K bp Hb Q pkA c0 HK' SA B0) as [EI SI]. apply step_pair; [exact EI|]. intros pk1 e E1. destruct (SI pk1 e E1) as [S1 _]. destruct e; [reflexivity|].
  apply step; [exact (C84_secret K bp Qv Q prv (mJ c) pk1 Hb HV EV S1)|]. intros j Ej. apply step; [reflexivity|]. intros b Eb. pose proof (derive_prefix Qv prv (mJ c) pk1 j b EV Ej Eb) as Bb.
  destruct (shakeToH_ok K bp Hb g (kShake (mKem c)) [G2; b] (zeros MaxMsgBsz) (MsgLen (paramsOf Qv)) HS (all2 _ _ bytes_G2 Bb)) as [EH SH].
  apply step_pair; [exact EH|]. intros s1 m E2. destruct (SH s1 m E2) as [T1 Bm]. specialize (Bm (bytes_zeros _)).
  apply step; [reflexivity|]. intros x Ex. pose proof (bytes_sub _ _ _ _ Hc Ex) as Bx. apply step; [reflexivity|]. intros m1 Em1. pose proof (bytes_xorInto _ _ _ Bm Bx Em1) as Bm1.
  apply step; [reflexivity|]. intros p Ep. pose proof (bytes_sub _ _ _ _ Bm1 Ep) as Bp.
  rewrite shakeRunH_ok by (try apply all2; assumption || apply bytes_G1). cbn [stuckable mb]. destruct (shake_run g s1 [G1; p] (kSecret (mKem c)) T1 (all2 _ _ bytes_G1 Bp)) as (s2 & E3 & T2 & _). rewrite E3.
  apply step; [reflexivity|]. intros sc' _.
  destruct (generate_M K bp Hb Q (mkPrv (paramsOf Q) KeyVariantSidhA sc' []) pk1 HK eq_refl (proj1 S1)) as [EG SG].
  apply step; [exact EG|]. intros pkA' E'. destruct (SG pkA' E') as [SA' _]. apply step; [reflexivity|]. intros rb _. apply step; [apply (export_M K bp Hb Q); exact SA'|]. intros rb' _.
  apply step; [exact (C84_secret K bp Q Q' (mkPrv (paramsOf Q) KeyVariantSidhA sc' []) j pub Hb HK eq_refl S)|]. intros j2 Ej2.
  apply step; [reflexivity|]. intros b2 Eb2. pose proof (derive_prefix Q (mkPrv (paramsOf Q) KeyVariantSidhA sc' []) j pub j2 b2 eq_refl Ej2 Eb2) as Bb2.
  destruct (shakeToH_ok K bp Hb g s2 [G2; b2] (zeros MaxMsgBsz) (MsgLen (paramsOf Q)) T2 (all2 _ _ bytes_G2 Bb2)) as [EH2 SH2].
  apply step_pair; [exact EH2|]. intros s3 cti E4. destruct (SH2 s3 cti E4) as [T3 _].
  apply step; [reflexivity|]. intros y _. apply step; [reflexivity|]. intros cti1 _. apply step; [reflexivity|]. intros ct1 _. apply step; [reflexivity|]. intros cti2 _.
  apply step; [reflexivity|]. intros p2 Ep2. pose proof (bytes_pick _ _ _ _ Bp BS Ep2) as Bp2.
  apply step_pair; [apply shakeToH_ok; [exact Hb|exact T3|apply all2; [apply bytes_G3|exact Bp2]]|]. intros s4 ss' _. reflexivity.
Qed.
Print Assumptions C86_decapsulate.

(* so what Encapsulate produces on a machine is the scheme of the paper *)
Theorem C86_value : forall K bp g r c ss pub Q, is_w64 bp -> right Q K -> later r -> usedMulti g r c -> let k := mKem c in let P := paramsOf Q in let m := firstn (Z.to_nat (MsgLen P)) (kRng k) in
  kParams k = P -> Forall (fun pk => sound Q pk /\ pubVariant pk = KeyVariantSike) pub -> (length pub <= length (mCts c))%nat -> MsgLen P <= Z.of_nat (length (kRng k)) -> KemSize P <= Z.of_nat (length ss) ->
  exists c', multiEncapsulateH K bp g r (Some c) ss pub = Ret (Some (c', mkemKey P m ++ skipn (Z.to_nat (KemSize P)) ss, false)) /\
    firstn (Z.to_nat (PublicKeySize P)) (mCt0 c') = mkemCt0 P m /\
    (forall i pk, nth_error pub i = Some pk -> exists old, nth_error (mCts c') i = Some (mkemCti P m pk ++ skipn (Z.to_nat (MsgLen P)) old)).
Proof.
  intros K bp g r c ss pub Q Hb HK L UC k P m EP HP HL HR HS.
  assert (HG : Forall (goodPub (kParams k)) pub). { eapply Forall_impl; [|exact HP]. intros pk [S V]. split; [exact V|]. rewrite EP. exact (proj1 S). }
  pose proof (C55_encapsulate g r c ss pub L UC) as C. cbv zeta in C. fold k in C. rewrite EP in HG, C. fold m in C. specialize (C HG HL HR HS). destruct C as (c' & E & E0 & _ & _ & _ & _ & EI & _).
  exists c'. rewrite (C86_encapsulate K bp g r c ss pub Q Hb HK L UC EP), E; [|eapply Forall_impl; [|exact HP]; intros pk [S _]; exists Q; exact S].
  split; [reflexivity|]. split; [|intros i pk Hi; destruct (EI i pk Hi) as (old & _ & H); exists old; exact H].
  rewrite E0. destruct (pub_ok_bytes P m (reg_of Q)) as [_ LP]. rewrite <- LP, Nat2Z.id, firstn_app, Nat.sub_diag, firstn_all, firstn_O, app_nil_r. reflexivity.
Qed.
Print Assumptions C86_value.

(* a case meeting the hypotheses: two recipients (the same key twice), an object with room for three *)
Example ex_C86 : exists r c pub c' key, later r /\ newMulti r Fp503 3 (repeat 9 50) = Ret c /\ sound P503 pub /\ matches exPrv pub /\
  multiEncapsulateH (Amd64 true true 8) 3 true r (Some c) (repeat 0 30) [pub; pub] = Ret (Some (c', key ++ repeat 0 6, false)) /\ length key = 24%nat.
Proof.
  destruct ex_C84_key as (pub & SP & _ & S & M). set (r := [(Fp751, params751); (Fp503, params503); (Fp434, params434)]). assert (LR : later r) by (apply l_init; reflexivity).
  assert (b9 : bytes (repeat 9 50)) by (apply Forall_repeat; unfold is_byte; lia).
  assert (E1 : exists c, newMulti r Fp503 3 (repeat 9 50) = Ret c /\ kParams (mKem c) = paramsOf P503 /\ usedMulti true r c /\ length (kRng (mKem c)) = 50%nat /\ length (mCts c) = 3%nat).
  { eexists. split; [reflexivity|]. split; [reflexivity|]. split; [|split; reflexivity]. apply (um_new true r Fp503 3 (repeat 9 50)); [right; left; reflexivity|exact b9|reflexivity]. }
  destruct E1 as (c & E1 & PC & UC & LC & LT).
  assert (V : pubVariant pub = KeyVariantSike) by (destruct M as (_ & M & _); exact M).
  destruct (C86_value (Amd64 true true 8) 3 true r c (repeat 0 30) [pub; pub] P503) as (c' & H & _); try assumption; try (split; lia).
  - repeat constructor; assumption || apply S.
  - rewrite LT. cbn. lia.
  - rewrite LC. apply Z.leb_le. reflexivity.
  - apply Z.leb_le. reflexivity.
  - set (key := mkemKey _ _) in H. assert (LK : length key = 24%nat) by (unfold key, mkemKey; rewrite shake_length; [reflexivity|]; constructor; [unfold is_byte; lia|]; apply Forall_firstn; exact (proj1 (proj2 (proj1 (usedMulti_ok true r c LR UC))))). clearbody key. exists r, c, pub, c', key. repeat (split; [assumption|]). exact LK.
Qed.
