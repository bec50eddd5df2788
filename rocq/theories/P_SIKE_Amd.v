(* C85: SIKE with both the field arithmetic and the hash in machine code. *)
From Coq Require Import ZArith List Bool Lia.
From Verif Require Import Lib Sha3_Spec Sha3_Iface Sha3_Model Sha3_Client Sha3_Amd P_Sha3_Amd MP Instr SIDH_Consts SIDH_Field SIDH_Curve X86 SIDH_AsmModel SIDH_AsmFp2 SIDH_AsmCore P_SIDH_AsmFp2.
From Verif Require Import SIDH_Api SIDH_ApiProofs P_SIDH_Api SIKE_Model SIKE_Spec SIKE_Proofs P_SIKE SIKE_Mach P_SIKE_Mach SIKE_Amd.
Import ListNotations.
Open Scope Z_scope.

(* ---------- everything hashed is a byte string ---------- *)
Lemma bytes_sub l lo hi o : bytes l -> sub l lo hi = Ret o -> bytes o.
Proof. intros H E. exact (proj1 (sub_bytes l lo hi o H E)). Qed.
Lemma bytes_into l lo hi f o : bytes l -> (forall s s', bytes s -> f s = Ret s' -> bytes s') -> into l lo hi f = Ret o -> bytes o.
Proof.
  intros H Hf. unfold into. destruct (sub l lo hi) as [s|] eqn:E; [|discriminate]. cbn [bind]. destruct (f s) as [s'|] eqn:Ef; [|discriminate]. cbn [bind]. intro X. injection X as <-.
  apply bytes_app; [apply Forall_firstn, H|]. apply bytes_app; [|apply Forall_skipn, H]. exact (Hf s s' (bytes_sub _ _ _ _ H E) Ef).
Qed.
Lemma bytes_fp a bl : bytes (fpToBytes a bl).
Proof. unfold fpToBytes, bytes. apply Forall_forall. intros b Hb. apply in_map_iff in Hb. destruct Hb as (i & <- & _). unfold fpByte, is_byte. apply Z.mod_pos_bound. lia. Qed.
Lemma bytes_fp2 out x bl o : bytes out -> Fp2ToBytes out x bl = Ret o -> bytes o.
Proof.
  unfold Fp2ToBytes. intro H. destruct (_ <? _); [discriminate|]. intro X. apply Ret_inj in X. rewrite <- X. apply bytes_app; [apply bytes_fp|]. apply bytes_app; [apply bytes_fp|]. apply Forall_skipn, H.
Qed.
Lemma bytes_export k out o : bytes out -> pubExport k out = Ret o -> bytes o.
Proof.
  intros H. unfold pubExport. destruct (SIDH_Api.pkg _) as [Q|]; [|discriminate]. cbn [bind]. destruct (map3 _ _) as [[f0 f1] f2].
  destruct (into out _ _ _) as [o1|] eqn:E1; [|discriminate]. cbn [bind]. destruct (into o1 _ _ _) as [o2|] eqn:E2; [|discriminate]. cbn [bind]. intro E3.
  assert (F : forall f s s', bytes s -> Fp2ToBytes s f (Bytelen (pubParams k)) = Ret s' -> bytes s') by (intros f s s'; apply bytes_fp2).
  pose proof (bytes_into _ _ _ _ _ H (F f0) E1) as B1. pose proof (bytes_into _ _ _ _ _ B1 (F f1) E2) as B2. exact (bytes_into _ _ _ _ _ B2 (F f2) E3).
Qed.
Lemma bytes_derive k ss pub o : bytes ss -> DeriveSecret k ss pub = Ret o -> bytes o.
Proof.
  intros H. unfold DeriveSecret. destruct (_ || _); [discriminate|]. destruct (SIDH_Api.pkg _) as [Q|]; [|discriminate]. cbn [bind].
  destruct (onA _); [unfold DeriveSecretA_l; destruct (DeriveJA _ _ _ _) as [j|]|unfold DeriveSecretB_l; destruct (DeriveJB _ _ _ _) as [j|]]; try discriminate; cbn [bind]; apply bytes_fp2, H.
Qed.
Lemma bytes_xorInto n p o : bytes n -> bytes p -> xorInto n p = Ret o -> bytes o.
Proof.
  intros H1 H2. unfold xorInto. destruct (_ <=? _)%nat; [|discriminate]. intro X. injection X as <-. rewrite combine_xor. apply bytes_app; [apply bytes_xor; assumption|apply Forall_skipn, H1].
Qed.
Lemma bytes_copyAt d n s o : bytes d -> bytes s -> gocopyAt d n s = Ret o -> bytes o.
Proof.
  intros H1 H2. unfold gocopyAt. apply bytes_into; [exact H1|]. intros t t' Ht X. injection X as <-. unfold gocopy. apply bytes_app; [apply Forall_firstn, H2|apply Forall_skipn, Ht].
Qed.
Lemma bytes_zeros n : bytes (zeros n). Proof. apply Forall_repeat. unfold is_byte. lia. Qed.
Lemma bytes_pick p a b o : bytes a -> bytes b -> Cpick p a a b = Ret o -> bytes o.
Proof.
  intros Ha Hb. unfold Cpick. destruct (_ && _)%bool; [|discriminate]. intro X. injection X as <-. apply Forall_forall. intros x Hx. apply in_map_iff in Hx. destruct Hx as ([u v] & <- & I).
  assert (I' : In (u, v) (combine a b)). { rewrite <- (firstn_skipn (length a)). apply in_or_app. left. exact I. }
  pose proof (in_combine_l _ _ _ _ I') as Iu. pose proof (in_combine_r _ _ _ _ I') as Iv. unfold bytes in *. rewrite Forall_forall in Ha, Hb. specialize (Ha u Iu). specialize (Hb v Iv).
  unfold is_byte in *. cbn [fst snd]. apply (lor_bound _ _ 8); [lia| |]; apply (land_bound _ _ 8); lia.
Qed.

Section Hash.
Variables (K : arch) (bp : Z).
Hypothesis Hb : is_w64 bp.
Lemma writesA_ok g ins : forall s, sane s -> Forall bytes ins -> writesA bp g s ins = Some (writes g s ins) /\ sane (writes g s ins).
Proof.
  induction ins as [|i ins IH]; intros s S H; [split; [reflexivity|exact S]|]. inversion H; subst. cbn [writesA]. destruct (WriteA_ok g bp Hb s i S) as [E S']; [assumption|]. rewrite E. cbn [ob].
  unfold writes. cbn [fold_left]. destruct (Write g s i) as [s' x]. cbn [fst] in *. apply IH; assumption.
Qed.
Lemma shake_sane s : isShake s -> sane (Reset s).
Proof. intro H. rewrite (reset_shake s H). apply new_sane. unfold is_byte. lia. Qed.
Lemma shakeRunH_ok g s ins out : isShake s -> Forall bytes ins -> shakeRunH K bp g s ins out = Some (shakeRun g s ins out).
Proof.
  intros H Hi. unfold shakeRunH, shakeRun. destruct K; [|reflexivity]. destruct (writesA_ok g ins (Reset s) (shake_sane s H) Hi) as [E S]. rewrite E. cbn [ob].
  exact (proj1 (ReadA_ok g bp Hb _ out S)).
Qed.
Lemma shakeToH_ok g s ins buf n : isShake s -> Forall bytes ins -> shakeToH K bp g s ins buf n = go (shakeTo g s ins buf n) /\
  (forall s' o, shakeTo g s ins buf n = Ret (s', o) -> isShake s' /\ (bytes buf -> bytes o)).
Proof.
  intros H Hi. unfold shakeToH, shakeTo. destruct (sub buf 0 n) as [o|]; cbn [go bind mb]; [|split; [reflexivity|discriminate]].
  rewrite shakeRunH_ok by assumption. cbn [stuckable mb]. destruct (shake_run g s ins o H Hi) as (s1 & E & S1 & _). rewrite E. split; [reflexivity|].
  intros s' o' X. injection X as <- <-. split; [exact S1|]. intro B. apply bytes_app; [apply shake_bytes|apply Forall_skipn, B].
Qed.
End Hash.
Lemma all1 a : bytes a -> Forall bytes [a]. Proof. repeat constructor; assumption. Qed.
Lemma all2 a b : bytes a -> bytes b -> Forall bytes [a; b]. Proof. repeat constructor; assumption. Qed.

Lemma gen_ct_H K bp Q Q' g s ct skA pkA pkB m : is_w64 bp -> right Q K -> prvParams skA = paramsOf Q -> sound Q pkA -> sound Q' pkB -> isShake s -> bytes ct -> bytes m ->
  generateCiphertextH K bp g s ct skA pkA pkB m = go (generateCiphertext g s ct skA pkA pkB m) /\
  (forall s' ct', generateCiphertext g s ct skA pkA pkB m = Ret (s', ct') -> isShake s' /\ bytes ct').
Proof.
  intros Hb HK EP SA SB HS Hc Hm. unfold generateCiphertextH, generateCiphertext. cbv zeta.
  rewrite (C84_secret K bp Q Q' skA (zeros MaxSharedSecretBsz) pkB Hb HK EP SB). destruct (DeriveSecret skA _ pkB) as [j|] eqn:Ej; [|split; [reflexivity|discriminate]]. cbn [go bind mb].
  pose proof (bytes_derive _ _ _ _ (bytes_zeros _) Ej) as Bj. destruct (sub j 0 _) as [j1|] eqn:E1; [|split; [reflexivity|discriminate]]. cbn [go bind mb]. pose proof (bytes_sub _ _ _ _ Bj E1) as Bj1.
  destruct (shakeToH_ok K bp Hb g s [j1] (zeros MaxMsgBsz) (MsgLen (prvParams skA)) HS (all1 _ Bj1)) as [EH SH]. rewrite EH. destruct (shakeTo _ _ _ _ _) as [[s1 n]|] eqn:E2; [|split; [reflexivity|discriminate]]. cbn [go bind mb].
  destruct (SH s1 n eq_refl) as [S1 Bn]. specialize (Bn (bytes_zeros _)). clear SH EH. destruct (xorInto n m) as [n1|] eqn:E3; [|split; [reflexivity|discriminate]]. cbn [go bind mb]. pose proof (bytes_xorInto _ _ _ Bn Hm E3) as Bn1.
  rewrite (C84_export K bp Q pkA ct Hb SA). destruct (pubExport pkA ct) as [ct1|] eqn:E4; [|split; [reflexivity|discriminate]]. cbn [go bind mb]. pose proof (bytes_export _ _ _ Hc E4) as Bc1.
  destruct (sub n1 0 _) as [n2|] eqn:E5; [|split; [reflexivity|discriminate]]. cbn [go bind mb]. pose proof (bytes_sub _ _ _ _ Bn1 E5) as Bn2.
  destruct (gocopyAt ct1 _ n2) as [ct2|] eqn:E6; [|split; [reflexivity|discriminate]]. cbn [go bind mb]. split; [reflexivity|]. intros s' ct' X. injection X as <- <-. split; [exact S1|exact (bytes_copyAt _ _ _ _ Bc1 Bn2 E6)].
Qed.
Lemma decrypt_H K bp Q g r s n prv ct : is_w64 bp -> right Q K -> later r -> prvParams prv = paramsOf Q -> bytes ct -> isShake s -> bytes n ->
  decryptH K bp g r s n prv ct = go (decrypt g r s n prv ct) /\ (forall s' n' l e, decrypt g r s n prv ct = Ret (s', n', l, e) -> isShake s' /\ bytes n').
Proof.
  intros Hb HK L EP Hc HS Hn. unfold decryptH, decrypt. cbv zeta. rewrite EP.
  destruct (NewPublicKey r _ _) as [c0|] eqn:E0; [|split; [reflexivity|discriminate]]. cbn [go bind mb]. destruct (new_sound Q r _ c0 L E0) as [S0 _].
  destruct (sub ct 0 _) as [b|] eqn:Eb; [|split; [reflexivity|discriminate]]. cbn [go bind mb]. pose proof (bytes_sub _ _ _ _ Hc Eb) as Bb. clear Eb.
  assert (HK' : match K with Amd64 _ _ fp => is_w64 fp | Arm64 => True end) by (destruct K; [exact HK|exact I]).
  destruct (C84_import K bp Q c0 b Hb HK' S0 Bb) as [EI SI]. rewrite EI. destruct (pubImport c0 b) as [[c1 e]|] eqn:E1; [|split; [reflexivity|discriminate]]. cbn [go bind mb]. destruct (SI c1 e eq_refl) as [S1 _]. clear SI EI.
  rewrite (C84_secret K bp Q Q prv (zeros MaxSharedSecretBsz) c1 Hb HK EP S1). destruct (DeriveSecret prv _ c1) as [j|] eqn:Ej; [|split; [reflexivity|discriminate]]. cbn [go bind mb]. pose proof (bytes_derive _ _ _ _ (bytes_zeros _) Ej) as Bj.
  destruct (sub j 0 _) as [j1|] eqn:E2; [|split; [reflexivity|discriminate]]. cbn [go bind mb]. pose proof (bytes_sub _ _ _ _ Bj E2) as Bj1.
  destruct (shakeToH_ok K bp Hb g s [j1] n (Z.of_nat (length ct) - PublicKeySize (paramsOf Q)) HS (all1 _ Bj1)) as [EH SH]. rewrite EH. destruct (shakeTo _ _ _ _ _) as [[s1 n1]|] eqn:E3; [|split; [reflexivity|discriminate]]. cbn [go bind mb].
  destruct (SH s1 n1 eq_refl) as [S2 Bn1]. specialize (Bn1 Hn). clear SH EH. destruct (sub ct _ _) as [c2|] eqn:E4; [|split; [reflexivity|discriminate]]. cbn [go bind mb]. pose proof (bytes_sub _ _ _ _ Hc E4) as Bc2.
  destruct (xorInto n1 c2) as [n2|] eqn:E5; [|split; [reflexivity|discriminate]]. cbn [go bind mb]. split; [reflexivity|]. intros s' n' l' e' X. injection X as <- <- <- <-. split; [exact S2|exact (bytes_xorInto _ _ _ Bn1 Bc2 E5)].
Qed.

(* The hash calls themselves, on an object as the KEM keeps it: Reset, the Writes and the Read end, leave the SHAKE object they leave in the portable build, and give the SHAKE256 of FIPS 202. *)
Theorem C85_hash : forall K bp g s ins out, is_w64 bp -> isShake s -> Forall bytes ins ->
  exists s', shakeRunH K bp g s ins out = Some (s', shake256 (concat ins) (length out)) /\ isShake s' /\ shakeRun g s ins out = (s', shake256 (concat ins) (length out)).
Proof.
  intros K bp g s ins out Hb H Hi. destruct (shake_run g s ins out H Hi) as (s' & E & S & _). exists s'. rewrite (shakeRunH_ok K bp Hb g s ins out H Hi), E. split; [reflexivity|]. split; [exact S|reflexivity].
Qed.
Print Assumptions C85_hash.
(* With the hash in machine code too, both operations do what they do in the portable build.  c is an object after any history. *)
Theorem C85_encapsulate : forall K bp g r c ct ss pub Q Q', is_w64 bp -> right Q K -> later r -> usedKem g r c -> kParams c = paramsOf Q -> sound Q' pub -> bytes ct ->
  EncapsulateH K bp g r (Some c) ct ss pub = go (Encapsulate g r (Some c) ct ss pub).
Proof.
  intros K bp g r c ct ss pub Q Q' Hb HK L UC EP S Hc. destruct (used_ok g r c L UC) as [(_ & _ & _ & HS) HR]. unfold EncapsulateH, Encapsulate. cbv zeta. rewrite EP.
  destruct (negb _); [reflexivity|]. destruct (_ <? _); [reflexivity|]. destruct (_ <? _); [reflexivity|].
  destruct (readFull (kRng c) (kMsg c)) as [[msg rng] e] eqn:ER. destruct e; [reflexivity|].
  assert (Bm : bytes msg). { unfold readFull in ER. destruct (_ <? _)%nat; [discriminate|]. injection ER as <- _. apply Forall_firstn, HR. }
  apply step; [reflexivity|]. intros pkA EA. destruct (new_sound Q r _ pkA L EA) as [SA _].
  apply step; [apply (export_M K bp Hb Q'); exact S|]. intros buf Ebuf. pose proof (bytes_export _ _ _ (bytes_zeros _) Ebuf) as Bbuf. apply step; [reflexivity|]. intros b Eb. pose proof (bytes_sub _ _ _ _ Bbuf Eb) as Bb.
  rewrite shakeRunH_ok by (try apply all2; assumption). cbn [stuckable mb]. destruct (shake_run g (kShake c) [msg; b] (kSecret c) HS (all2 _ _ Bm Bb)) as (s1 & E1 & S1 & _). rewrite E1.
  apply step; [reflexivity|]. intros sc' _.
  destruct (generate_M K bp Hb Q (mkPrv (paramsOf Q) KeyVariantSidhA sc' []) pkA HK eq_refl (proj1 SA)) as [EG SG].
  apply step; [exact EG|]. intros pkA' E'. destruct (SG pkA' E') as [SA' _].
  destruct (gen_ct_H K bp Q Q' g s1 ct (mkPrv (paramsOf Q) KeyVariantSidhA sc' []) pkA' pub msg Hb HK eq_refl SA' S S1 Hc Bm) as [EC SC].
  apply step_pair; [exact EC|]. intros s2 ct' E2. destruct (SC s2 ct' E2) as [S2 Bct]. apply step_pair; [apply shakeToH_ok; [exact Hb|exact S2|apply all2; assumption]|]. intros s3 ss' _. reflexivity.
Qed.
Print Assumptions C85_encapsulate.
Theorem C85_decapsulate : forall K bp g r c ss prv pub ct Q Q' Qv, is_w64 bp -> right Q K -> right Qv K -> later r -> usedKem g r c -> kParams c = paramsOf Q -> sound Q' pub ->
  prvParams prv = paramsOf Qv -> bytes (prvS prv) -> bytes ct ->
  DecapsulateH K bp g r (Some c) ss prv pub ct = go (Decapsulate g r (Some c) ss prv pub ct).
Proof.
  intros K bp g r c ss prv pub ct Q Q' Qv Hb HK HV L UC EP S EV BS Hc. destruct (used_ok g r c L UC) as [(_ & _ & _ & HS) _]. unfold DecapsulateH, Decapsulate. cbv zeta. rewrite EP.
  destruct (negb _); [reflexivity|]. destruct (negb _); [reflexivity|]. destruct (_ <? _); [reflexivity|]. destruct (negb _); [reflexivity|].
  apply step; [reflexivity|]. intros pkA EA. destruct (new_sound Q r _ pkA L EA) as [SA _].
  destruct (decrypt_H K bp Qv g r (kShake c) (zeros MaxMsgBsz) prv ct Hb HV L EV Hc HS (bytes_zeros _)) as [ED SD].
  apply step; [exact ED|]. intros [[[s m] c1Len] err] E1. destruct (SD _ _ _ _ E1) as [S1 Bm]. destruct err; [reflexivity|].
  apply step; [apply (export_M K bp Hb Q'); exact S|]. intros pkBytes Ek. pose proof (bytes_export _ _ _ (bytes_zeros _) Ek) as Bk. apply step; [reflexivity|]. intros m' Em. pose proof (bytes_sub _ _ _ _ Bm Em) as Bm'.
  apply step; [reflexivity|]. intros b Eb. pose proof (bytes_sub _ _ _ _ Bk Eb) as Bb.
  destruct (shakeToH_ok K bp Hb g s [m'; b] (zeros MaxSidhPrivateKeyBsz) (SecretByteLen (pA (paramsOf Q))) S1 (all2 _ _ Bm' Bb)) as [EH SH].
  apply step_pair; [exact EH|]. intros s2 r1 E2. destruct (SH s2 r1 E2) as [S2 _]. apply step; [reflexivity|]. intros r2 _. apply step; [reflexivity|]. intros r3 _.
  apply step_pair; [reflexivity|]. intros skA err Ei. destruct err; [reflexivity|].
  assert (EK : prvParams skA = paramsOf Q).
  { clear Em Eb. unfold prvImport in Ei. destruct (negb _); [discriminate|]. destruct (sub _ 0 _); [|discriminate]. cbn [bind] in Ei. destruct (sub _ _ _); [|discriminate]. cbn [bind] in Ei. injection Ei as <-. reflexivity. }
  destruct (generate_M K bp Hb Q skA pkA HK EK (proj1 SA)) as [EG SG]. apply step; [exact EG|]. intros pkA' E'. destruct (SG pkA' E') as [SA' _].
  apply step; [apply (export_M K bp Hb Q); exact SA'|]. intros pb _. apply step; [reflexivity|]. intros x _. apply step; [reflexivity|]. intros y _. apply step; [reflexivity|]. intros m2 E3.
  pose proof (bytes_pick _ _ _ _ Bm' BS E3) as Bm2.
  apply step_pair; [apply shakeToH_ok; [exact Hb|exact S2|apply all2; assumption]|]. intros s3 ss' _. reflexivity.
Qed.
Print Assumptions C85_decapsulate.

(* the exchange between two machines, no part of the field or the hash in Go code where there is assembly for it *)
Theorem C85_sike : forall K bp K' bp' Q g g' r r' c d ct ss ss' prv pub pub', is_w64 bp -> is_w64 bp' -> right Q K -> right Q K' ->
  later r -> later r' -> usedKem g r c -> usedKem g' r' d -> kParams c = paramsOf Q -> kParams d = paramsOf Q ->
  sikePrv prv -> prvParams prv = paramsOf Q -> matches prv pub -> matches prv pub' -> sound Q pub -> sound Q pub' ->
  MsgLen (paramsOf Q) <= Z.of_nat (length (kRng c)) -> bytes ct -> Z.of_nat (length ct) = CiphertextSize (paramsOf Q) ->
  KemSize (paramsOf Q) <= Z.of_nat (length ss) -> KemSize (paramsOf Q) <= Z.of_nat (length ss') ->
  exists c' d' ct' key, EncapsulateH K bp g r (Some c) ct ss pub = Ret (Some (c', ct', key ++ skipn (length key) ss, false)) /\
    DecapsulateH K' bp' g' r' (Some d) ss' prv pub' ct' = Ret (Some (d', key ++ skipn (length key) ss', false)) /\
    Z.of_nat (length key) = KemSize (paramsOf Q) /\ Z.of_nat (length ct') = CiphertextSize (paramsOf Q).
Proof.
  intros K bp K' bp' Q g g' r r' c d ct ss ss' prv pub pub' Hb Hb' HK HK' L L' UC UD EC ED SP EP M M' S S' HR Hc LC LS LS'.
  destruct (C50_sike g g' r r' c d ct ss ss' prv pub pub' L L' UC UD) as (c' & d' & ct' & key & E1 & E2 & E3 & E4); try (rewrite ?EC, ?ED; assumption || congruence).
  assert (BC : bytes ct').
  { destruct (C50_encapsulate_value g r c ct ss pub L UC) as (c2 & E5 & _); try (rewrite ?EC; assumption || apply S).
    - destruct M as (_ & -> & _). apply SP.
    - rewrite E1 in E5. apply Ret_inj in E5. injection E5 as _ E5 _. rewrite E5, EC. destruct (used_ok g r c L UC) as [_ HB].
      assert (0 <= MsgLen (paramsOf Q)) by (destruct Q; vm_compute; discriminate). apply (ct_facts (paramsOf Q) prv pub _ EP SP M); [apply Forall_firstn, HB|rewrite firstn_length_le; lia]. }
  pose proof SP as (_ & _ & _ & BS). rewrite EC in E3, E4. exists c', d', ct', key.
  rewrite (C85_encapsulate K bp g r c ct ss pub Q Q), E1 by assumption. rewrite (C85_decapsulate K' bp' g' r' d ss' prv pub' ct' Q Q Q), E2 by assumption.
  repeat split; assumption.
Qed.
Print Assumptions C85_sike.

(* a case meeting the hypotheses: p503, amd64 with and without ADX, the encapsulating side's object having been reset *)
Example ex_C85 : exists r c d pub c' d' ct key, later r /\ NewSike503 r (repeat 7 40) = Ret c /\ NewSike503 r [] = Ret d /\
  GeneratePublicKeyM (Amd64 true false 4096) 7 exPrv (freshKey params503 KeyVariantSike) = Ret (Some pub) /\
  EncapsulateH (Amd64 true true 8) 0 true r (Some (kemReset c)) (repeat 5 402) (repeat 0 30) pub = Ret (Some (c', ct, key ++ repeat 0 6, false)) /\
  DecapsulateH (Amd64 false false 4096) (2 ^ 64 - 1) false r (Some d) (repeat 1 24) exPrv pub ct = Ret (Some (d', key, false)) /\ length key = 24%nat /\ length ct = 402%nat.
Proof.
  destruct ex_C84_key as (pub & SP & EG & S & M). set (r := [(Fp751, params751); (Fp503, params503); (Fp434, params434)]). assert (LR : later r) by (apply l_init; reflexivity).
  assert (b7 : bytes (repeat 7 40)) by (apply Forall_repeat; unfold is_byte; lia). assert (b5 : bytes (repeat 5 402)) by (apply Forall_repeat; unfold is_byte; lia).
  assert (E1 : exists c, NewSike503 r (repeat 7 40) = Ret c /\ kParams c = paramsOf P503 /\ usedKem true r c /\ length (kRng c) = 40%nat).
  { eexists. split; [reflexivity|]. split; [reflexivity|]. split; [|reflexivity]. apply (u_new true r Fp503 (repeat 7 40)); [right; left; reflexivity|exact b7|reflexivity]. }
  assert (E2 : exists d, NewSike503 r [] = Ret d /\ kParams d = paramsOf P503 /\ usedKem false r d).
  { eexists. split; [reflexivity|]. split; [reflexivity|]. apply (u_new false r Fp503 []); [right; left; reflexivity|constructor|reflexivity]. }
  destruct E1 as (c & E1 & PC & UC & LC). destruct E2 as (d & E2 & PD & UD).
  destruct (C85_sike (Amd64 true true 8) 0 (Amd64 false false 4096) (2 ^ 64 - 1) P503 true false r r (kemReset c) d (repeat 5 402) (repeat 0 30) (repeat 1 24) exPrv pub pub) as (c' & d' & ct & key & H1 & H2 & H3 & H4);
    try assumption; try reflexivity; try (split; lia); try (apply Z.leb_le; reflexivity).
  - apply u_reset, UC.
  - cbn [kemReset kRng]. rewrite LC. apply Z.leb_le. reflexivity.
  - change (KemSize (paramsOf P503)) with 24 in H3. change (CiphertextSize (paramsOf P503)) with 402 in H4. assert (LK : length key = 24%nat) by lia. rewrite LK in H1, H2. rewrite (skipn_all2 (repeat 1 24)), app_nil_r in H2 by (rewrite repeat_length; lia).
    exists r, c, d, pub, c', d', ct, key. split; [exact LR|]. split; [exact E1|]. split; [exact E2|]. split; [exact EG|]. split; [exact H1|]. split; [exact H2|]. split; [exact LK|lia].
Qed.
