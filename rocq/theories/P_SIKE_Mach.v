(* C84: the SIDH key API and SIKE over the machine code of the field arithmetic. *)
From Coq Require Import ZArith List Bool Lia.
From Verif Require Import Lib Sha3_Iface Sha3_Model Sha3_Client MP Instr SIDH_Consts SIDH_Field SIDH_Curve SIDH_Sim X86 SIDH_AsmModel SIDH_AsmFp2 SIDH_AsmFp2Proofs SIDH_AsmCore SIDH_AsmCoreProofs P_SIDH_AsmFp2.
From Verif Require Import SIDH_Api SIDH_ApiProofs P_SIDH_Api SIKE_Model SIKE_Spec SIKE_Proofs P_SIKE SIKE_Mach.
Import ListNotations.
Open Scope Z_scope.
Notation package := SIDH_AsmModel.pkg.

(* a public key as constructors, Import and GeneratePublicKey leave it: parameters of package Q, coordinates of FpWords words below 2p *)
Definition sound3 (Q : package) (x : pts) : Prop := let '(a, b, c) := x in reduced Q a /\ reduced Q b /\ reduced Q c.
Definition sound (Q : package) (k : pubKey) : Prop := pubParams k = paramsOf Q /\ sound3 Q (affine3Pt k).

Lemma step {X Y} (x : mres X) (r : res X) (f : X -> mres Y) (f' : X -> res Y) :
  x = go r -> (forall a, r = Ret a -> f a = go (f' a)) -> mb x f = go (bind r f').
Proof. intros -> H. destruct r as [a|]; cbn [go bind mb]; [apply H; reflexivity|reflexivity]. Qed.
Lemma step_pair {X X' Y} (x : mres (X * X')) (r : res (X * X')) (f : X -> X' -> mres Y) (f' : X -> X' -> res Y) :
  x = go r -> (forall a a', r = Ret (a, a') -> f a a' = go (f' a a')) -> mb x (fun '(a, a') => f a a') = go (bind r (fun '(a, a') => f' a a')).
Proof. intros E H. apply step; [exact E|]. intros [a a'] Er. apply H, Er. Qed.
Lemma pkgM_of Q : pkgM (pID (paramsOf Q)) = Ret (Some Q). Proof. destruct Q; reflexivity. Qed.
Lemma pkg_of Q : SIDH_Api.pkg (pID (paramsOf Q)) = Ret (paramsOf Q). Proof. destruct Q; reflexivity. Qed.
Lemma reg_of Q : registered (paramsOf Q). Proof. unfold registered. destruct Q; auto. Qed.
Lemma id_of Q Q' : pID (paramsOf Q) = pID (paramsOf Q') -> Q = Q'.
Proof. destruct Q, Q'; intro H; reflexivity || discriminate H. Qed.
Lemma new_sound Q r v k : later r -> NewPublicKey r (pID (paramsOf Q)) v = Ret k -> sound Q k /\ pubVariant k = v.
Proof.
  intros L E. rewrite (new_key (paramsOf Q) (reg_of Q) r v L) in E. injection E as <-. split; [|reflexivity]. split; [reflexivity|].
  unfold freshKey. cbn [affine3Pt sound3]. rewrite fieldQ. fold (z2 Q). pose proof (proj2 (red_ok Q _) (z2_ok Q)). auto.
Qed.
Lemma sub_bytes l lo hi b : bytes l -> sub l lo hi = Ret b -> bytes b /\ Z.of_nat (length b) = hi - lo.
Proof.
  unfold sub. intros H. destruct (_ && _) eqn:E; [|discriminate]. intro H1. injection H1 as <-. split; [apply Forall_firstn, Forall_skipn, H|].
  rewrite !andb_true_iff, !Z.leb_le in E. rewrite firstn_length, skipn_length. lia.
Qed.
Section Key.
Variables (K : arch) (bp : Z).
Hypothesis Hb : is_w64 bp.

Lemma from_ok Q x : reduced Q x -> mFrom K bp Q x = Ret (Some (FromMontgomery (fieldOf Q) x)).
Proof.
  intro H. unfold mFrom, stuckable, op1. edestruct (C73_fromMontgomery Q K bp [z2 Q; x] 0%nat 1%nat Hb) as (bp' & E & _); [|cbn; lia..|rewrite E; reflexivity].
  apply memW, mem2. apply red_ok, H.
Qed.
Lemma export_M Q k out : sound Q k -> pubExportM K bp k out = go (pubExport k out).
Proof.
  destruct k as [P v [[x0 x1] x2]]. intros [E (H0 & H1 & H2)]. cbn [pubParams] in E. subst P. unfold pubExportM, pubExport. cbn [pubParams affine3Pt].
  rewrite pkgM_of, pkg_of. cbn [mb bind map3]. rewrite fieldQ, !from_ok by assumption. cbn [mb].
  apply step; [reflexivity|]. intros a _. apply step; [reflexivity|]. intros b _. reflexivity.
Qed.
Lemma import_M Q k input : match K with Amd64 _ _ fp => is_w64 fp | Arm64 => True end -> sound Q k -> bytes input ->
  pubImportM K bp k input = go (pubImport k input) /\ (forall k' e, pubImport k input = Ret (k', e) -> sound Q k' /\ pubVariant k' = pubVariant k).
Proof.
  intros HK S Hi. pose proof S as SS. destruct k as [P v [[x0 x1] x2]]. destruct S as [E (H0 & H1 & H2)]. cbn [pubParams] in E. subst P. unfold pubImportM, pubImport, pubSize. cbn [pubParams affine3Pt pubVariant].
  destruct (Z.eqb_spec (Z.of_nat (length input)) (PublicKeySize (paramsOf Q))) as [L|L]; cbn [negb].
  2:{ split; [reflexivity|]. intros k' e X. injection X as <- <-. split; [exact SS|reflexivity]. }
  pose proof (reg_sizes _ (reg_of Q)) as Z. destruct Z.
  assert (SB : forall lo hi, 0 <= lo -> hi = lo + SharedSecretSize (paramsOf Q) -> hi <= Z.of_nat (length input) ->
    exists b, sub input lo hi = Ret b /\ bytes b /\ 2 * Bytelen (paramsOf Q) <= Z.of_nat (length b)).
  { intros lo hi A1 A2 A3. assert (Es : sub input lo hi = Ret (firstn (Z.to_nat (hi - lo)) (skipn (Z.to_nat lo) input))).
    { unfold sub. replace (_ && _) with true; [reflexivity|]. symmetry. rewrite !andb_true_iff, !Z.leb_le. lia. }
    eexists. split; [exact Es|]. destruct (sub_bytes _ _ _ _ Hi Es) as [B1 B2]. split; [exact B1|lia]. }
  destruct (SB 0 (SharedSecretSize (paramsOf Q))) as (b0 & E0 & B0 & L0); [lia..|].
  destruct (SB (SharedSecretSize (paramsOf Q)) (2 * SharedSecretSize (paramsOf Q))) as (b1 & E1 & B1 & L1); [lia..|].
  destruct (SB (2 * SharedSecretSize (paramsOf Q)) (3 * SharedSecretSize (paramsOf Q))) as (b2 & E2 & B2 & L2); [lia..|].
  destruct (C73_import Q K bp x0 b0 HK Hb H0 B0 L0) as (y0 & bp0 & F0 & G0 & R0).
  destruct (C73_import Q K bp x1 b1 HK Hb H1 B1 L1) as (y1 & bp1 & F1 & G1 & R1).
  destruct (C73_import Q K bp x2 b2 HK Hb H2 B2 L2) as (y2 & bp2 & F2 & G2 & R2).
  rewrite E0. cbn [go bind mb]. rewrite F0. cbn [go bind mb]. rewrite E1. cbn [go bind mb]. rewrite F1. cbn [go bind mb]. rewrite E2. cbn [go bind mb]. rewrite F2. cbn [go bind mb].
  rewrite pkgM_of, pkg_of. cbn [go bind mb]. rewrite fieldQ. unfold mTo, stuckable. rewrite G0, G1, G2. cbn [got rd nth mb map3]. split; [reflexivity|].
  intros k' e X. injection X as <- <-. split; [|reflexivity]. split; [reflexivity|]. cbn [affine3Pt sound3]. auto.
Qed.
Lemma allSome_map {X} (l : list X) : allSome (map Some l) = Some l.
Proof. induction l as [|x l IH]; cbn [map allSome]; [reflexivity|rewrite IH; reflexivity]. Qed.
Lemma gen_sound Q prv l : right Q K -> PublicKeyGenA_l (paramsOf Q) prv = Ret l \/ PublicKeyGenB_l (paramsOf Q) prv = Ret l -> Forall (reduced Q) l.
Proof.
  intros HK H.
  assert (A : forall x y, rr (Forall2 (rel Q)) x y -> y = Ret l -> Forall (reduced Q) l).
  { intros x y [a a' F|] Ey; [|discriminate]. injection Ey as ->. clear - F. induction F as [|u u' t t' [_ O] _ IH]; constructor; [apply red_ok, O|exact IH]. }
  destruct H as [H|H]; (eapply A; [|exact H]).
  - apply (PublicKeyGenA_sim _ _ _ (asm_sim Q K bp HK Hb) _ _ _ _ (domA_rel Q K bp) (domB_rel Q K bp)).
  - apply (PublicKeyGenB_sim _ _ _ (asm_sim Q K bp HK Hb) _ _ _ _ (domA_rel Q K bp) (domB_rel Q K bp)).
Qed.
Lemma generate_M Q k pub : right Q K -> prvParams k = paramsOf Q -> pubParams pub = paramsOf Q ->
  GeneratePublicKeyM K bp k pub = go (GeneratePublicKey k pub) /\ (forall k', GeneratePublicKey k pub = Ret k' -> sound Q k' /\ pubVariant k' = pubVariant pub).
Proof.
  intros HK EP EQ. unfold GeneratePublicKeyM, GeneratePublicKey. destruct (_ || _). { split; [reflexivity|discriminate]. }
  rewrite EP, EQ, pkgM_of, pkg_of. cbn [mb bind].
  set (r := if onA (prvVariant k) then PublicKeyGenA_l (paramsOf Q) (Scalar k) else PublicKeyGenB_l (paramsOf Q) (Scalar k)).
  replace (if onA (prvVariant k) then PublicKeyGenA_a Q K bp (Scalar k) else PublicKeyGenB_a Q K bp (Scalar k)) with (ended (map Some) r).
  2:{ unfold r. destruct (onA _); symmetry; [apply C74_publicKeyA|apply C74_publicKeyB]; assumption. }
  assert (HS : forall l, r = Ret l -> Forall (reduced Q) l). { intros l Hl. apply (gen_sound Q (Scalar k) l HK). unfold r in Hl. destruct (onA (prvVariant k)); [left|right]; exact Hl. } clearbody r.
  destruct r as [l|]; cbn [ended bind mb]; [|split; [reflexivity|discriminate]]. rewrite allSome_map. cbn [mb]. split.
  - apply step; [reflexivity|]. intros x _. reflexivity.
  - intros k' E. specialize (HS l eq_refl). destruct l as [|a [|b [|c [|d l]]]]; try discriminate E. cbn [three bind] in E. injection E as <-. split; [|reflexivity]. split; [reflexivity|].
    cbn [affine3Pt sound3]. inversion HS as [|? ? A HS1]; subst. inversion HS1 as [|? ? B HS2]; subst. inversion HS2 as [|? ? C _]; subst. auto.
Qed.
Lemma derive_M Q Q' k ss pub : right Q K -> prvParams k = paramsOf Q -> sound Q' pub -> DeriveSecretM K bp k ss pub = go (DeriveSecret k ss pub).
Proof.
  intros HK EP S. unfold DeriveSecretM, DeriveSecret. destruct S as [E1 E2]. rewrite E1, EP. destruct (Z.eqb_spec (pID (paramsOf Q')) (pID (paramsOf Q))) as [E|E]; cbn [negb].
  2:{ rewrite orb_true_r. reflexivity. }
  apply id_of in E. subst Q'. destruct (_ || _); [reflexivity|]. rewrite pkgM_of, pkg_of. cbn [mb bind].
  destruct (affine3Pt pub) as [[x y] z]. destruct E2 as (R1 & R2 & R3).
  destruct (onA _); [rewrite C74_secretA by assumption|rewrite C74_secretB by assumption]; destruct (_ (paramsOf Q) ss (Scalar k) _); reflexivity.
Qed.
End Key.

(* ---- the key API ---- *)
(* one machine for a party: any amd64 CPU and frame address, or arm64 (without p503 where products are involved) *)
Theorem C84_export : forall K bp Q k out, is_w64 bp -> sound Q k -> pubExportM K bp k out = go (pubExport k out).
Proof. intros K bp Q k out Hb. apply export_M, Hb. Qed.
Print Assumptions C84_export.
Theorem C84_import : forall K bp Q k input, is_w64 bp -> match K with Amd64 _ _ fp => is_w64 fp | Arm64 => True end -> sound Q k -> bytes input ->
  pubImportM K bp k input = go (pubImport k input) /\ (forall k' e, pubImport k input = Ret (k', e) -> sound Q k' /\ pubVariant k' = pubVariant k).
Proof. intros K bp Q k input Hb. apply import_M, Hb. Qed.
Print Assumptions C84_import.
Theorem C84_public_key : forall K bp Q k pub, is_w64 bp -> right Q K -> prvParams k = paramsOf Q -> pubParams pub = paramsOf Q ->
  GeneratePublicKeyM K bp k pub = go (GeneratePublicKey k pub) /\ (forall k', GeneratePublicKey k pub = Ret k' -> sound Q k' /\ pubVariant k' = pubVariant pub).
Proof. intros K bp Q k pub Hb. apply generate_M, Hb. Qed.
Print Assumptions C84_public_key.
Theorem C84_secret : forall K bp Q Q' k ss pub, is_w64 bp -> right Q K -> prvParams k = paramsOf Q -> sound Q' pub -> DeriveSecretM K bp k ss pub = go (DeriveSecret k ss pub).
Proof. intros K bp Q Q' k ss pub Hb. apply derive_M, Hb. Qed.
Print Assumptions C84_secret.

(* ---- SIKE ---- *)
Lemma gen_ct_M K bp Q Q' g s ct skA pkA pkB m : is_w64 bp -> right Q K -> prvParams skA = paramsOf Q -> sound Q pkA -> sound Q' pkB ->
  generateCiphertextM K bp g s ct skA pkA pkB m = go (generateCiphertext g s ct skA pkA pkB m).
Proof.
  intros Hb HK EP SA SB. unfold generateCiphertextM, generateCiphertext. cbv zeta.
  apply step; [apply (derive_M K bp Hb Q Q'); assumption|]. intros j _. apply step; [reflexivity|]. intros j' _.
  apply step_pair; [reflexivity|]. intros s' n _. apply step; [reflexivity|]. intros n' _.
  apply step; [apply (export_M K bp Hb Q); exact SA|]. intros ct' _. apply step; [reflexivity|]. intros n2 _. apply step; [reflexivity|]. intros ct2 _. reflexivity.
Qed.
Lemma decrypt_M K bp Q g r s n prv ct : is_w64 bp -> right Q K -> later r -> prvParams prv = paramsOf Q -> bytes ct ->
  decryptM K bp g r s n prv ct = go (decrypt g r s n prv ct).
Proof.
  intros Hb HK L EP Hc. unfold decryptM, decrypt. cbv zeta. rewrite EP.
  apply step; [reflexivity|]. intros c0 E0. destruct (new_sound Q r _ c0 L E0) as [S0 _]. apply step; [reflexivity|]. intros b Eb. destruct (sub_bytes _ _ _ _ Hc Eb) as [Bb _].
  assert (HK' : match K with Amd64 _ _ fp => is_w64 fp | Arm64 => True end) by (destruct K; [exact HK|exact I]).
  destruct (import_M K bp Hb Q c0 b HK' S0 Bb) as [EI SI].
  apply step_pair; [exact EI|]. intros c1 e E1. destruct (SI c1 e E1) as [S1 _].
  apply step; [apply (derive_M K bp Hb Q Q); assumption|]. intros j _. apply step; [reflexivity|]. intros j' _. apply step_pair; [reflexivity|]. intros s' n' _.
  apply step; [reflexivity|]. intros c2 _. apply step; [reflexivity|]. intros n2 _. reflexivity.
Qed.

(* Encapsulate and Decapsulate do on every machine what they do in the portable build: same object, ciphertext, secret, error, same panics; no run is ever stuck *)
Theorem C84_encapsulate : forall K bp g r c ct ss pub Q Q', is_w64 bp -> right Q K -> later r -> kParams c = paramsOf Q -> sound Q' pub ->
  EncapsulateM K bp g r (Some c) ct ss pub = go (Encapsulate g r (Some c) ct ss pub).
Proof.
  intros K bp g r c ct ss pub Q Q' Hb HK L EP S. unfold EncapsulateM, Encapsulate. cbv zeta. rewrite EP.
  destruct (negb _); [reflexivity|]. destruct (_ <? _); [reflexivity|]. destruct (_ <? _); [reflexivity|].
  destruct (readFull _ _) as [[msg rng] e]. destruct e; [reflexivity|].
  apply step; [reflexivity|]. intros pkA EA. destruct (new_sound Q r _ pkA L EA) as [SA _].
  apply step; [apply (export_M K bp Hb Q'); exact S|]. intros buf _. apply step; [reflexivity|]. intros b _.
  destruct (shakeRun _ _ _ _) as [s sc]. apply step; [reflexivity|]. intros sc' _.
  destruct (generate_M K bp Hb Q (mkPrv (paramsOf Q) KeyVariantSidhA sc' []) pkA HK eq_refl (proj1 SA)) as [EG SG].
  apply step; [exact EG|]. intros pkA' E'. destruct (SG pkA' E') as [SA' _].
  apply step_pair; [apply (gen_ct_M K bp Q Q'); auto|]. intros s' ct' _. apply step_pair; [reflexivity|]. intros s2 ss' _. reflexivity.
Qed.
Print Assumptions C84_encapsulate.
Theorem C84_decapsulate : forall K bp g r c ss prv pub ct Q Q' Qv, is_w64 bp -> right Q K -> right Qv K -> later r -> kParams c = paramsOf Q -> sound Q' pub -> prvParams prv = paramsOf Qv -> bytes ct ->
  DecapsulateM K bp g r (Some c) ss prv pub ct = go (Decapsulate g r (Some c) ss prv pub ct).
Proof.
  intros K bp g r c ss prv pub ct Q Q' Qv Hb HK HV L EP S EV Hc. unfold DecapsulateM, Decapsulate. cbv zeta. rewrite EP.
  destruct (negb _); [reflexivity|]. destruct (negb _); [reflexivity|]. destruct (_ <? _); [reflexivity|]. destruct (negb _); [reflexivity|].
  apply step; [reflexivity|]. intros pkA EA. destruct (new_sound Q r _ pkA L EA) as [SA _].
  apply step; [apply (decrypt_M K bp Qv); assumption|]. intros [[[s m] c1Len] err] _. destruct err; [reflexivity|].
  apply step; [apply (export_M K bp Hb Q'); exact S|]. intros pkBytes _. apply step; [reflexivity|]. intros m' _. apply step; [reflexivity|]. intros b _.
  apply step_pair; [reflexivity|]. intros s1 r1 _. apply step; [reflexivity|]. intros r2 _. apply step; [reflexivity|]. intros r3 _.
  apply step_pair; [reflexivity|]. intros skA err Ei. destruct err; [reflexivity|].
  assert (EK : prvParams skA = paramsOf Q).
  { unfold prvImport in Ei. destruct (negb _); [discriminate|]. destruct (sub _ 0 _); [|discriminate]. cbn [bind] in Ei. destruct (sub _ _ _); [|discriminate]. cbn [bind] in Ei. injection Ei as <-. reflexivity. }
  destruct (generate_M K bp Hb Q skA pkA HK EK (proj1 SA)) as [EG SG]. apply step; [exact EG|]. intros pkA' E'. destruct (SG pkA' E') as [SA' _].
  apply step; [apply (export_M K bp Hb Q); exact SA'|]. intros pb _. apply step; [reflexivity|]. intros x _. apply step; [reflexivity|]. intros y _. apply step; [reflexivity|]. intros m2 _.
  apply step_pair; [reflexivity|]. intros s2 ss' _. reflexivity.
Qed.
Print Assumptions C84_decapsulate.

(* Two parties on two machines get the same key *)
Theorem C84_sike : forall K bp K' bp' Q g g' r r' c d ct ss ss' prv pub pub', is_w64 bp -> is_w64 bp' -> right Q K -> right Q K' ->
  later r -> later r' -> usedKem g r c -> usedKem g' r' d -> kParams c = paramsOf Q -> kParams d = paramsOf Q ->
  sikePrv prv -> prvParams prv = paramsOf Q -> matches prv pub -> matches prv pub' -> sound Q pub -> sound Q pub' ->
  MsgLen (paramsOf Q) <= Z.of_nat (length (kRng c)) -> bytes ct -> Z.of_nat (length ct) = CiphertextSize (paramsOf Q) ->
  KemSize (paramsOf Q) <= Z.of_nat (length ss) -> KemSize (paramsOf Q) <= Z.of_nat (length ss') ->
  exists c' d' ct' key, EncapsulateM K bp g r (Some c) ct ss pub = Ret (Some (c', ct', key ++ skipn (length key) ss, false)) /\
    DecapsulateM K' bp' g' r' (Some d) ss' prv pub' ct' = Ret (Some (d', key ++ skipn (length key) ss', false)) /\
    Z.of_nat (length key) = KemSize (paramsOf Q) /\ Z.of_nat (length ct') = CiphertextSize (paramsOf Q).
Proof.
  intros K bp K' bp' Q g g' r r' c d ct ss ss' prv pub pub' Hb Hb' HK HK' L L' UC UD EC ED SP EP M M' S S' HR Hc LC LS LS'.
  destruct (C50_sike g g' r r' c d ct ss ss' prv pub pub' L L' UC UD) as (c' & d' & ct' & key & E1 & E2 & E3 & E4); try (rewrite ?EC, ?ED; assumption || congruence).
  assert (BC : bytes ct').
  { destruct (C50_encapsulate_value g r c ct ss pub L UC) as (c2 & E5 & _); try (rewrite ?EC; assumption || apply S).
    - destruct M as (_ & -> & _). apply SP.
    - rewrite E1 in E5. apply Ret_inj in E5. injection E5 as _ E5 _. rewrite E5, EC. destruct (used_ok g r c L UC) as [_ HB].
      assert (0 <= MsgLen (paramsOf Q)) by (destruct Q; vm_compute; discriminate). apply (ct_facts (paramsOf Q) prv pub _ EP SP M); [apply Forall_firstn, HB|rewrite firstn_length_le; lia]. }
  rewrite EC in E3, E4. exists c', d', ct', key.
  rewrite (C84_encapsulate K bp g r c ct ss pub Q Q), E1 by assumption. rewrite (C84_decapsulate K' bp' g' r' d ss' prv pub' ct' Q Q Q), E2 by assumption.
  repeat split; assumption.
Qed.
Print Assumptions C84_sike.

(* the hypotheses are met: a key made on one machine, used on it and, over the wire, on another; with it the whole exchange runs on every pair of machines *)
Definition exPrv : prvKey := mkPrv params503 KeyVariantSike (repeat 77 32) (repeat 5 24).
Example ex_C84_key : exists pub, sikePrv exPrv /\ GeneratePublicKeyM (Amd64 true false 4096) 7 exPrv (freshKey params503 KeyVariantSike) = Ret (Some pub) /\ sound P503 pub /\ matches exPrv pub.
Proof.
  assert (SP : sikePrv exPrv).
  { split; [|split; [reflexivity|split; apply Forall_repeat; unfold is_byte; lia]]. split; [right; left; reflexivity|]. split; reflexivity. }
  assert (RP : registered params503) by (right; left; reflexivity). pose proof SP as (SH & _).
  destruct (pubOf_ok params503 RP exPrv eq_refl (shaped_long exPrv SH)) as (O1 & _).
  destruct (C84_public_key (Amd64 true false 4096) 7 P503 exPrv (freshKey params503 KeyVariantSike)) as [E S]; [split; lia|split; lia|reflexivity|reflexivity|].
  exists (pubOf exPrv). change (prvVariant exPrv) with KeyVariantSike in O1. rewrite E, O1. split; [exact SP|]. split; [reflexivity|]. split; [exact (proj1 (S (pubOf exPrv) O1))|]. exact (proj1 (C50_matches exPrv SP)).
Qed.
