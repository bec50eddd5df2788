(* The multi-recipient KEM: what the model computes. *)
From Coq Require Import ZArith List Lia Bool.
From Verif Require Import Lib Sha3_Spec Sha3_Iface Sha3_Model Sha3_Client Sha3_Proofs Sha3_Proofs2 P_SHA3.
From Verif Require Import MP Instr SIDH_Consts SIDH_Field SIDH_FieldProofs SIDH_Inst SIDH_Curve SIDH_Line SIDH_Traverse SIDH_Bytes P_SIDH_Field SIDH_Final SIDH_Api SIDH_ApiProofs P_SIDH_Api SIKE_Model SIKE_Spec SIKE_Proofs P_SIKE MKEM_Model MKEM_Spec.
Import ListNotations.
Open Scope Z_scope.

(* an object as Allocate makes it and the operations keep it *)
Definition mkemOk (c : mkem) : Prop := kemOk (mKem c) /\ bytes (kRng (mKem c)) /\ bytes (mCt0 c) /\ Z.of_nat (length (mCt0 c)) = MaxPublicKeySz /\
  Forall (fun x => Z.of_nat (length x) = MaxMsgBsz) (mCts c) /\ Z.of_nat (length (mJ c)) = MaxSharedSecretBsz.
(* what Decapsulate computes: the re-encryption masks the message M the object holds *)
Definition codeDecaps (P : sidhParams) (M : list Z) (sk : prvKey) (pub : pubKey) (c0 ci : list Z) : list Z :=
  let m := mkemMsg P sk c0 ci in
  mkemKey P (if list_eq_dec Z.eq_dec (mkemCt0 P m) c0 then if list_eq_dec Z.eq_dec ci (pad (2 :: sharedOf (mkemEph P m) pub) M) then m else prvS sk else prvS sk).
(* the entries of cts after Encapsulate *)
Fixpoint fillCts (f : pubKey -> list Z) (pub : list pubKey) (cts : list (list Z)) : list (list Z) :=
  match pub, cts with
  | pk :: pub, old :: cts => (f pk ++ skipn (length (f pk)) old) :: fillCts f pub cts
  | _, _ => cts
  end.
Lemma fill_length : forall f pub cts, length (fillCts f pub cts) = length cts.
Proof. induction pub; intros [|x cts]; cbn; try reflexivity. rewrite IHpub. reflexivity. Qed.
Lemma fill_nth : forall f pub cts i pk old, nth_error pub i = Some pk -> nth_error cts i = Some old -> nth_error (fillCts f pub cts) i = Some (f pk ++ skipn (length (f pk)) old).
Proof. induction pub; intros [|x cts] [|i] pk old H H'; cbn in *; try discriminate; [congruence|apply IHpub; assumption]. Qed.
Lemma fill_rest : forall f pub cts i, (length pub <= i)%nat -> nth_error (fillCts f pub cts) i = nth_error cts i.
Proof. induction pub; intros [|x cts] [|i] H; cbn in *; try reflexivity; try lia. apply IHpub. lia. Qed.

Lemma mkem_long : forall P m, registered P -> longEnough (mkemEph P m).
Proof.
  intros P m RP. pose proof (reg_sizes P RP) as Z. destruct Z. unfold longEnough, bitsOf, mkemEph. cbn [prvVariant prvParams Scalar]. change (onA KeyVariantSidhA) with true. cbv iota.
  unfold mkemScalar. rewrite le_enc_length. lia.
Qed.
Lemma one_byte : forall b l, 0 <= b < 256 -> bytes l -> bytes (b :: l).
Proof. intros b l H Hl. constructor; assumption. Qed.
(* GeneratePublicKey into a used key *)
Lemma gen_into : forall P k pub, registered P -> prvParams k = P -> longEnough k -> pubParams pub = P -> pubVariant pub = prvVariant k -> GeneratePublicKey k pub = Ret (pubOf k).
Proof.
  intros P k pub RP E LE E' EV. destruct (pubOf_ok P RP k E LE) as (G & _ & _). rewrite <- G. unfold GeneratePublicKey. cbn [freshKey pubParams pubVariant]. rewrite E', EV. reflexivity.
Qed.
(* one hash of the loops: G2 || j into the first MsgLen bytes of a buffer, then the message *)
Lemma mask_step : forall g s P j buf p, registered P -> isShake s -> bytes j -> bytes p -> Z.of_nat (length p) = MsgLen P -> MsgLen P <= Z.of_nat (length buf) ->
  exists s', isShake s' /\ shakeTo g s [G2; j] buf (MsgLen P) = Ret (s', shake256 (2 :: j) (Z.to_nat (MsgLen P)) ++ skipn (Z.to_nat (MsgLen P)) buf) /\
    xorInto (shake256 (2 :: j) (Z.to_nat (MsgLen P)) ++ skipn (Z.to_nat (MsgLen P)) buf) p = Ret (pad (2 :: j) p ++ skipn (Z.to_nat (MsgLen P)) buf).
Proof.
  intros g s P j buf p RP HS Hj Hp Lp LB. pose proof (reg_sizes P RP) as Z. destruct Z. assert (H2 : bytes (2 :: j)) by (apply one_byte; [lia|exact Hj]).
  destruct (shake_to g s [G2; j] buf (MsgLen P) HS) as (s' & E & H').
  { constructor; [repeat constructor; unfold is_byte; lia|constructor; [exact Hj|constructor]]. }
  { lia. }
  exists s'. split; [exact H'|]. cbn [concat app G2] in E. rewrite app_nil_r in E. split; [exact E|].
  rewrite xorInto_ok by (rewrite shake_length by exact H2; lia). unfold pad. replace (Z.to_nat (MsgLen P)) with (length p) by lia. reflexivity.
Qed.

Lemma setAt_first : forall l i x, (i < length l)%nat -> firstn (S i) (setAt l i x) = firstn i l ++ [x].
Proof.
  intros l i x H. unfold setAt. rewrite firstn_app, firstn_length_le by lia. rewrite firstn_all2 by (rewrite firstn_length; lia).
  replace (S i - i)%nat with 1%nat by lia. reflexivity.
Qed.
Lemma setAt_skip : forall l i x, (i < length l)%nat -> skipn (S i) (setAt l i x) = skipn (S i) l.
Proof.
  intros l i x H. unfold setAt. rewrite skipn_app, firstn_length_le by lia. rewrite skipn_all2 by (rewrite firstn_length; lia).
  replace (S i - i)%nat with 1%nat by lia. reflexivity.
Qed.
Lemma setAt_length : forall l i x, (i < length l)%nat -> length (setAt l i x) = length l.
Proof. intros. unfold setAt. rewrite app_length, firstn_length_le by lia. cbn [length]. rewrite skipn_length. lia. Qed.
Lemma skipn_cons : forall (l : list (list Z)) i x, nth_error l i = Some x -> skipn i l = x :: skipn (S i) l.
Proof. induction l; intros [|i] x H; cbn in *; try discriminate; [congruence|]. apply IHl, H. Qed.

(* ---------- the loop ---------- *)
Definition goodPub (P : sidhParams) (pk : pubKey) : Prop := pubVariant pk = KeyVariantSike /\ pubParams pk = P.
Lemma loop_ok : forall g P skA msg, registered P -> prvParams skA = P -> prvVariant skA = KeyVariantSidhA -> longEnough skA -> bytes msg -> Z.of_nat (length msg) = MsgLen P ->
  forall pub s j cts i, isShake s -> Z.of_nat (length j) = MaxSharedSecretBsz -> Forall (fun x => Z.of_nat (length x) = MaxMsgBsz) cts -> Forall (goodPub P) pub -> (i + length pub <= length cts)%nat ->
  exists s' j', isShake s' /\ Z.of_nat (length j') = MaxSharedSecretBsz /\
    multiLoop g s skA msg j cts i pub = Ret (s', j', firstn i cts ++ fillCts (fun pk => pad (2 :: sharedOf skA pk) msg) pub (skipn i cts)).
Proof.
  intros g P skA msg RP EP EV LE Hm Lm. pose proof (reg_sizes P RP) as Z. destruct Z. induction pub as [|pk pub IH]; intros s j cts i HS LJ HC HG HL.
  - exists s, j. split; [exact HS|]. split; [exact LJ|]. cbn [multiLoop fillCts]. rewrite firstn_skipn. reflexivity.
  - inversion HG as [|? ? [V Q] HG' ]; subst x l. cbn [length] in HL. cbn [multiLoop]. rewrite V, Z.eqb_refl, EP. cbn [negb].
    destruct (derive_gen P RP skA pk EP LE ltac:(rewrite V, EV; discriminate) ltac:(rewrite Q; reflexivity)) as (D1 & D2 & D3).
    unfold MaxSharedSecretBsz in *. rewrite D3 by lia. cbn [bind]. rewrite sub_prefix by exact D2. cbn [bind].
    destruct (nth_error cts i) as [old|] eqn:EN; [|apply nth_error_None in EN; lia].
    assert (LO : Z.of_nat (length old) = MaxMsgBsz) by (rewrite Forall_forall in HC; apply HC, (nth_error_In _ _ EN)). unfold MaxMsgBsz in *.
    destruct (mask_step g s P (sharedOf skA pk) old msg RP HS D1 Hm Lm ltac:(lia)) as (s1 & H1 & E1 & X1). rewrite E1. cbn [bind].
    rewrite sub_ok by lia. rewrite Z.sub_0_r, skipn_O, firstn_all2 by lia. cbn [bind]. rewrite X1. cbn [bind].
    set (e := pad (2 :: sharedOf skA pk) msg). assert (Le : length e = length msg) by (apply pad_length, one_byte; [lia|exact D1]).
    set (x := e ++ _). assert (Lx : Z.of_nat (length x) = 40) by (unfold x; rewrite app_length, skipn_length; lia).
    destruct (IH s1 (sharedOf skA pk ++ skipn (Z.to_nat (SharedSecretSize P)) j) (setAt cts i x) (S i) H1) as (s2 & j2 & H2 & L2 & E2).
    + rewrite app_length, skipn_length. lia.
    + unfold setAt. apply Forall_app. split; [apply Forall_firstn; exact HC|]. constructor; [exact Lx|apply Forall_skipn; exact HC].
    + exact HG'.
    + rewrite setAt_length by lia. lia.
    + exists s2, j2. split; [exact H2|]. split; [exact L2|]. rewrite E2. f_equal. f_equal. rewrite setAt_first, setAt_skip by lia.
      rewrite (skipn_cons cts i old EN). cbn [fillCts]. fold e. rewrite <- app_assoc. cbn [app]. unfold x. rewrite Le. replace (Z.to_nat (MsgLen P)) with (length msg) by lia. reflexivity.
Qed.
Lemma loop_panic : forall g P skA msg, registered P -> prvParams skA = P -> prvVariant skA = KeyVariantSidhA -> longEnough skA -> bytes msg -> Z.of_nat (length msg) = MsgLen P ->
  forall pub s j cts i, isShake s -> Z.of_nat (length j) = MaxSharedSecretBsz -> Forall (fun x => Z.of_nat (length x) = MaxMsgBsz) cts -> Forall (fun pk => registered (pubParams pk)) pub ->
  (Exists (fun pk => ~ goodPub P pk) pub \/ (length cts < i + length pub)%nat) -> (i <= length cts)%nat ->
  multiLoop g s skA msg j cts i pub = Panic.
Proof.
  intros g P skA msg RP EP EV LE Hm Lm. pose proof (reg_sizes P RP) as Z. destruct Z. induction pub as [|pk pub IH]; intros s j cts i HS LJ HC HR HX HI.
  - destruct HX as [X|X]; [inversion X|cbn in X; lia].
  - inversion HR as [|? ? R HR' ]; subst x l. cbn [length] in HX. cbn [multiLoop]. destruct (Z.eqb_spec KeyVariantSike (pubVariant pk)) as [V|V]; [|reflexivity]. cbn [negb]. rewrite EP.
    destruct (same_params (pubParams pk) P R RP) as [Q|Q].
    2:{ unfold DeriveSecret. rewrite EP, EV. destruct (Z.eqb_spec (pID (pubParams pk)) (pID P)) as [E|E]; [exfalso; apply Q, reg_id; assumption|]. rewrite orb_true_r. reflexivity. }
    destruct (derive_gen P RP skA pk EP LE ltac:(rewrite <- V, EV; discriminate) ltac:(rewrite Q; reflexivity)) as (D1 & D2 & D3).
    unfold MaxSharedSecretBsz in *. rewrite D3 by lia. cbn [bind]. rewrite sub_prefix by exact D2. cbn [bind].
    destruct (nth_error cts i) as [old|] eqn:EN; [|reflexivity]. assert (HI' : (i < length cts)%nat) by (apply nth_error_Some; rewrite EN; discriminate).
    assert (LO : Z.of_nat (length old) = MaxMsgBsz) by (rewrite Forall_forall in HC; apply HC, (nth_error_In _ _ EN)). unfold MaxMsgBsz in *.
    destruct (mask_step g s P (sharedOf skA pk) old msg RP HS D1 Hm Lm ltac:(lia)) as (s1 & H1 & E1 & X1). rewrite E1. cbn [bind].
    rewrite sub_ok by lia. rewrite Z.sub_0_r, skipn_O, firstn_all2 by lia. cbn [bind]. rewrite X1. cbn [bind].
    set (e := pad (2 :: sharedOf skA pk) msg). assert (Le : length e = length msg) by (apply pad_length, one_byte; [lia|exact D1]).
    set (x := e ++ _). assert (Lx : Z.of_nat (length x) = 40) by (unfold x; rewrite app_length, skipn_length; lia).
    apply IH; try assumption.
    + rewrite app_length, skipn_length. lia.
    + unfold setAt. apply Forall_app. split; [apply Forall_firstn; exact HC|]. constructor; [exact Lx|apply Forall_skipn; exact HC].
    + rewrite setAt_length by lia. destruct HX as [X|X]; [|right; lia]. left. inversion X as [? ? Y|? ? Y]; subst; [|exact Y]. exfalso. apply Y. split; [symmetry; exact V|assumption].
    + rewrite setAt_length; lia.
Qed.

(* ---------- Encapsulate ---------- *)
Lemma scalar_ok : forall g s P m sec, registered P -> isShake s -> bytes m -> Z.of_nat (length sec) = SecretByteLen (pA P) ->
  exists s' x, isShake s' /\ shakeRun g s [G1; m] sec = (s', x) /\ maskA P x = Ret (mkemScalar P m).
Proof.
  intros g s P m sec RP HS Hm Ls. destruct (shake_run g s [G1; m] sec HS) as (s1 & E1 & H1 & L1).
  { constructor; [repeat constructor; unfold is_byte; lia|constructor; [exact Hm|constructor]]. }
  exists s1. eexists. split; [exact H1|]. split; [exact E1|]. cbn [concat app G1] in *. rewrite app_nil_r in *. rewrite (mask_ok P RP) by (try apply shake_bytes; lia).
  unfold mkemScalar. rewrite L1. replace (Z.to_nat (SecretByteLen (pA P))) with (length sec) by lia. reflexivity.
Qed.
Lemma menc_ok : forall g r c ss pub, later r -> mkemOk c -> let k := mKem c in let P := kParams k in let m := firstn (Z.to_nat (MsgLen P)) (kRng k) in
  Forall (goodPub P) pub -> (length pub <= length (mCts c))%nat -> MsgLen P <= Z.of_nat (length (kRng k)) -> KemSize P <= Z.of_nat (length ss) ->
  exists s' j', isShake s' /\ Z.of_nat (length j') = MaxSharedSecretBsz /\ multiEncapsulate g r (Some c) ss pub =
    Ret (mkMulti (mkKem (skipn (Z.to_nat (MsgLen P)) (kRng k)) m (mkemScalar P m) P s') (mkemCt0 P m ++ skipn (Z.to_nat (PublicKeySize P)) (mCt0 c)) (fillCts (mkemCti P m) pub (mCts c)) j',
      mkemKey P m ++ skipn (Z.to_nat (KemSize P)) ss, false).
Proof.
  intros g r [[rng msg0 sec0 P s0] ct0 cts j] ss pub LR ((RP & K1 & K2 & K3) & HR & HC0 & LC0 & HC & LJ). cbn [mKem mCt0 mCts mJ kRng kMsg kSecret kParams kShake] in *. cbv zeta.
  intros HG HL LM LS. pose proof (reg_sizes P RP) as Z. destruct Z.
  set (m := firstn (Z.to_nat (MsgLen P)) rng). assert (Lm : Z.of_nat (length m) = MsgLen P) by (unfold m; rewrite firstn_length_le; lia).
  assert (Bm : bytes m) by (apply Forall_firstn; exact HR).
  unfold multiEncapsulate. cbn [mKem mCt0 mCts mJ kRng kMsg kSecret kParams kShake]. replace (_ <? _) with false by (symmetry; apply Z.ltb_ge; lia).
  rewrite readFull_ok by lia. replace (length msg0) with (Z.to_nat (MsgLen P)) by lia. fold m. rewrite (new_key P RP r KeyVariantSidhA LR). cbn [bind].
  rewrite sub_ok by lia. rewrite Z.sub_0_r, skipn_O, firstn_all2 by lia. cbn [bind].
  destruct (scalar_ok g s0 P m sec0 RP K3 Bm K2) as (s1 & x & H1 & E1 & M1). rewrite E1, M1. cbn [bind]. fold (mkemEph P m).
  rewrite (gen_into P) by (try reflexivity; try assumption; apply mkem_long; exact RP). cbn [bind].
  destruct (pubOf_ok P RP (mkemEph P m) eq_refl (mkem_long P m RP)) as (_ & O2 & _). destruct (exported_ok P RP _ O2) as (X1 & X2 & X3). unfold MaxPublicKeySz in LC0. rewrite X3 by lia. cbn [bind].
  destruct (loop_ok g P (mkemEph P m) m RP eq_refl eq_refl (mkem_long P m RP) Bm Lm pub s1 j cts 0%nat H1 LJ HC HG ltac:(lia)) as (s2 & j2 & H2 & L2 & E2). rewrite E2. cbn [bind].
  destruct (shake_to g s2 [G3; m] ss (KemSize P) H2) as (s3 & E3 & H3).
  { constructor; [repeat constructor; unfold is_byte; lia|constructor; [exact Bm|constructor]]. } { lia. }
  rewrite E3. cbn [bind concat app G3]. rewrite app_nil_r. exists s3, j2. split; [exact H3|]. split; [exact L2|]. reflexivity.
Qed.

(* ---------- Decapsulate ---------- *)
Lemma mdec_ok : forall g r c ss prv pub ct, later r -> mkemOk c -> let k := mKem c in let P := kParams k in let c0 := firstn (Z.to_nat (PublicKeySize P)) (mCt0 c) in
  pubParams pub = P -> pubVariant pub = KeyVariantSike -> prvParams prv = P -> prvVariant prv = KeyVariantSike -> longEnough prv ->
  bytes (prvS prv) -> Z.of_nat (length (prvS prv)) = MsgLen P -> bytes (kMsg k) -> bytes ct -> Z.of_nat (length ct) = KemSize P -> KemSize P <= Z.of_nat (length ss) ->
  exists s' j', isShake s' /\ Z.of_nat (length j') = MaxSharedSecretBsz /\ multiDecapsulate g r (Some c) ss prv pub ct =
    Ret (mkMulti (mkKem (kRng k) (kMsg k) (mkemScalar P (mkemMsg P prv c0 ct)) P s') (mCt0 c) (mCts c) j', codeDecaps P (kMsg k) prv pub c0 ct ++ skipn (Z.to_nat (KemSize P)) ss, false).
Proof.
  intros g r [[rng msg0 sec0 P s0] ct0 cts j] ss prv pub ct LR ((RP & K1 & K2 & K3) & HR & HC0 & LC0 & HC & LJ). cbn [mKem mCt0 mCts mJ kRng kMsg kSecret kParams kShake] in *. cbv zeta.
  intros EP EV EP' EV' LE BS LS HM Hc LC Lss. pose proof (reg_sizes P RP) as Z. destruct Z. unfold MaxPublicKeySz, MaxSharedSecretBsz in *.
  set (c0 := firstn (Z.to_nat (PublicKeySize P)) ct0). assert (B0 : bytes c0) by (apply Forall_firstn; exact HC0). assert (L0 : Z.of_nat (length c0) = PublicKeySize P) by (unfold c0; rewrite firstn_length_le; lia).
  unfold multiDecapsulate. cbn [mKem mCt0 mCts mJ kRng kMsg kSecret kParams kShake]. rewrite EV, EV', !Z.eqb_refl. cbn [negb].
  replace (_ <? _) with false by (symmetry; apply Z.ltb_ge; lia). rewrite LC, Z.eqb_refl. cbn [negb]. rewrite (new_key P RP r KeyVariantSidhA LR). cbn [bind].
  rewrite sub_ok by lia. rewrite Z.sub_0_r, skipn_O. fold c0. cbn [bind].
  destruct (keyOf_ok P RP KeyVariantSidhA c0 B0 L0) as (I1 & I2 & I3 & _). rewrite I1. cbn [bind].
  destruct (derive_gen P RP prv (keyOf P KeyVariantSidhA c0) EP' LE ltac:(rewrite I3, EV'; discriminate) ltac:(rewrite I2; reflexivity)) as (D1 & D2 & D3).
  rewrite D3 by lia. cbn [bind]. rewrite EP'. rewrite sub_prefix by exact D2. cbn [bind].
  destruct (mask_step g s0 P (sharedOf prv (keyOf P KeyVariantSidhA c0)) (zeros MaxMsgBsz) ct RP K3 D1 Hc ltac:(lia) ltac:(rewrite zeros_length; unfold MaxMsgBsz; lia)) as (s1 & H1 & E1 & X1). rewrite E1. cbn [bind].
  rewrite sub_ok by lia. rewrite Z.sub_0_r, skipn_O, firstn_all2 by lia. cbn [bind]. rewrite X1. cbn [bind]. fold (mkemMsg P prv c0 ct). set (m := mkemMsg P prv c0 ct).
  assert (Lm : Z.of_nat (length m) = MsgLen P) by (unfold m, mkemMsg; rewrite pad_length by (apply one_byte; [lia|exact D1]); lia).
  assert (Bm : bytes m) by (apply pad_bytes; exact Hc). rewrite sub_prefix by exact Lm. cbn [bind].
  destruct (scalar_ok g s1 P m sec0 RP H1 Bm K2) as (s2 & x & H2 & E2 & M2). rewrite E2, M2. cbn [bind]. fold (mkemEph P m).
  rewrite (gen_into P) by (try reflexivity; try assumption; apply mkem_long; exact RP). cbn [bind].
  rewrite (sub_ok (zeros _)) by (rewrite ?zeros_length; unfold MaxPublicKeySz; lia). cbn [bind]. rewrite Z.sub_0_r, skipn_O.
  destruct (pubOf_ok P RP (mkemEph P m) eq_refl (mkem_long P m RP)) as (_ & O2 & _). destruct (exported_ok P RP _ O2) as (Y1 & Y2 & Y3).
  assert (LZ : length (firstn (Z.to_nat (PublicKeySize P)) (zeros (3 * 12 * 64))) = Z.to_nat (PublicKeySize P)) by (rewrite firstn_length_le; [reflexivity|rewrite zeros_length; lia]).
  unfold MaxPublicKeySz. rewrite Y3 by lia. cbn [bind]. rewrite (skipn_all2 (firstn _ (zeros _))), app_nil_r by lia. fold (mkemCt0 P m).
  destruct (derive_gen P RP (mkemEph P m) pub eq_refl (mkem_long P m RP) ltac:(rewrite EV; discriminate) ltac:(rewrite EP; reflexivity)) as (F1 & F2 & F3).
  set (j1 := sharedOf prv (keyOf P KeyVariantSidhA c0) ++ _). assert (LJ1 : Z.of_nat (length j1) = 188) by (unfold j1; rewrite app_length, skipn_length; lia).
  rewrite F3 by lia. cbn [bind]. rewrite sub_prefix by exact F2. cbn [bind].
  destruct (mask_step g s2 P (sharedOf (mkemEph P m) pub) (zeros MaxMsgBsz) msg0 RP H2 F1 HM K1 ltac:(rewrite zeros_length; unfold MaxMsgBsz; lia)) as (s3 & H3 & E3 & X3). rewrite E3. cbn [bind].
  rewrite sub_ok by lia. rewrite Z.sub_0_r, skipn_O, firstn_all2 by lia. cbn [bind]. rewrite X3. cbn [bind].
  rewrite sub_prefix by (rewrite pad_length by (apply one_byte; [lia|exact F1]); lia). cbn [bind].
  unfold codeDecaps. fold m. cbv zeta. unfold ConstantTimeCompare.
  set (b1 := list_eq_dec Z.eq_dec (mkemCt0 P m) c0). set (b2 := list_eq_dec Z.eq_dec ct (pad (2 :: sharedOf (mkemEph P m) pub) msg0)). set (m' := if b1 then if b2 then m else prvS prv else prvS prv).
  assert (EC : Cpick (Z.land (if b1 then 1 else 0) (if b2 then 1 else 0)) m m (prvS prv) = Ret m' /\ bytes m').
  { unfold m'. destruct b1, b2; cbn [Z.land]; try (split; [rewrite Cpick_0 by (try exact BS; lia); rewrite firstn_all2 by lia; reflexivity|exact BS]).
    split; [|exact Bm]. change (Z.land 1 1) with 1. apply Cpick_1; [exact Bm|lia]. }
  destruct EC as [EC BM]. rewrite EC. cbn [bind].
  destruct (shake_to g s3 [G3; m'] ss (KemSize P) H3) as (s4 & E4 & H4).
  { constructor; [repeat constructor; unfold is_byte; lia|constructor; [exact BM|constructor]]. } { lia. }
  rewrite E4. cbn [bind concat app G3]. rewrite app_nil_r. exists s4. eexists. split; [exact H4|]. split; [|reflexivity]. rewrite app_length, skipn_length. lia.
Qed.
