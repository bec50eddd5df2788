(* The SIDH functions return whatever the field values are (only lengths and strategies matter), and
   the byte-level facts about slices and keys used by P_SIDH_Api and the SIKE files. *)
From Coq Require Import ZArith List Lia Bool.
From Verif Require Import Lib MP Instr SIDH_Consts SIDH_Field SIDH_FieldProofs SIDH_Inst SIDH_Curve SIDH_Line SIDH_Traverse SIDH_Bytes P_SIDH_Field SIDH_Final SIDH_Api.
Import ListNotations.
Open Scope Z_scope.

(* ---------- totality ---------- *)
Section Tot.
  Variable V : sops.
  Lemma bind_panic : forall (A C : Type) (x : res A) (f : A -> res C), bind x f = Panic <-> x = Panic \/ exists a, x = Ret a /\ f a = Panic.
  Proof.
    intros A C [a|] f; cbn; split; intros H; auto.
    - right. exists a. auto.
    - destruct H as [H|(a' & E & H)]; [discriminate|]. injection E as <-. exact H.
  Qed.
  Lemma ladder_panic : forall a24 sc l, fold_left (ladder_step V a24 sc) l Panic = Panic.
  Proof. induction l; [reflexivity|exact IHl]. Qed.
  Lemma ladder_ret : forall a24 sc n j st, (j + n <= 8 * length sc)%nat ->
    exists st', fold_left (ladder_step V a24 sc) (seq j n) (Ret st) = Ret st'.
  Proof.
    induction n; intros j st H; cbn [seq fold_left]; [exists st; reflexivity|].
    destruct st as [[[R0 R1] R2] pb]. unfold ladder_step at 2. cbn [bind]. unfold scalarBit.
    destruct (nth_error sc (j / 8)) as [b|] eqn:E.
    2:{ apply nth_error_None in E. exfalso. assert (j / 8 < length sc)%nat by (apply Nat.div_lt_upper_bound; lia). lia. }
    cbn [bind]. destruct (cswapPt V R1 R2 _) as [a b']. destruct (xDbladd V R0 b' a a24) as [c d]. apply IHn. lia.
  Qed.
  Lemma ladder_short : forall a24 sc n j st, (j <= 8 * length sc < j + n)%nat ->
    fold_left (ladder_step V a24 sc) (seq j n) (Ret st) = Panic.
  Proof.
    induction n; intros j st H; [lia|]. cbn [seq fold_left].
    destruct st as [[[R0 R1] R2] pb]. unfold ladder_step at 2. cbn [bind]. unfold scalarBit.
    destruct (nth_error sc (j / 8)) as [b|] eqn:E.
    - assert (L : (j / 8 < length sc)%nat) by (apply nth_error_Some; congruence).
      assert (j < 8 * length sc)%nat by (pose proof (Nat.div_mod j 8 ltac:(lia)); pose proof (Nat.mod_upper_bound j 8 ltac:(lia)); lia).
      cbn [bind]. destruct (cswapPt V R1 R2 _) as [a b']. destruct (xDbladd V R0 b' a a24) as [c d]. apply IHn. lia.
    - cbn [bind]. apply ladder_panic.
  Qed.
  Lemma scalar_ret : forall c p q r n sc, n <= 8 * Z.of_nat (length sc) -> exists x, ScalarMul3Pt V c p q r n sc = Ret x.
  Proof.
    intros c p q r n sc H. unfold ScalarMul3Pt.
    destruct (ladder_ret (CalcAplus2Over4 V c) sc (Z.to_nat n) 0 (q, p, r, 0) ltac:(lia)) as ([[[a b] d] e] & E).
    rewrite E. cbn [bind]. destruct (cswapPt V b d e) as [x y]. exists x. reflexivity.
  Qed.
  Lemma scalar_short : forall c p q r n sc, 8 * Z.of_nat (length sc) < n -> ScalarMul3Pt V c p q r n sc = Panic.
  Proof. intros. unfold ScalarMul3Pt. rewrite ladder_short by lia. reflexivity. Qed.

  Section T.
    Variable PHI : Type.
    Variable pow : point V -> curve V -> Z -> point V.
    Variable genc : point V -> curve V * PHI.
    Variable evalp : PHI -> point V -> point V.
    Variable strat : list Z.
    Lemma tinner : forall fuel j cp xR points indices i sIdx indices' i' sIdx', length points = length indices ->
      chk_inner strat fuel j indices i sIdx = Some (indices', i', sIdx') ->
      exists xR' points', trav_inner V pow strat fuel j cp xR points indices i sIdx = Ret (xR', points', indices', i', sIdx') /\ length points' = length indices'.
    Proof.
      induction fuel as [|fuel IH]; intros j cp xR points indices i sIdx indices' i' sIdx' L H; [discriminate|].
      cbn [chk_inner trav_inner] in *. destruct (i <=? Z.of_nat (length strat) - j).
      - destruct (nth_error strat sIdx) as [k|]; [|discriminate]. destruct ((1 <=? k) && (k <? 2 ^ 31)); [|discriminate].
        eapply IH; [|eassumption]. cbn [length]. lia.
      - injection H as -> -> ->. exists xR, points. split; [reflexivity|exact L].
    Qed.
    Lemma tnone : forall l, fold_left (chk_step strat) l None = None.
    Proof. induction l as [|x l IHl]; [reflexivity|exact IHl]. Qed.
    Lemma tloop : forall c j cp xR points indices i sIdx ps st', length points = length indices ->
      fold_left (chk_step strat) (seq j c) (Some (indices, i, sIdx)) = Some st' ->
      exists cp' xR' points' indices' i' sIdx' ps',
        fold_left (trav_step V pow genc evalp strat) (seq j c) (Ret (cp, xR, points, indices, i, sIdx, ps)) = Ret (cp', xR', points', indices', i', sIdx', ps') /\
        length ps' = length ps.
    Proof.
      induction c as [|c IH]; intros j cp xR points indices i sIdx ps st' L H.
      - cbn [seq fold_left] in *. do 7 eexists. split; reflexivity.
      - cbn [seq fold_left] in *. unfold chk_step at 2 in H.
        destruct (chk_inner strat (length strat + 2) (Z.of_nat j) indices i sIdx) as [[[idx i'] sI]|] eqn:EC; [|rewrite tnone in H; discriminate].
        destruct idx as [|top idx]; [rewrite tnone in H; discriminate|].
        destruct (i' =? Z.of_nat (length strat) - Z.of_nat j + 1); [|rewrite tnone in H; discriminate].
        destruct (tinner _ _ cp xR points indices i sIdx _ _ _ L EC) as (xR1 & pts1 & ET & L1).
        unfold trav_step at 2. cbn [bind]. rewrite ET. cbn [bind]. destruct (genc xR1) as [cp1 phi].
        destruct pts1 as [|x pts1]; [discriminate|]. cbn [map].
        destruct (IH (S j) cp1 (evalp phi x) (map (evalp phi) pts1) idx top sI (map (evalp phi) ps) st') as (c1 & c2 & c3 & c4 & c5 & c6 & c7 & A1 & A2).
        + rewrite map_length. cbn [length] in L1. lia.
        + exact H.
        + do 7 eexists. split; [exact A1|]. rewrite A2, map_length. reflexivity.
    Qed.
    Lemma traverse_ret : forall cp xR ps, strat_ok strat = true ->
      exists xR' ps', traverse V pow genc evalp strat cp xR ps = Ret (xR', ps') /\ length ps' = length ps.
    Proof.
      intros cp xR ps H. unfold strat_ok in H.
      destruct (fold_left (chk_step strat) (seq 1 (length strat)) (Some ([], 0, 0%nat))) as [st|] eqn:E; [|discriminate].
      destruct (tloop (length strat) 1 cp xR [] [] 0 0%nat ps st eq_refl E) as (c1 & c2 & c3 & c4 & c5 & c6 & c7 & A1 & A2).
      exists c2, c7. split; [|exact A2]. unfold traverse. rewrite A1. reflexivity.
    Qed.
  End T.
  Variables DA DB : dom (car (so V)).
  Hypothesis SA : strat_ok (dStrat DA) = true.
  Hypothesis SB : strat_ok (dStrat DB) = true.
  Lemma genA_ret : forall prv, dBits DA <= 8 * Z.of_nat (length prv) -> exists a b c, PublicKeyGenA V DA DB prv = Ret [a; b; c].
  Proof.
    intros prv H. unfold PublicKeyGenA.
    destruct (scalar_ret (InitCurve V) (affPt V (dP DA)) (affPt V (dQ DA)) (affPt V (dR DA)) _ prv H) as (x & E). rewrite E. cbn [bind].
    unfold traverseTreePublicKeyA.
    destruct (traverse_ret _ (pow4 V) (GenerateCurve4 V) (EvaluatePoint4 V) _ (CalcCurveParamsEquiv4 V (InitCurve V)) x
      [affPt V (dP DB); affPt V (dQ DB); affPt V (dR DB)] SA) as (xR & ps & E1 & L). rewrite E1. cbn [bind].
    destruct ps as [|p0 [|p1 [|p2 [|]]]]; try discriminate. destruct (GenerateCurve4 V xR) as [cc ph]. unfold pub3.
    destruct (Fp2Batch3Inv V _ _ _) as [[i1 i2] i3]. do 3 eexists. reflexivity.
  Qed.
  Lemma genB_ret : forall prv, dBits DB <= 8 * Z.of_nat (length prv) -> exists a b c, PublicKeyGenB V DA DB prv = Ret [a; b; c].
  Proof.
    intros prv H. unfold PublicKeyGenB.
    destruct (scalar_ret (InitCurve V) (affPt V (dP DB)) (affPt V (dQ DB)) (affPt V (dR DB)) _ prv H) as (x & E). rewrite E. cbn [bind].
    unfold traverseTreePublicKeyB.
    destruct (traverse_ret _ (Pow3k V) (GenerateCurve3 V) (EvaluatePoint3 V) _ (CalcCurveParamsEquiv3 V (InitCurve V)) x
      [affPt V (dP DA); affPt V (dQ DA); affPt V (dR DA)] SB) as (xR & ps & E1 & L). rewrite E1. cbn [bind].
    destruct ps as [|p0 [|p1 [|p2 [|]]]]; try discriminate. destruct (GenerateCurve3 V xR) as [cc ph]. unfold pub3.
    destruct (Fp2Batch3Inv V _ _ _) as [[i1 i2] i3]. do 3 eexists. reflexivity.
  Qed.
  Lemma derA_ret : forall prv x, dBits DA <= 8 * Z.of_nat (length prv) -> exists j, DeriveJA V DA prv x = Ret j.
  Proof.
    intros prv [[x0 x1] x2] H. unfold DeriveJA. set (c := RecoverCoordinateA V _ _ _ _).
    destruct (scalar_ret c (affPt V x0) (affPt V x1) (affPt V x2) _ prv H) as (x & E). rewrite E. cbn [bind]. unfold traverseTreeSharedKeyA.
    destruct (traverse_ret _ (pow4 V) (GenerateCurve4 V) (EvaluatePoint4 V) _ (CalcCurveParamsEquiv4 V c) x [] SA) as (xR & ps & E1 & L).
    rewrite E1. cbn [bind]. destruct (GenerateCurve4 V xR) as [cc ph]. eexists. reflexivity.
  Qed.
  Lemma derB_ret : forall prv x, dBits DB <= 8 * Z.of_nat (length prv) -> exists j, DeriveJB V DB prv x = Ret j.
  Proof.
    intros prv [[x0 x1] x2] H. unfold DeriveJB. set (c := RecoverCoordinateA V _ _ _ _).
    destruct (scalar_ret c (affPt V x0) (affPt V x1) (affPt V x2) _ prv H) as (x & E). rewrite E. cbn [bind]. unfold traverseTreeSharedKeyB.
    destruct (traverse_ret _ (Pow3k V) (GenerateCurve3 V) (EvaluatePoint3 V) _ (CalcCurveParamsEquiv3 V c) x [] SB) as (xR & ps & E1 & L).
    rewrite E1. cbn [bind]. destruct (GenerateCurve3 V xR) as [cc ph]. eexists. reflexivity.
  Qed.
  Lemma genA_short : forall prv, 8 * Z.of_nat (length prv) < dBits DA -> PublicKeyGenA V DA DB prv = Panic.
  Proof. intros. unfold PublicKeyGenA. rewrite scalar_short by assumption. reflexivity. Qed.
  Lemma genB_short : forall prv, 8 * Z.of_nat (length prv) < dBits DB -> PublicKeyGenB V DA DB prv = Panic.
  Proof. intros. unfold PublicKeyGenB. rewrite scalar_short by assumption. reflexivity. Qed.
  Lemma derA_short : forall prv x, 8 * Z.of_nat (length prv) < dBits DA -> DeriveJA V DA prv x = Panic.
  Proof. intros prv [[x0 x1] x2] H. unfold DeriveJA. rewrite scalar_short by assumption. reflexivity. Qed.
  Lemma derB_short : forall prv x, 8 * Z.of_nat (length prv) < dBits DB -> DeriveJB V DB prv x = Panic.
  Proof. intros prv [[x0 x1] x2] H. unfold DeriveJB. rewrite scalar_short by assumption. reflexivity. Qed.
End Tot.

(* ---------- the three parameter sets ---------- *)
Definition registered (P : sidhParams) : Prop := P = params434 \/ P = params503 \/ P = params751.
Definition primeOf (P : sidhParams) : Z := if pID P =? Fp434 then p434 else if pID P =? Fp503 then p503 else p751.
Record sizes (P : sidhParams) : Prop := {
  z_bl : 0 < Bytelen P;
  z_fit : Bytelen P <= 8 * Z.of_nat (FpWords (pField P));
  z_ss : SharedSecretSize P = 2 * Bytelen P;
  z_pk : PublicKeySize P = 3 * SharedSecretSize P;
  z_ct : CiphertextSize P = PublicKeySize P + MsgLen P;
  z_kem : KemSize P = MsgLen P;
  z_msg : 0 < MsgLen P <= 40;
  z_ssm : SharedSecretSize P <= 188;
  z_A : 0 < SecretByteLen (pA P) <= 48 /\ 0 < SecretBitLen (pA P) <= 8 * SecretByteLen (pA P);
  z_B : 0 < SecretByteLen (pB P) <= 48 /\ 0 < SecretBitLen (pB P) <= 8 * SecretByteLen (pB P);
  z_p : primeOf P < 256 ^ Bytelen P
}.
Lemma reg_sizes : forall P, registered P -> sizes P.
Proof. intros P [->|[->| ->]]; constructor; vm_compute; intuition congruence. Qed.
Lemma reg_pkg : forall P, registered P -> pkg (pID P) = Ret P.
Proof. intros P [->|[->| ->]]; reflexivity. Qed.
Lemma reg_set : forall P, registered P -> sidh_set P (primeOf P).
Proof. intros P [->|[->| ->]]; [left|right; left|right; right]; split; reflexivity. Qed.
Lemma reg_field : forall P, registered P -> sidh_field (pField P) (primeOf P).
Proof. intros P [->|[->| ->]]; [exact (or_introl (conj eq_refl eq_refl))|right; left; split; reflexivity|right; right; split; reflexivity]. Qed.
Lemma reg_strat : forall P, registered P -> strat_ok (IsogenyStrategy (pA P)) = true /\ strat_ok (IsogenyStrategy (pB P)) = true.
Proof. intros P [->|[->| ->]]; split; vm_compute; reflexivity. Qed.
Lemma reg_id : forall P Q, registered P -> registered Q -> pID P = pID Q -> P = Q.
Proof. intros P Q [->|[->| ->]] [->|[->| ->]] H; (reflexivity || discriminate H). Qed.

(* ---------- slices ---------- *)
Lemma sub_ok : forall l lo hi, 0 <= lo <= hi -> hi <= Z.of_nat (length l) -> sub l lo hi = Ret (firstn (Z.to_nat (hi - lo)) (skipn (Z.to_nat lo) l)).
Proof.
  intros. unfold sub. replace (0 <=? lo) with true by (symmetry; apply Z.leb_le; lia).
  replace (lo <=? hi) with true by (symmetry; apply Z.leb_le; lia). replace (hi <=? _) with true by (symmetry; apply Z.leb_le; lia). reflexivity.
Qed.
Lemma sub_bad : forall l lo hi, Z.of_nat (length l) < hi -> sub l lo hi = Panic.
Proof. intros. unfold sub. replace (hi <=? _) with false by (symmetry; apply Z.leb_gt; lia). rewrite andb_false_r. reflexivity. Qed.
Lemma gocopy_length : forall d s, length (gocopy d s) = length d.
Proof. intros. unfold gocopy. rewrite app_length, firstn_length, skipn_length. lia. Qed.
Lemma gocopy_full : forall d s, length d = length s -> gocopy d s = s.
Proof. intros d s H. unfold gocopy. rewrite H, firstn_all, <- H, skipn_all, app_nil_r. reflexivity. Qed.

(* ---------- codecs of points ---------- *)
Definition fullenc (bl : nat) (x : Z * Z) : list Z := le_enc bl (fst x) ++ le_enc bl (snd x).
(* the content of an exported public key with coordinates c0, c1, c2 *)
Definition enc3 (bl : nat) (c : (Z * Z) * (Z * Z) * (Z * Z)) : list Z := let '(c0, c1, c2) := c in fullenc bl c0 ++ fullenc bl c1 ++ fullenc bl c2.
Lemma fullenc_length : forall bl x, length (fullenc bl x) = (2 * bl)%nat.
Proof. intros. unfold fullenc. rewrite app_length, !le_enc_length. lia. Qed.
Lemma enc3_length : forall bl c, length (enc3 bl c) = (6 * bl)%nat.
Proof. intros bl [[c0 c1] c2]. unfold enc3. rewrite !app_length, !fullenc_length. lia. Qed.
Lemma Fp2ToBytes_ret : forall out x bl, 0 <= bl -> 2 * bl <= Z.of_nat (length out) ->
  Fp2ToBytes out x bl = Ret (fpToBytes (fst x) bl ++ fpToBytes (snd x) bl ++ skipn (Z.to_nat (2 * bl)) out).
Proof. intros. unfold Fp2ToBytes. replace (_ <? _) with false by (symmetry; apply Z.ltb_ge; lia). reflexivity. Qed.
Lemma fpToBytes_length : forall a bl, length (fpToBytes a bl) = Z.to_nat bl.
Proof. intros. unfold fpToBytes. rewrite map_length, seq_length. reflexivity. Qed.
Lemma fpToBytes_bytes : forall a bl, bytes (fpToBytes a bl).
Proof. intros. unfold fpToBytes. apply Forall_forall. intros x H. apply in_map_iff in H. destruct H as (i & <- & _). unfold fpByte. apply Z.mod_pos_bound. lia. Qed.

(* ---------- Import / Export of public keys ---------- *)
Notation coords := ((Z * Z) * (Z * Z) * (Z * Z))%type.
(* the six integers of an encoded key *)
Definition coordAt (bl : nat) (b : list Z) (i : nat) : Z := le_dec (slice b (i * bl) bl).
Definition dec3 (bl : nat) (b : list Z) : coords :=
  ((coordAt bl b 0, coordAt bl b 1), (coordAt bl b 2, coordAt bl b 3), (coordAt bl b 4, coordAt bl b 5)).
Definition lift3 (f : Z -> Z) (c : coords) : coords := map3 (fun x => (f (fst x), f (snd x))) c.
(* all six satisfy Q *)
Definition all6 (Q : Z -> Prop) (c : coords) : Prop := let '(c0, c1, c2) := c in (Q (fst c0) /\ Q (snd c0)) /\ (Q (fst c1) /\ Q (snd c1)) /\ (Q (fst c2) /\ Q (snd c2)).
Definition hold3 (P : sidhParams) (x : pts) (c : coords) : Prop :=
  let '(x0, x1, x2) := x in let '(c0, c1, c2) := c in
  let h x c := holds2 (pField P) (primeOf P) x (fst c) (snd c) in h x0 c0 /\ h x1 c1 /\ h x2 c2.
(* the points are vectors of FpWords words *)
Definition raw2 (F : fieldParams) (x : fp2) : Prop := words (fst x) /\ length (fst x) = FpWords F /\ words (snd x) /\ length (snd x) = FpWords F.
Definition raw3 (F : fieldParams) (x : pts) : Prop := let '(x0, x1, x2) := x in raw2 F x0 /\ raw2 F x1 /\ raw2 F x2.
Definition vals3 (x : pts) : coords := map3 (fun y : fp2 => (val (fst y), val (snd y))) x.
Definition lor2 (a b : Z * Z) : Z * Z := (Z.lor (fst a) (fst b), Z.lor (snd a) (snd b)).
Definition lor3 (a b : coords) : coords := let '(a0, a1, a2) := a in let '(b0, b1, b2) := b in (lor2 a0 b0, lor2 a1 b1, lor2 a2 b2).

Lemma chunk_sub : forall b bl (i j k : nat), (j * bl + bl <= k * bl)%nat -> firstn bl (skipn (j * bl) (firstn (k * bl) (skipn (i * bl) b))) = slice b ((i + j) * bl) bl.
Proof.
  intros b bl i j k H. unfold slice. rewrite skipn_firstn_comm, firstn_firstn, skipn_skipn', Nat.min_l by lia.
  f_equal. f_equal. lia.
Qed.
Lemma import2 : forall P x b (i : nat), registered P -> raw2 (pField P) x -> bytes b -> Z.of_nat (length b) = PublicKeySize P -> (i < 3)%nat ->
  exists s y, sub b (Z.of_nat i * SharedSecretSize P) (Z.of_nat (S i) * SharedSecretSize P) = Ret s /\ BytesToFp2 x s (Bytelen P) = Ret y /\ raw2 (pField P) y /\
    (val (fst y), val (snd y)) = lor2 (val (fst x), val (snd x)) (coordAt (Z.to_nat (Bytelen P)) b (2 * i), coordAt (Z.to_nat (Bytelen P)) b (2 * i + 1)).
Proof.
  intros P x b i RP (X1 & X2 & X3 & X4) Hb HL Hi. pose proof (reg_sizes P RP) as Z. destruct Z as [B1 B2 B3 B4 _ _ _ _ _ _ _].
  rewrite B3 in *. rewrite B4 in HL. set (bl := Z.to_nat (Bytelen P)).
  rewrite sub_ok by nia. eexists. 
  replace (Z.to_nat (Z.of_nat (S i) * (2 * Bytelen P) - Z.of_nat i * (2 * Bytelen P))) with (2 * bl)%nat by nia.
  replace (Z.to_nat (Z.of_nat i * (2 * Bytelen P))) with ((2 * i) * bl)%nat by nia.
  set (s := firstn (2 * bl) (skipn ((2 * i) * bl) b)).
  assert (LS : length s = (2 * bl)%nat) by (unfold s; rewrite firstn_length, skipn_length; unfold bl in *; nia).
  destruct (BytesToFp2_ok x s (Bytelen P)) as (y & E & Y1 & Y2 & Y3 & Y4 & Y5 & Y6); try assumption; try lia.
  - unfold s. apply Forall_firstn, Forall_skipn, Hb.
  - exists y. split; [reflexivity|]. split; [exact E|]. split; [unfold raw2; repeat split; congruence|].
    rewrite Y3, Y6. unfold lor2, coordAt. cbn [fst snd]. fold bl. f_equal; f_equal; f_equal.
    + pose proof (chunk_sub b bl (2 * i) 0 2 ltac:(lia)) as C. rewrite Nat.add_0_r in C. rewrite <- C. reflexivity.
    + pose proof (chunk_sub b bl (2 * i) 1 2 ltac:(lia)) as C. rewrite Nat.mul_1_l in C. rewrite <- C. reflexivity.
Qed.
Lemma import_gen : forall k b, registered (pubParams k) -> raw3 (pField (pubParams k)) (affine3Pt k) -> bytes b -> Z.of_nat (length b) = pubSize k ->
  exists k', pubImport k b = Ret (k', false) /\ pubParams k' = pubParams k /\ pubVariant k' = pubVariant k /\
    hold3 (pubParams k) (affine3Pt k') (lor3 (vals3 (affine3Pt k)) (dec3 (Z.to_nat (Bytelen (pubParams k))) b)).
Proof.
  intros [P v [[x0 x1] x2]] b RP (R0 & R1 & R2) Hb HL. cbn [pubParams affine3Pt pubVariant] in *. unfold pubSize in HL. cbn [pubParams] in HL.
  unfold pubImport, pubSize. cbn [pubParams affine3Pt pubVariant]. rewrite HL, Z.eqb_refl. cbn [negb].
  destruct (import2 P x0 b 0 RP R0 Hb HL ltac:(lia)) as (s0 & y0 & S0 & E0 & T0 & V0).
  destruct (import2 P x1 b 1 RP R1 Hb HL ltac:(lia)) as (s1 & y1 & S1 & E1 & T1 & V1).
  destruct (import2 P x2 b 2 RP R2 Hb HL ltac:(lia)) as (s2 & y2 & S2 & E2 & T2 & V2).
  rewrite Z.mul_0_l, Z.mul_1_l in S0. rewrite Z.mul_1_l in S1. change (Z.of_nat 2) with 2 in *. change (Z.of_nat 3) with 3 in *.
  rewrite S0. cbn [bind]. rewrite E0. cbn [bind]. rewrite S1. cbn [bind]. rewrite E1. cbn [bind]. rewrite S2. cbn [bind]. rewrite E2. cbn [bind].
  rewrite (reg_pkg P RP). cbn [bind]. eexists. split; [reflexivity|]. cbn [pubParams affine3Pt pubVariant]. split; [reflexivity|]. split; [reflexivity|].
  unfold vals3, dec3, lor3, map3, hold3. cbn [Nat.mul Nat.add] in V0, V1, V2. rewrite <- V0, <- V1, <- V2. cbn [fst snd].
  pose proof (reg_field P RP) as SF. 
  assert (G : forall y, raw2 (pField P) y -> holds2 (pField P) (primeOf P) (ToMontgomery (pField P) y) (val (fst y)) (val (snd y))).
  { intros y (Y1 & Y2 & Y3 & Y4). exact (C41_to_montgomery _ _ SF y Y1 Y2 Y3 Y4). }
  exact (conj (G y0 T0) (conj (G y1 T1) (G y2 T2))).
Qed.
Lemma into_enc : forall out P f (i : nat) pre, registered P -> (i < 3)%nat -> length pre = (2 * i * Z.to_nat (Bytelen P))%nat -> PublicKeySize P <= Z.of_nat (length out) ->
  into (pre ++ skipn (length pre) out) (Z.of_nat i * SharedSecretSize P) (Z.of_nat (S i) * SharedSecretSize P) (fun s => Fp2ToBytes s f (Bytelen P)) =
  Ret ((pre ++ fpToBytes (fst f) (Bytelen P) ++ fpToBytes (snd f) (Bytelen P)) ++
       skipn (length (pre ++ fpToBytes (fst f) (Bytelen P) ++ fpToBytes (snd f) (Bytelen P))) out).
Proof.
  intros out P f i pre RP Hi LP LO. pose proof (reg_sizes P RP) as Z. destruct Z as [B1 B2 B3 B4 _ _ _ _ _ _ _]. rewrite B3 in *. rewrite B4 in LO.
  set (bl := Z.to_nat (Bytelen P)) in *. assert (LT : length (pre ++ skipn (length pre) out) = length out) by (rewrite app_length, skipn_length; nia).
  unfold into. rewrite sub_ok by (rewrite ?LT; nia). cbn [bind].
  replace (Z.to_nat (Z.of_nat (S i) * (2 * Bytelen P) - Z.of_nat i * (2 * Bytelen P))) with (2 * bl)%nat by nia.
  replace (Z.to_nat (Z.of_nat i * (2 * Bytelen P))) with (length pre) by nia.
  rewrite skipn_app, skipn_all, Nat.sub_diag, app_nil_l, skipn_O.
  rewrite Fp2ToBytes_ret by (try lia; rewrite firstn_length, skipn_length; nia). cbn [bind].
  rewrite firstn_app, firstn_all, Nat.sub_diag, firstn_O, app_nil_r. f_equal.
  rewrite (skipn_all2 (n := Z.to_nat (2 * Bytelen P))) by (rewrite firstn_length; nia).
  rewrite skipn_app, (skipn_all2 pre) by nia. rewrite app_nil_r, app_nil_l, skipn_skipn'.
  rewrite <- !app_assoc. do 4 f_equal. rewrite !app_length, !fpToBytes_length. nia.
Qed.
Lemma export_gen : forall k out, registered (pubParams k) -> PublicKeySize (pubParams k) <= Z.of_nat (length out) ->
  let bl := Bytelen (pubParams k) in let e f := fpToBytes (fst f) bl ++ fpToBytes (snd f) bl in
  let '(f0, f1, f2) := map3 (FromMontgomery (pField (pubParams k))) (affine3Pt k) in
  pubExport k out = Ret (e f0 ++ e f1 ++ e f2 ++ skipn (Z.to_nat (PublicKeySize (pubParams k))) out).
Proof.
  intros [P v [[x0 x1] x2]] out RP LO. cbn [pubParams affine3Pt map3] in *.
  unfold pubExport. cbn [pubParams affine3Pt]. rewrite (reg_pkg P RP). cbn [bind map3].
  pose proof (into_enc out P (FromMontgomery (pField P) x0) 0 [] RP ltac:(lia) eq_refl LO) as E0. cbn [app length skipn] in E0.
  change (Z.of_nat 0) with 0 in E0. change (Z.of_nat 1) with 1 in E0. rewrite Z.mul_0_l, Z.mul_1_l in E0. rewrite E0. cbn [bind].
  set (p0 := fpToBytes (fst (FromMontgomery (pField P) x0)) (Bytelen P) ++ fpToBytes (snd (FromMontgomery (pField P) x0)) (Bytelen P)).
  pose proof (into_enc out P (FromMontgomery (pField P) x1) 1 p0 RP ltac:(lia) ltac:(unfold p0; rewrite app_length, !fpToBytes_length; lia) LO) as E1.
  change (Z.of_nat 2) with 2 in E1. change (Z.of_nat 1) with 1 in E1. rewrite Z.mul_1_l in E1. rewrite E1. cbn [bind].
  match type of E1 with _ = Ret (?l ++ _) => set (p1 := l) in * end.
  pose proof (into_enc out P (FromMontgomery (pField P) x2) 2 p1 RP ltac:(lia) ltac:(unfold p1, p0; rewrite !app_length, !fpToBytes_length; lia) LO) as E2.
  change (Z.of_nat 2) with 2 in E2. change (Z.of_nat 3) with 3 in E2. rewrite E2. f_equal.
  unfold p1, p0. rewrite <- !app_assoc. do 7 f_equal.
  rewrite !app_length, !fpToBytes_length. pose proof (reg_sizes P RP) as Z. destruct Z. lia.
Qed.
Lemma export_short : forall k out, registered (pubParams k) -> Z.of_nat (length out) < PublicKeySize (pubParams k) -> pubExport k out = Panic.
Proof.
  intros [P v [[x0 x1] x2]] out RP LO. cbn [pubParams affine3Pt] in *. unfold pubExport. cbn [pubParams affine3Pt]. rewrite (reg_pkg P RP). cbn [bind map3].
  pose proof (reg_sizes P RP) as Z. destruct Z as [B1 B2 B3 B4 _ _ _ _ _ _ _]. rewrite B4, B3 in LO. rewrite B3.
  assert (K : forall out' lo hi f r, into out' lo hi (fun s => Fp2ToBytes s f (Bytelen P)) = Ret r -> 0 <= lo -> hi - lo = 2 * Bytelen P -> length r = length out').
  { intros out' lo hi f r H H1 H2. unfold into in H. destruct (Z_lt_le_dec (Z.of_nat (length out')) hi).
    - rewrite sub_bad in H by assumption. discriminate.
    - rewrite sub_ok in H by lia. cbn [bind] in H. unfold Fp2ToBytes in H. destruct (_ <? _); [discriminate|]. cbn [bind] in H. apply (f_equal (fun x => match x with Ret l => length l | Panic => O end)) in H.
      rewrite <- H. repeat rewrite ?app_length, ?firstn_length, ?skipn_length, ?fpToBytes_length. nia. }
  destruct (into out 0 (2 * Bytelen P) _) as [o1|] eqn:E1; [|reflexivity]. cbn [bind]. apply K in E1; try lia.
  destruct (into o1 (2 * Bytelen P) _ _) as [o2|] eqn:E2; [|reflexivity]. cbn [bind]. apply K in E2; try lia.
  unfold into. rewrite sub_bad; [reflexivity|]. lia.
Qed.
Lemma export_val : forall k c out, registered (pubParams k) -> hold3 (pubParams k) (affine3Pt k) c -> PublicKeySize (pubParams k) <= Z.of_nat (length out) ->
  pubExport k out = Ret (enc3 (Z.to_nat (Bytelen (pubParams k))) (lift3 (fun x => x mod primeOf (pubParams k)) c) ++ skipn (Z.to_nat (PublicKeySize (pubParams k))) out).
Proof.
  intros k c out RP H LO. pose proof (export_gen k out RP LO) as E. cbn zeta in E. destruct k as [P v [[x0 x1] x2]], c as [[c0 c1] c2].
  cbn [pubParams affine3Pt map3] in *. rewrite E. clear E. f_equal. unfold lift3, map3, enc3, fullenc. cbn [fst snd].
  destruct H as (H0 & H1 & H2). pose proof (reg_sizes P RP) as Z. destruct Z as [B1 B2 B3 B4 _ _ _ _ _ _ _].
  pose proof (reg_field P RP) as SF.
  destruct (C41_from_montgomery _ _ SF _ _ _ H0) as ((A1 & A2 & _) & A3 & (A4 & A5 & _) & A6).
  destruct (C41_from_montgomery _ _ SF _ _ _ H1) as ((A11 & A12 & _) & A13 & (A14 & A15 & _) & A16).
  destruct (C41_from_montgomery _ _ SF _ _ _ H2) as ((A21 & A22 & _) & A23 & (A24 & A25 & _) & A26).
  rewrite !fpToBytes_ok by (assumption || lia). rewrite A3, A6, A13, A16, A23, A26. rewrite <- !app_assoc. reflexivity.
Qed.

(* ---------- encoding and decoding ---------- *)
Lemma val_zero : forall n, val (repeat 0 n) = 0.
Proof. induction n; [reflexivity|]. cbn [repeat]. rewrite val_cons, IHn. lia. Qed.
Lemma slice_blocks : forall bl l i rest, (i < length l)%nat -> slice (concat (map (le_enc bl) l) ++ rest) (i * bl) bl = le_enc bl (nth i l 0).
Proof.
  intros bl. induction l as [|x l IH]; intros i rest H; [cbn in H; lia|]. cbn [map concat]. rewrite <- app_assoc. destruct i.
  - unfold slice. cbn [Nat.mul skipn nth]. rewrite firstn_app, le_enc_length, Nat.sub_diag, firstn_O, app_nil_r. apply firstn_all2. rewrite le_enc_length. lia.
  - cbn [nth]. rewrite <- (IH i rest) by (cbn [length] in H; lia). unfold slice. f_equal. rewrite skipn_app, skipn_all2 by (rewrite le_enc_length; lia).
    rewrite le_enc_length. cbn [app]. f_equal. lia.
Qed.
Lemma enc3_blocks : forall bl a0 a1 a2 a3 a4 a5, enc3 bl ((a0, a1), (a2, a3), (a4, a5)) = concat (map (le_enc bl) [a0; a1; a2; a3; a4; a5]).
Proof. intros. unfold enc3, fullenc. cbn [map concat fst snd]. rewrite <- !app_assoc, app_nil_r. reflexivity. Qed.
Lemma dec3_enc3 : forall bl c rest, all6 (fun x => 0 <= x < 256 ^ Z.of_nat bl) c -> dec3 bl (enc3 bl c ++ rest) = c.
Proof.
  intros bl [[[a0 a1] [a2 a3]] [a4 a5]] rest ((H0 & H1) & (H2 & H3) & (H4 & H5)). cbn [fst snd] in *.
  rewrite enc3_blocks. unfold dec3, coordAt. rewrite !slice_blocks by (cbn [length]; lia). cbn [nth].
  rewrite !le_dec_enc, !Z.mod_small by assumption. reflexivity.
Qed.
Lemma coordAt_range : forall bl b i, bytes b -> 0 <= coordAt bl b i < 256 ^ Z.of_nat bl.
Proof.
  intros bl b i H. unfold coordAt. pose proof (le_dec_bound _ (bytes_slice b (i * bl) bl H)) as [H1 H2]. split; [exact H1|].
  eapply Z.lt_le_trans; [exact H2|]. apply Z.pow_le_mono_r; [lia|]. unfold slice. rewrite firstn_length. lia.
Qed.
Lemma split_at : forall b i n, (i + n <= length b)%nat -> skipn i b = slice b i n ++ skipn (i + n) b.
Proof. intros. unfold slice. rewrite <- skipn_skipn'. symmetry. apply firstn_skipn. Qed.
Lemma enc_coord : forall bl b i, bytes b -> (i * bl + bl <= length b)%nat -> le_enc bl (coordAt bl b i) = slice b (i * bl) bl.
Proof. intros. unfold coordAt. rewrite <- (slice_length b (i * bl) bl) at 1 by lia. apply le_enc_dec. apply bytes_slice. assumption. Qed.
Lemma enc3_dec3 : forall bl b, bytes b -> length b = (6 * bl)%nat -> enc3 bl (dec3 bl b) = b.
Proof.
  intros bl b Hb L. unfold enc3, dec3, fullenc. cbn [fst snd]. rewrite !enc_coord by (assumption || nia).
  rewrite <- !app_assoc.
  assert (E : b = slice b (0 * bl) bl ++ slice b (1 * bl) bl ++ slice b (2 * bl) bl ++ slice b (3 * bl) bl ++ slice b (4 * bl) bl ++ slice b (5 * bl) bl ++ []).
  { rewrite <- (skipn_all b), L. replace (6 * bl)%nat with (5 * bl + bl)%nat by lia. rewrite <- split_at by lia.
    replace (5 * bl)%nat with (4 * bl + bl)%nat at 1 by lia. rewrite <- split_at by lia.
    replace (4 * bl)%nat with (3 * bl + bl)%nat at 1 by lia. rewrite <- split_at by lia.
    replace (3 * bl)%nat with (2 * bl + bl)%nat at 1 by lia. rewrite <- split_at by lia.
    replace (2 * bl)%nat with (1 * bl + bl)%nat at 1 by lia. rewrite <- split_at by lia.
    replace (1 * bl)%nat with (0 * bl + bl)%nat at 1 by lia. rewrite <- split_at by lia. reflexivity. }
  rewrite app_nil_r in E. symmetry. exact E.
Qed.
