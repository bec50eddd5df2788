(* C42-C44, C48, C49, C65: the key objects of dh/sidh/sidh.go and the parameter registry. *)
From Coq Require Import ZArith List Lia Bool.
From Verif Require Import Lib MP Instr SIDH_Consts SIDH_Field SIDH_FieldProofs SIDH_Inst SIDH_Curve SIDH_Line SIDH_Traverse SIDH_Bytes P_SIDH_Field SIDH_Final SIDH_Api SIDH_ApiProofs.
Import ListNotations.
Open Scope Z_scope.

(* ---------- C49: the registry ---------- *)
(* a registry reached from the empty one by successful registrations, newest first *)
Inductive history : list (Z * sidhParams) -> registry -> Prop :=
| h_nil : history [] []
| h_add : forall h r id p r', history h r -> Register r id p = Ret r' -> history ((id, p) :: h) r'.
Lemma history_same : forall h r, history h r -> r = h.
Proof.
  induction 1 as [|h r id p r' H IH E]; [reflexivity|]. subst. unfold Register in E. destruct (lookup h id); [discriminate|]. injection E as <-. reflexivity.
Qed.
Lemma lookup_in : forall h id p, lookup h id = Some p -> In (id, p) h.
Proof. induction h as [|[i q] h IH]; intros id p H; [discriminate|]. cbn in H. destruct (Z.eqb_spec i id); [injection H as <-; left; congruence|right; auto]. Qed.
Lemma lookup_none : forall h id, lookup h id = None <-> ~ exists p, In (id, p) h.
Proof.
  intros h id. split.
  - induction h as [|[i q] h IH]; intros H (p & HI); [exact HI|]. cbn in H. destruct (Z.eqb_spec i id); [discriminate|].
    destruct HI as [E|HI]; [congruence|]. apply IH; [exact H|exists p; exact HI].
  - intros H. destruct (lookup h id) as [p|] eqn:E; [|reflexivity]. exfalso. apply H. exists p. apply lookup_in. exact E.
Qed.
Lemma history_nodup : forall h r, history h r -> NoDup (map fst h).
Proof.
  induction 1 as [|h r id p r' H IH E]; [constructor|]. cbn [map fst]. constructor; [|exact IH].
  apply history_same in H. subst. unfold Register in E. destruct (lookup h id) eqn:EL; [discriminate|]. apply lookup_none in EL.
  intros HI. apply EL. apply in_map_iff in HI. destruct HI as ((i & q) & <- & HI). exists q. exact HI.
Qed.
Lemma in_lookup : forall h id p, NoDup (map fst h) -> In (id, p) h -> lookup h id = Some p.
Proof.
  induction h as [|[i q] h IH]; intros id p ND HI; [destruct HI|]. inversion ND; subst. cbn. destruct HI as [E|HI].
  - injection E as -> ->. rewrite Z.eqb_refl. reflexivity.
  - destruct (Z.eqb_spec i id) as [->|]; [|apply IH; assumption]. exfalso. apply H1. change id with (fst (id, p)). apply in_map. exact HI.
Qed.
(* after any history of registrations, Params answers exactly what was registered *)
Theorem C49_params : forall h r, history h r -> forall id p, Params r id = Ret p <-> In (id, p) h.
Proof.
  intros h r H id p. pose proof (history_nodup h r H) as ND. apply history_same in H. subst. unfold Params.
  split.
  - destruct (lookup h id) eqn:E; [|discriminate]. intros X. injection X as <-. apply lookup_in. exact E.
  - intros HI. rewrite (in_lookup h id p ND HI). reflexivity.
Qed.
Print Assumptions C49_params.
Theorem C49_params_panics : forall h r, history h r -> forall id, Params r id = Panic <-> ~ exists p, In (id, p) h.
Proof. intros h r H id. apply history_same in H. subst. rewrite <- lookup_none. unfold Params. destruct (lookup h id); split; intros; congruence. Qed.
Print Assumptions C49_params_panics.
Theorem C49_register : forall h r, history h r -> forall id p, Register r id p = Panic <-> exists q, In (id, q) h.
Proof.
  intros h r H id p. apply history_same in H. subst. unfold Register. destruct (lookup h id) eqn:E.
  - split; [|reflexivity]. intros _. eexists. apply lookup_in. exact E.
  - split; [discriminate|]. intros X. apply lookup_none in E. contradiction.
Qed.
Print Assumptions C49_register.
Theorem C49_write_once : forall r r' id p id' q, Register r id p = Ret r' -> Params r id' = Ret q -> Params r' id' = Ret q /\ Params r' id = Ret p.
Proof.
  intros r r' id p id' q E H. unfold Register in E. destruct (lookup r id) eqn:EL; [discriminate|]. injection E as <-. unfold Params in *. cbn.
  rewrite Z.eqb_refl. split; [|reflexivity]. destruct (Z.eqb_spec id id') as [->|]; [rewrite EL in H; discriminate|exact H].
Qed.
Print Assumptions C49_write_once.
(* the registry as the three packages leave it, and any later one *)
Inductive later : registry -> Prop :=
| l_init : forall r, initRegistry = Ret r -> later r
| l_add : forall r id p r', later r -> Register r id p = Ret r' -> later r'.
Theorem C49_builtin : forall r, later r -> Params r Fp434 = Ret params434 /\ Params r Fp503 = Ret params503 /\ Params r Fp751 = Ret params751.
Proof.
  induction 1 as [r E|r id p r' H (I1 & I2 & I3) E].
  - unfold initRegistry in E. cbn [Register lookup bind Z.eqb Fp434 Fp503 Fp751] in E. injection E as <-. split; [reflexivity|split; reflexivity].
  - split; [exact (proj1 (C49_write_once _ _ _ _ _ _ E I1))|split; [exact (proj1 (C49_write_once _ _ _ _ _ _ E I2))|exact (proj1 (C49_write_once _ _ _ _ _ _ E I3))]].
Qed.
Print Assumptions C49_builtin.
Example ex_C49 : exists r r', initRegistry = Ret r /\ Register r 7 params503 = Ret r' /\ later r' /\ Params r' 7 = Ret params503 /\ Register r' 7 params434 = Panic /\ Params r 7 = Panic /\ Register r Fp434 params434 = Panic.
Proof.
  eexists. eexists. split; [reflexivity|]. split; [reflexivity|]. split; [apply (l_add _ 7 params503 _ (l_init _ eq_refl)); reflexivity|]. repeat (split; [reflexivity|]). reflexivity.
Qed.
Lemma later_reg : forall r id P, later r -> Params r id = Ret P -> id = Fp434 \/ id = Fp503 \/ id = Fp751 -> registered P.
Proof.
  intros r id P L E H. destruct (C49_builtin r L) as (A & C & D). destruct H as [->|[->| ->]]; [left|right; left|right; right]; congruence.
Qed.

Lemma Ret_inj : forall (A : Type) (x y : A), Ret x = Ret y -> x = y.
Proof. intros A x y H. injection H. trivial. Qed.

(* ---------- C42: public keys ---------- *)
(* the six integers encoded in b, each Bytelen bytes little-endian: a0 a1 | b0 b1 | c0 c1 *)
Definition coordsOf (P : sidhParams) (b : list Z) : coords := dec3 (Z.to_nat (Bytelen P)) b.
(* the key has Fp2 coordinates c (each modulo p, stored in Montgomery form) *)
Definition hasCoords (k : pubKey) (c : coords) : Prop := hold3 (pubParams k) (affine3Pt k) c.
Definition encodes (P : sidhParams) (c : coords) (b : list Z) : Prop :=
  let '((a0, a1), (b0, b1), (c0, c1)) := c in b = concat (map (le_enc (Z.to_nat (Bytelen P))) [a0; a1; b0; b1; c0; c1]).
Lemma encodes_enc3 : forall P c, encodes P c (enc3 (Z.to_nat (Bytelen P)) c).
Proof. intros P [[[a0 a1] [b0 b1]] [c0 c1]]. apply enc3_blocks. Qed.
Lemma encodes_eq : forall P c b, encodes P c b -> b = enc3 (Z.to_nat (Bytelen P)) c.
Proof. intros P [[[a0 a1] [b0 b1]] [c0 c1]] b H. rewrite enc3_blocks. exact H. Qed.

Theorem C42_import_refuses : forall k b, Z.of_nat (length b) <> PublicKeySize (pubParams k) -> pubImport k b = Ret (k, true).
Proof. intros k b H. unfold pubImport, pubSize. apply Z.eqb_neq in H. rewrite H. reflexivity. Qed.
Print Assumptions C42_import_refuses.
(* Import into any key ORs the new integers onto the stored words and converts the result *)
Theorem C42_import_used : forall k b, registered (pubParams k) -> raw3 (pField (pubParams k)) (affine3Pt k) -> bytes b -> Z.of_nat (length b) = PublicKeySize (pubParams k) ->
  exists k', pubImport k b = Ret (k', false) /\ pubParams k' = pubParams k /\ pubVariant k' = pubVariant k /\
    hasCoords k' (lor3 (vals3 (affine3Pt k)) (coordsOf (pubParams k) b)).
Proof.
  intros k b RP R Hb HL. destruct (import_gen k b RP R Hb HL) as (k' & A & C & D & F). exists k'. split; [exact A|]. split; [exact C|]. split; [exact D|].
  unfold hasCoords. rewrite C. exact F.
Qed.
Print Assumptions C42_import_used.
Lemma fresh_raw : forall P v z, z = zeroFp2 (pField P) -> raw3 (pField P) (affine3Pt (mkPub P v (z, z, z))) /\ vals3 (affine3Pt (mkPub P v (z, z, z))) = ((0, 0), (0, 0), (0, 0)).
Proof.
  intros P v z ->. cbn [affine3Pt raw3 vals3 map3 zeroFp2 fst snd]. unfold zeroFp. rewrite val_zero. split; [|reflexivity].
  assert (X : raw2 (pField P) (repeat 0 (FpWords (pField P)), repeat 0 (FpWords (pField P)))).
  { unfold raw2. cbn [fst snd]. rewrite repeat_length. assert (words (repeat 0 (FpWords (pField P)))) by apply words_repeat_0. tauto. }
  tauto.
Qed.
Lemma lor3_0 : forall c, lor3 ((0, 0), (0, 0), (0, 0)) c = c.
Proof. intros [[[a b] [d e]] [f g]]. reflexivity. Qed.
Theorem C42_import_fresh : forall r id v k b, later r -> id = Fp434 \/ id = Fp503 \/ id = Fp751 -> NewPublicKey r id v = Ret k -> bytes b ->
  Z.of_nat (length b) = PublicKeySize (pubParams k) ->
  exists k', pubImport k b = Ret (k', false) /\ pubParams k' = pubParams k /\ pubVariant k' = v /\ hasCoords k' (coordsOf (pubParams k) b).
Proof.
  intros r id v k b L HI E Hb HL. unfold NewPublicKey in E. destruct (Params r id) as [P|] eqn:EP; [|discriminate]. cbn [bind] in E. injection E as <-.
  cbn [pubParams] in *. destruct (fresh_raw P v _ eq_refl) as [R V].
  destruct (C42_import_used (mkPub P v (zeroFp2 (pField P), zeroFp2 (pField P), zeroFp2 (pField P))) b (later_reg _ _ _ L EP HI) R Hb HL) as (k' & A & C & D & F).
  rewrite V, lor3_0 in F. exists k'. split; [exact A|]. split; [exact C|]. split; [exact D|exact F].
Qed.
Print Assumptions C42_import_fresh.
Theorem C42_export : forall k c out, registered (pubParams k) -> hasCoords k c -> PublicKeySize (pubParams k) <= Z.of_nat (length out) ->
  exists e, encodes (pubParams k) (lift3 (fun x => x mod primeOf (pubParams k)) c) e /\ Z.of_nat (length e) = PublicKeySize (pubParams k) /\
    pubExport k out = Ret (e ++ skipn (length e) out).
Proof.
  intros k c out RP H LO. eexists. split; [apply encodes_enc3|]. pose proof (reg_sizes _ RP) as Z. destruct Z.
  rewrite enc3_length. split; [lia|]. rewrite (export_val k c out RP H LO). do 3 f_equal. lia.
Qed.
Print Assumptions C42_export.
Theorem C42_export_short : forall k out, registered (pubParams k) -> Z.of_nat (length out) < PublicKeySize (pubParams k) -> pubExport k out = Panic.
Proof. exact export_short. Qed.
Print Assumptions C42_export_short.
(* a fresh key gives back the imported bytes exactly when every coordinate is reduced *)
Theorem C42_roundtrip : forall r id v k b k', later r -> id = Fp434 \/ id = Fp503 \/ id = Fp751 -> NewPublicKey r id v = Ret k -> bytes b ->
  pubImport k b = Ret (k', false) ->
  (pubExport k' (repeat 0 (Z.to_nat (PublicKeySize (pubParams k)))) = Ret b <-> all6 (fun x => x < primeOf (pubParams k)) (coordsOf (pubParams k) b)).
Proof.
  intros r id v k b k' L HI E Hb EI.
  assert (RP : registered (pubParams k)).
  { unfold NewPublicKey in E. destruct (Params r id) as [P|] eqn:EP; [|discriminate]. cbn [bind] in E. injection E as <-. exact (later_reg _ _ _ L EP HI). }
  assert (HL : Z.of_nat (length b) = PublicKeySize (pubParams k)).
  { destruct (Z.eq_dec (Z.of_nat (length b)) (PublicKeySize (pubParams k))) as [X|X]; [exact X|]. rewrite (C42_import_refuses k b X) in EI. discriminate. }
  destruct (C42_import_fresh r id v k b L HI E Hb HL) as (k2 & A & C & D & F). rewrite A in EI. injection EI as <-. rewrite <- C in *.
  pose proof (reg_sizes _ RP) as Z. destruct Z. rewrite (export_val k2 _ _ RP F) by (rewrite repeat_length; lia).
  set (bl := Z.to_nat (Bytelen (pubParams k2))) in *. set (p := primeOf (pubParams k2)) in *.
  assert (LB : length b = (6 * bl)%nat) by (unfold bl; lia). assert (PP : 0 < p) by (unfold p, primeOf; destruct (_ =? _); [|destruct (_ =? _)]; reflexivity).
  rewrite skipn_all2, app_nil_r by (rewrite repeat_length; lia).
  assert (EN : enc3 bl (coordsOf (pubParams k2) b) = b) by (apply enc3_dec3; assumption).
  assert (RG : forall i, 0 <= coordAt bl b i) by (intros; apply coordAt_range; exact Hb).
  split.
  - intros H. apply Ret_inj in H. apply (f_equal (dec3 bl)) in H. rewrite <- (app_nil_r (enc3 _ _)) in H. rewrite dec3_enc3 in H.
    + change (dec3 bl b) with (coordsOf (pubParams k2) b) in H. rewrite <- H. unfold lift3, map3, coordsOf, dec3, all6. cbn [fst snd].
      pose proof (fun x => proj2 (Z.mod_pos_bound x p PP)). auto 8.
    + assert (BD : p < 256 ^ Z.of_nat bl) by (unfold bl; rewrite Z2Nat.id by lia; assumption).
      assert (M : forall x, 0 <= x mod p < 256 ^ Z.of_nat bl) by (intros x; pose proof (Z.mod_pos_bound x p PP); lia).
      unfold lift3, map3, coordsOf, dec3, all6. cbn [fst snd]. auto 8.
  - intros H. f_equal. rewrite <- EN at 2. f_equal. unfold lift3, map3, coordsOf, dec3, all6 in *. cbn [fst snd] in *. destruct H as ((? & ?) & (? & ?) & (? & ?)).
    rewrite !Z.mod_small by auto. reflexivity.
Qed.
Print Assumptions C42_roundtrip.
(* the documentation says Import clears the key first: importing zeros into a used key does not give the zero key *)
Definition first (c : coords) : Z := fst (fst (fst c)).
Lemma holds_raw : forall P x c, hold3 P x c -> raw3 (pField P) x.
Proof.
  intros P [[x0 x1] x2] [[c0 c1] c2] (((H1 & _) & (H2 & _)) & ((H3 & _) & (H4 & _)) & ((H5 & _) & (H6 & _))).
  destruct H1 as (? & ? & _), H2 as (? & ? & _), H3 as (? & ? & _), H4 as (? & ? & _), H5 as (? & ? & _), H6 as (? & ? & _). unfold raw3, raw2. tauto.
Qed.
Theorem C42_import_keeps : forall k c, registered (pubParams k) -> hasCoords k c -> first c mod primeOf (pubParams k) <> 0 ->
  let n := Z.to_nat (PublicKeySize (pubParams k)) in
  exists k' e, pubImport k (repeat 0 n) = Ret (k', false) /\ pubExport k' (repeat 0 n) = Ret e /\ e <> repeat 0 n.
Proof.
  intros k c RP H N n. pose proof (reg_sizes _ RP) as Z. destruct Z.
  assert (Hb : bytes (repeat 0 n)) by (apply Forall_repeat; unfold is_byte; lia).
  destruct (C42_import_used k (repeat 0 n) RP (holds_raw _ _ _ H) Hb) as (k' & A & C & D & F); [rewrite repeat_length; unfold n; lia|].
  destruct (C42_export k' _ (repeat 0 n) (eq_ind_r _ RP C) F) as (e & E1 & E2 & E3); [rewrite C, repeat_length; unfold n; lia|].
  exists k', e. split; [exact A|]. split; [rewrite E3, skipn_all2, app_nil_r by (rewrite repeat_length; rewrite C in E2; unfold n; lia); reflexivity|].
  intros X. apply N. set (bl := Z.to_nat (Bytelen (pubParams k))) in *. set (p := primeOf (pubParams k)) in *. rewrite C in E1. fold p in E1.
  apply encodes_eq in E1. fold bl in E1. rewrite X in E1. apply (f_equal (fun l => le_dec (firstn bl l))) in E1.
  assert (Z0 : forall m, le_dec (repeat 0 m) = 0) by (induction m; [reflexivity|cbn [repeat le_dec]; lia]).
  assert (FR : forall m, exists q, firstn bl (repeat 0 m) = repeat 0 q).
  { clear. intros m. generalize bl. induction m; intros i; destruct i; cbn [repeat firstn]; try (exists 0%nat; reflexivity). destruct (IHm i) as (q & E). exists (S q). cbn. rewrite E. reflexivity. }
  destruct (FR n) as (q & EQ). rewrite EQ, Z0 in E1.
  destruct (affine3Pt k) as [[x0 x1] x2] eqn:EX. destruct c as [[[c0 c0'] c1] c2]. unfold hasCoords in H. rewrite EX in H. destruct H as (((H1 & V1) & H2) & _). cbn [fst snd] in *.
  assert (DZ : coordAt bl (repeat 0 n) 0 = 0).
  { unfold coordAt, slice. cbn [Nat.mul skipn]. rewrite EQ. apply Z0. }
  unfold coordsOf, vals3, map3, dec3, lor3, lor2, lift3, enc3, fullenc in E1. fold bl in E1. cbn [fst snd] in E1. rewrite DZ, Z.lor_0_r in E1.
  cbn [map3 fst snd] in E1. rewrite <- app_assoc, firstn_app, le_enc_length, Nat.sub_diag, firstn_O, app_nil_r, firstn_all2 in E1 by (rewrite le_enc_length; lia).
  assert (PP : 0 < p) by (unfold p, primeOf; destruct (_ =? _); [|destruct (_ =? _)]; reflexivity).
  rewrite le_dec_enc, Z.mod_small in E1.
  2:{ pose proof (Z.mod_pos_bound (val (fst x0)) p PP). assert (p < 256 ^ Z.of_nat bl) by (unfold bl; rewrite Z2Nat.id by lia; assumption). lia. }
  pose proof (reg_field _ RP) as SF. fold p in SF.
  assert (T1 : holds2 (pField (pubParams k)) p x0 c0 c0') by (split; [split; assumption|assumption]).
  assert (T0 : holds2 (pField (pubParams k)) p x0 0 c0') by (split; [split; [assumption|rewrite <- E1; reflexivity]|assumption]).
  pose proof (C41_from_montgomery _ _ SF _ _ _ T1) as (_ & W1 & _). pose proof (C41_from_montgomery _ _ SF _ _ _ T0) as (_ & W0 & _).
  cbn [first fst]. rewrite <- W1, W0. reflexivity.
Qed.
Print Assumptions C42_import_keeps.
Definition b1 (bl : nat) : list Z := concat (map (le_enc bl) [1; 2; 3; 4; 5; 6]).
Theorem C42_import_clears_refuted : exists k b k1 b' k2 e, NewPublicKey [(Fp434, params434)] Fp434 KeyVariantSidhA = Ret k /\
  pubImport k b = Ret (k1, false) /\ pubImport k1 b' = Ret (k2, false) /\ pubExport k2 (repeat 0 330) = Ret e /\ bytes b' /\ length b' = 330%nat /\
  pubExport k (repeat 0 330) = Ret b' /\ e <> b'.
Proof.
  set (z := zeroFp2 (pField params434)); set (k := mkPub params434 KeyVariantSidhA (z, z, z)).
  assert (RP : registered (pubParams k)) by (left; reflexivity). destruct (fresh_raw params434 KeyVariantSidhA _ eq_refl) as [R V].
  assert (Hb : bytes (b1 55)).
  { unfold b1. cbn [map concat]. repeat apply bytes_app; try apply le_enc_bytes. constructor. }
  destruct (C42_import_used k (b1 55) RP R Hb eq_refl) as (k1 & A & C & D & F).
  fold z k in V. rewrite V, lor3_0 in F.
  destruct (C42_import_keeps k1 _ (eq_ind_r _ RP C) F) as (k2 & e & A2 & E2 & N).
  { rewrite C. vm_compute. discriminate. }
  exists k, (b1 55), k1, (repeat 0 330), k2, e. rewrite C in *. change (Z.to_nat (PublicKeySize (pubParams k))) with 330%nat in *.
  split; [reflexivity|]. split; [exact A|]. split; [exact A2|]. split; [exact E2|]. split; [apply Forall_repeat; unfold is_byte; lia|]. split; [apply repeat_length|].
  split; [|exact N]. 
  assert (HZ : hasCoords k ((0, 0), (0, 0), (0, 0))).
  { assert (X : holds f434 p434 (zeroFp f434) 0) by (split; [split; [apply words_repeat_0|split; [apply repeat_length|unfold zeroFp; rewrite val_zero; unfold p434; lia]]|unfold zeroFp; rewrite val_zero; reflexivity]).
    assert (Y : holds2 f434 p434 (zeroFp2 f434) 0 0) by exact (conj X X). exact (conj Y (conj Y Y)). }
  rewrite (export_val k _ (repeat 0 330) RP HZ) by (vm_compute; discriminate). vm_compute. reflexivity.
Qed.
Print Assumptions C42_import_clears_refuted.

(* ---------- C43: private keys ---------- *)
Definition bitsOf (k : prvKey) : Z := SecretBitLen (if onA (prvVariant k) then pA (prvParams k) else pB (prvParams k)).
Definition scalarLen (P : sidhParams) (v : Z) : Z := SecretByteLen (if onA v then pA P else pB P).
(* buffers as the constructors make them *)
Definition shaped (k : prvKey) : Prop := registered (prvParams k) /\ Z.of_nat (length (Scalar k)) = scalarLen (prvParams k) (prvVariant k) /\
  Z.of_nat (length (prvS k)) = if prvVariant k =? KeyVariantSike then MsgLen (prvParams k) else 0.
Theorem C43_new : forall r id v, later r -> id = Fp434 \/ id = Fp503 \/ id = Fp751 ->
  exists k, NewPrivateKey r id v = Ret k /\ shaped k /\ prvVariant k = v /\ pID (prvParams k) = id /\
    prvSize k = scalarLen (prvParams k) v + (if v =? KeyVariantSike then MsgLen (prvParams k) else 0) /\ Forall (eq 0) (Scalar k ++ prvS k).
Proof.
  intros r id v L HI.
  assert (exists P, Params r id = Ret P /\ pID P = id) as (P & EP & EI).
  { destruct (C49_builtin r L) as (A & C & D). destruct HI as [->|[->| ->]]; eexists; (split; [eassumption|reflexivity]). }
  pose proof (later_reg _ _ _ L EP HI) as RP. pose proof (reg_sizes P RP) as Z. destruct Z.
  unfold NewPrivateKey. rewrite EP. cbn [bind]. eexists. split; [reflexivity|]. unfold shaped, scalarLen, prvSize. cbn [prvParams prvVariant Scalar prvS].
  assert (LS : Z.of_nat (length (if v =? KeyVariantSike then repeat 0 (Z.to_nat (MsgLen P)) else [])) = if v =? KeyVariantSike then MsgLen P else 0)
    by (destruct (v =? KeyVariantSike); [rewrite repeat_length; lia|reflexivity]).
  assert (LC : Z.of_nat (length (repeat 0 (Z.to_nat (if onA v then SecretByteLen (pA P) else SecretByteLen (pB P))))) = SecretByteLen (if onA v then pA P else pB P))
    by (rewrite repeat_length; destruct (onA v); lia).
  split; [split; [exact RP|split; [exact LC|exact LS]]|]. split; [reflexivity|]. split; [exact EI|]. split; [rewrite LC; destruct (v =? KeyVariantSike); lia|].
  apply Forall_app. split; [apply Forall_repeat; reflexivity|]. destruct (v =? KeyVariantSike); [apply Forall_repeat; reflexivity|constructor].
Qed.
Print Assumptions C43_new.
Theorem C43_import_refuses : forall k b, Z.of_nat (length b) <> prvSize k -> prvImport k b = Ret (k, true).
Proof. intros k b H. unfold prvImport. apply Z.eqb_neq in H. rewrite H. reflexivity. Qed.
Print Assumptions C43_import_refuses.
Lemma shaped_size : forall k, shaped k -> prvSize k = Z.of_nat (length (prvS k) + length (Scalar k)).
Proof. intros k (RP & H1 & H2). unfold prvSize. destruct (prvVariant k =? KeyVariantSike); lia. Qed.
Theorem C43_import : forall k b, shaped k -> Z.of_nat (length b) = prvSize k ->
  exists k', prvImport k b = Ret (k', false) /\ shaped k' /\ prvParams k' = prvParams k /\ prvVariant k' = prvVariant k /\
    b = prvS k' ++ Scalar k' /\ length (prvS k') = length (prvS k).
Proof.
  intros k b SH HL. pose proof (shaped_size k SH) as SZ. unfold prvImport. rewrite HL, Z.eqb_refl. cbn [negb].
  rewrite sub_ok by lia. cbn [bind]. rewrite sub_ok by lia. cbn [bind]. rewrite Z.sub_0_r. change (Z.to_nat 0) with 0%nat. cbn [skipn].
  rewrite !Nat2Z.id. set (n := length (prvS k)) in *.
  assert (L1 : length (firstn n b) = n) by (rewrite firstn_length; lia).
  assert (L2 : length (skipn n b) = length (Scalar k)) by (rewrite skipn_length; lia).
  rewrite (firstn_all2 (skipn n b)) by lia. rewrite (gocopy_full (prvS k)) by (unfold n in *; lia). rewrite (gocopy_full (Scalar k)) by lia.
  eexists. split; [reflexivity|]. cbn [prvParams prvVariant Scalar prvS]. destruct SH as (S1 & S2 & S3). fold n in S3.
  split; [unfold shaped; cbn [prvParams prvVariant Scalar prvS]; rewrite L1, L2; auto|].
  split; [reflexivity|]. split; [reflexivity|]. split; [symmetry; apply firstn_skipn|exact L1].
Qed.
Print Assumptions C43_import.
(* Export: S then Scalar, cut to the buffer; only a buffer shorter than S panics *)
Theorem C43_export : forall k out,
  (Z.of_nat (length out) < Z.of_nat (length (prvS k)) -> prvExport k out = Panic) /\
  (Z.of_nat (length (prvS k)) <= Z.of_nat (length out) ->
    prvExport k out = Ret (firstn (length out) (prvS k ++ Scalar k) ++ skipn (length (prvS k ++ Scalar k)) out)).
Proof.
  intros k out. unfold prvExport, gocopyAt, into. rewrite gocopy_length. split; intros H.
  - unfold sub. replace (Z.of_nat (length (prvS k)) <=? Z.of_nat (length out)) with false by (symmetry; apply Z.leb_gt; lia). rewrite andb_false_r. reflexivity.
  - rewrite sub_ok by (rewrite ?gocopy_length; lia). cbn [bind]. rewrite !Nat2Z.id. f_equal.
    assert (EG : gocopy out (prvS k) = prvS k ++ skipn (length (prvS k)) out) by (unfold gocopy; rewrite firstn_all2 by lia; reflexivity).
    rewrite EG. set (n := length (prvS k)) in *.
    assert (L : length (skipn n out) = (length out - n)%nat) by apply skipn_length.
    assert (G1 : firstn n (prvS k ++ skipn n out) = prvS k) by (rewrite firstn_app; fold n; rewrite Nat.sub_diag, firstn_O, app_nil_r; apply firstn_all).
    assert (G2 : skipn n (prvS k ++ skipn n out) = skipn n out) by (rewrite skipn_app; fold n; rewrite Nat.sub_diag; cbn [skipn]; rewrite skipn_all2 by lia; reflexivity).
    assert (G3 : skipn (length out) (prvS k ++ skipn n out) = []) by (apply skipn_all2; rewrite app_length; fold n; lia).
    rewrite G1, G2, G3, app_nil_r. rewrite firstn_app. fold n. rewrite (firstn_all2 (prvS k)) by lia. rewrite <- app_assoc. f_equal.
    rewrite (firstn_all2 (skipn n out)) by lia. unfold gocopy. rewrite L, skipn_skipn', app_length. reflexivity.
Qed.
Print Assumptions C43_export.
Theorem C43_roundtrip : forall k b out, shaped k -> Z.of_nat (length b) = prvSize k -> (length b <= length out)%nat ->
  exists k', prvImport k b = Ret (k', false) /\ prvExport k' out = Ret (b ++ skipn (length b) out).
Proof.
  intros k b out SH HL LO. destruct (C43_import k b SH HL) as (k' & A & C & D & E & F & G). exists k'. split; [exact A|].
  rewrite (proj2 (C43_export k' out)); rewrite F in LO; rewrite app_length in LO; [|lia]. rewrite <- F.
  rewrite firstn_all2 by (rewrite F, app_length; lia). reflexivity.
Qed.
Print Assumptions C43_roundtrip.
(* for SIDH variants the scalar of a constructed key is the imported string; a key object used for SIKE and then
   re-initialised for SIDH keeps its S, and Import puts the first bytes there *)
Theorem C43_import_sidh : forall k b k', shaped k -> prvVariant k <> KeyVariantSike -> prvImport k b = Ret (k', false) -> Scalar k' = b.
Proof.
  intros k b k' SH NV E. destruct (Z.eq_dec (Z.of_nat (length b)) (prvSize k)) as [HL|HL]; [|rewrite (C43_import_refuses k b HL) in E; discriminate].
  destruct (C43_import k b SH HL) as (k2 & A & C & D & E' & F & G). rewrite A in E. injection E as <-. destruct C as (_ & _ & C3). rewrite E' in C3.
  apply Z.eqb_neq in NV. rewrite NV in C3. destruct (prvS k2); [symmetry; exact F|cbn in C3; lia].
Qed.
Print Assumptions C43_import_sidh.
Theorem C43_import_reinit_refuted : exists r k0 k1 b k2, later r /\ NewPrivateKey r Fp503 KeyVariantSike = Ret k0 /\ prvInit r k0 Fp503 KeyVariantSidhB = Ret k1 /\
  length b = Z.to_nat (prvSize k1) /\ bytes b /\ prvImport k1 b = Ret (k2, false) /\ Scalar k2 <> b /\ le_dec (Scalar k2) < 2 ^ 64.
Proof.
  eexists. eexists. eexists. exists (le_enc 32 (2 ^ 200 + 5)). eexists.
  split; [apply l_init; reflexivity|]. split; [reflexivity|]. split; [reflexivity|]. split; [reflexivity|]. split; [apply le_enc_bytes|].
  split; [vm_compute; reflexivity|]. split; [vm_compute; discriminate|]. vm_compute. reflexivity.
Qed.
Print Assumptions C43_import_reinit_refuted.
Example ex_C43 : exists k k', NewPrivateKey [(Fp751, params751)] Fp751 KeyVariantSike = Ret k /\ shaped k /\ prvSize k = 80 /\
  prvImport k (map Z.of_nat (seq 0 80)) = Ret (k', false) /\ nth 0 (Scalar k') 0 = 32 /\ prvImport k (map Z.of_nat (seq 0 79)) = Ret (k, true).
Proof.
  eexists. eexists. split; [reflexivity|]. split; [split; [right; right; reflexivity|split; reflexivity]|]. split; [reflexivity|].
  split; [vm_compute; reflexivity|]. split; vm_compute; reflexivity.
Qed.

(* ---------- C44: scalars ---------- *)
Definition p434A (k : prvKey) : Prop := prvParams k = params434 /\ onA (prvVariant k) = true.
Definition need (k : prvKey) : nat := (length (prvS k) + length (Scalar k))%nat.
(* the bytes of the source that become the scalar *)
Definition rawScalar (k : prvKey) (rng : list Z) : Z := le_dec (slice rng (length (prvS k)) (length (Scalar k))).
Lemma lastbyte : forall r t, 1 <= r <= 7 -> 0 <= t < 256 ->
  Z.lor (Z.land t ((shl1 r - 1) mod 256)) (shl1 (r - 1)) = 2 ^ (r - 1) + t mod 2 ^ (r - 1).
Proof.
  intros r t Hr Ht.
  assert (K : forallb (fun r => forallb (fun t => Z.lor (Z.land t ((shl1 r - 1) mod 256)) (shl1 (r - 1)) =? 2 ^ (r - 1) + t mod 2 ^ (r - 1)) (map Z.of_nat (seq 0 256))) (map Z.of_nat (seq 1 7)) = true) by (vm_compute; reflexivity).
  rewrite forallb_forall in K. assert (I1 : In r (map Z.of_nat (seq 1 7))) by (apply in_map_iff; exists (Z.to_nat r); split; [lia|apply in_seq; lia]).
  specialize (K r I1). rewrite forallb_forall in K. apply Z.eqb_eq, K. apply in_map_iff. exists (Z.to_nat t). split; [lia|apply in_seq; lia].
Qed.
Lemma onLast_snoc : forall l b f, onLast (l ++ [b]) f = Ret (l ++ [f b]).
Proof.
  intros. unfold onLast. destruct (l ++ [b]) eqn:E; [destruct l; discriminate|]. rewrite <- E. rewrite app_length. cbn [length].
  replace (length l + 1 - 1)%nat with (length l) by lia. rewrite app_nth2, Nat.sub_diag by lia. cbn [nth]. rewrite upd_app by (rewrite app_length; cbn; lia).
  rewrite firstn_app, firstn_all, Nat.sub_diag. cbn [firstn]. rewrite app_nil_r. rewrite skipn_all2 by (rewrite app_length; cbn; lia). reflexivity.
Qed.
Lemma readFull_ok : forall rng buf, (length buf <= length rng)%nat -> readFull rng buf = (firstn (length buf) rng, skipn (length buf) rng, false).
Proof. intros. unfold readFull. replace (length rng <? length buf)%nat with false by (symmetry; apply Nat.ltb_ge; lia). reflexivity. Qed.
Lemma readFull_bad : forall rng buf, (length rng < length buf)%nat -> readFull rng buf = (rng ++ skipn (length rng) buf, [], true).
Proof. intros. unfold readFull. replace (length rng <? length buf)%nat with true by (symmetry; apply Nat.ltb_lt; lia). reflexivity. Qed.
Theorem C44_error : forall k rng, shaped k -> (length rng < need k)%nat -> exists k', Generate k rng = Ret (k', [], true) /\ shaped k' /\ prvVariant k' = prvVariant k /\ prvParams k' = prvParams k.
Proof.
  intros [P v sc s] rng (RP & S1 & S2) H. unfold need in H. cbn [prvParams prvVariant Scalar prvS] in *. unfold Generate. cbn [prvParams prvVariant Scalar prvS].
  destruct (v =? KeyVariantSike) eqn:EV.
  - destruct (Nat.lt_ge_cases (length rng) (length s)) as [L|L].
    + rewrite readFull_bad by exact L. eexists. split; [reflexivity|]. unfold shaped. cbn [prvParams prvVariant Scalar prvS]. rewrite EV.
      rewrite app_length, skipn_length. split; [|split; reflexivity]. split; [exact RP|]. split; [exact S1|lia].
    + rewrite readFull_ok by exact L. cbn [Scalar prvParams prvVariant]. rewrite readFull_bad by (rewrite skipn_length; lia). eexists. split; [reflexivity|].
      unfold shaped. cbn [prvParams prvVariant Scalar prvS]. rewrite EV. rewrite app_length, skipn_length, firstn_length. split; [|split; reflexivity]. split; [exact RP|]. rewrite skipn_length. split; [|lia]. rewrite <- S1. lia.
  - assert (s = []) by (destruct s; [reflexivity|cbn in S2; lia]). subst s. cbn [length] in *. cbn [Scalar prvParams prvVariant]. rewrite readFull_bad by lia. eexists. split; [reflexivity|].
    unfold shaped. cbn [prvParams prvVariant Scalar prvS]. rewrite EV, app_length, skipn_length. split; [|split; reflexivity]. split; [exact RP|]. split; [lia|reflexivity].
Qed.
Print Assumptions C44_error.
Lemma gen_ok : forall k rng, shaped k -> (need k <= length rng)%nat -> exists k' l b,
  Generate k rng = Ret (k', skipn (need k) rng, false) /\ prvParams k' = prvParams k /\ prvVariant k' = prvVariant k /\ prvS k' = firstn (length (prvS k)) rng /\
  slice rng (length (prvS k)) (length (Scalar k)) = l ++ [b] /\ S (length l) = length (Scalar k) /\
  Scalar k' = l ++ [Z.lor (Z.land b ((shl1 (bitsOf k mod 8) - 1) mod 256)) (shl1 (bitsOf k mod 8 - 1))].
Proof.
  intros [P v sc s] rng (RP & S1 & S2) H. unfold need in *. cbn [prvParams prvVariant Scalar prvS] in *.
  assert (LP : (0 < length sc)%nat) by (pose proof (reg_sizes P RP) as Z; destruct Z; unfold scalarLen in S1; destruct (onA v); lia).
  set (raw := slice rng (length s) (length sc)). assert (LR : length raw = length sc) by (apply slice_length; lia).
  destruct (exists_last (l := raw)) as (l & b & E); [intros X; rewrite X in LR; cbn in LR; lia|].
  assert (LL : S (length l) = length sc) by (rewrite <- LR, E, app_length; cbn; lia).
  unfold bitsOf. cbn [prvParams prvVariant].
  set (dp := if onA v then pA P else pB P).
  eexists. exists l, b. unfold Generate. cbn [prvParams prvVariant Scalar prvS]. fold dp.
  assert (G : (if v =? KeyVariantSike then readFull rng s else (s, rng, false)) = (firstn (length s) rng, skipn (length s) rng, false)).
  { destruct (v =? KeyVariantSike); [apply readFull_ok; lia|]. assert (s = []) by (destruct s; [reflexivity|cbn in S2; lia]). subst s. reflexivity. }
  rewrite G. cbn [prvParams prvVariant Scalar prvS]. rewrite readFull_ok by (rewrite skipn_length; lia). fold (slice rng (length s) (length sc)). fold raw. rewrite E.
  rewrite onLast_snoc. cbn [bind]. rewrite onLast_snoc. cbn [bind]. rewrite skipn_skipn'. split; [reflexivity|]. cbn [prvParams prvVariant Scalar prvS].
  split; [reflexivity|]. split; [reflexivity|]. split; [reflexivity|]. split; [reflexivity|]. split; [exact LL|reflexivity].
Qed.
Lemma reg_bits : forall P v, registered P -> ~ (P = params434 /\ onA v = true) ->
  let d := if onA v then pA P else pB P in 1 <= SecretBitLen d mod 8 <= 7 /\ SecretBitLen d = 8 * (SecretByteLen d - 1) + SecretBitLen d mod 8.
Proof.
  intros P v [->|[->| ->]] H; destruct (onA v); try (exfalso; apply H; split; reflexivity); cbv zeta beta;
    (split; [split; vm_compute; discriminate|vm_compute; reflexivity]).
Qed.
Lemma le_dec_snoc : forall l b, le_dec (l ++ [b]) = le_dec l + 2 ^ (8 * Z.of_nat (length l)) * b.
Proof. intros. rewrite le_dec_app. cbn [le_dec]. rewrite Z.pow_mul_r by lia. change (2 ^ 8) with 256. ring. Qed.
(* the top bit is set, every lower bit comes from the source, the rest of the last byte is cleared *)
Theorem C44_generate : forall k rng, shaped k -> bytes rng -> (need k <= length rng)%nat -> ~ p434A k -> exists k',
  Generate k rng = Ret (k', skipn (need k) rng, false) /\ shaped k' /\ bytes (Scalar k') /\ prvParams k' = prvParams k /\ prvVariant k' = prvVariant k /\ prvS k' = firstn (length (prvS k)) rng /\
  le_dec (Scalar k') = 2 ^ (bitsOf k - 1) + rawScalar k rng mod 2 ^ (bitsOf k - 1) /\
  2 ^ (bitsOf k - 1) <= le_dec (Scalar k') < 2 ^ bitsOf k.
Proof.
  intros k rng SH Hb HL NA. destruct (gen_ok k rng SH HL) as (k' & l & b & E & E1 & E2 & E3 & E4 & E5 & E6). exists k'.
  pose proof SH as (RP & S1 & S2).
  assert (BR : bytes (l ++ [b])) by (rewrite <- E4; apply bytes_slice; exact Hb). apply Forall_app in BR. destruct BR as [BL BB].
  assert (Bb : 0 <= b < 256) by (inversion BB; assumption).
  destruct (reg_bits (prvParams k) (prvVariant k) RP NA) as [R1 R2]. fold (bitsOf k) in R1, R2.
  assert (R3 : bitsOf k = 8 * Z.of_nat (length l) + bitsOf k mod 8) by (unfold scalarLen in S1; lia).
  rewrite (lastbyte _ b R1 Bb) in E6. set (r := bitsOf k mod 8) in *. set (m := 8 * Z.of_nat (length l)) in *.
  pose proof (le_dec_bound l BL) as LB. assert (EM : 256 ^ Z.of_nat (length l) = 2 ^ m) by (unfold m; rewrite Z.pow_mul_r by lia; reflexivity). rewrite EM in LB.
  assert (P1 : 0 < 2 ^ (r - 1)) by (apply Z.pow_pos_nonneg; lia). assert (P2 : 0 < 2 ^ m) by (apply Z.pow_pos_nonneg; lia).
  assert (PW : 2 ^ (bitsOf k - 1) = 2 ^ m * 2 ^ (r - 1)) by (rewrite <- Z.pow_add_r by lia; f_equal; lia).
  assert (PW2 : 2 ^ bitsOf k = 2 * 2 ^ (bitsOf k - 1)) by (rewrite <- Z.pow_succ_r by lia; f_equal; lia).
  assert (V : le_dec (Scalar k') = 2 ^ (bitsOf k - 1) + rawScalar k rng mod 2 ^ (bitsOf k - 1)).
  { unfold rawScalar. rewrite E4, E6, !le_dec_snoc. fold m. rewrite PW, Z.rem_mul_r by lia.
    replace (le_dec l + 2 ^ m * b) with (le_dec l + b * 2 ^ m) by ring. rewrite Z.mod_add, Z.div_add by lia.
    rewrite (Z.mod_small (le_dec l)), (Z.div_small (le_dec l)) by lia. rewrite Z.add_0_l. ring. }
  split; [exact E|]. split.
  { split; [rewrite E1; exact RP|]. rewrite E1, E2. split; [rewrite <- S1, E6, app_length, <- E5; cbn; lia|]. rewrite <- S2, E3, firstn_length. unfold need in HL. lia. }
  split. { rewrite E6. apply Forall_app. split; [exact BL|]. constructor; [|constructor]. unfold is_byte.
    pose proof (Z.mod_pos_bound b (2 ^ (r - 1)) P1). assert (2 ^ (r - 1) <= 2 ^ 6) by (apply Z.pow_le_mono_r; lia). lia. }
  split; [exact E1|]. split; [exact E2|]. split; [exact E3|]. split; [exact V|]. rewrite V, PW2. pose proof (Z.mod_pos_bound (rawScalar k rng) (2 ^ (bitsOf k - 1)) ltac:(nia)). lia.
Qed.
Print Assumptions C44_generate.
(* p434, 2-torsion: the 28th byte is cleared, nothing is set *)
Theorem C44_generate_p434A : forall k rng, shaped k -> bytes rng -> (need k <= length rng)%nat -> p434A k -> exists k',
  Generate k rng = Ret (k', skipn (need k) rng, false) /\ shaped k' /\ bytes (Scalar k') /\ prvParams k' = prvParams k /\ prvVariant k' = prvVariant k /\ prvS k' = firstn (length (prvS k)) rng /\
  le_dec (Scalar k') = rawScalar k rng mod 2 ^ 216.
Proof.
  intros k rng SH Hb HL [NA1 NA2]. destruct (gen_ok k rng SH HL) as (k' & l & b & E & E1 & E2 & E3 & E4 & E5 & E6). exists k'.
  pose proof SH as (RP & S1 & S2).
  assert (BR : bytes (l ++ [b])) by (rewrite <- E4; apply bytes_slice; exact Hb). apply Forall_app in BR. destruct BR as [BL BB].
  unfold bitsOf in E6. unfold scalarLen in S1. rewrite NA2, NA1 in S1, E6. change (SecretBitLen (pA params434)) with 216 in E6. change (SecretByteLen (pA params434)) with 28 in S1.
  change ((shl1 (216 mod 8) - 1) mod 256) with 0 in E6. change (shl1 (216 mod 8 - 1)) with 0 in E6. rewrite Z.land_0_r in E6. change (Z.lor 0 0) with 0 in E6.
  assert (LL : length l = 27%nat) by lia.
  assert (V : le_dec (Scalar k') = rawScalar k rng mod 2 ^ 216).
  { unfold rawScalar. rewrite E4, E6, !le_dec_snoc, LL. change (8 * Z.of_nat 27) with 216. rewrite (Z.mul_comm (2 ^ 216) b), Z.mod_add by lia.
    pose proof (le_dec_bound l BL) as LB. rewrite LL in LB. change (256 ^ Z.of_nat 27) with (2 ^ 216) in LB. rewrite Z.mod_small by exact LB. lia. }
  split; [exact E|]. split.
  { split; [rewrite E1; exact RP|]. unfold scalarLen. rewrite E1, E2, NA2, NA1. split; [rewrite E6, app_length, LL; reflexivity|]. rewrite NA1 in S2. rewrite <- S2, E3, firstn_length. unfold need in HL. lia. }
  split. { rewrite E6. apply Forall_app. split; [exact BL|]. constructor; [unfold is_byte; lia|constructor]. }
  split; [exact E1|]. split; [exact E2|]. split; [exact E3|exact V].
Qed.
Print Assumptions C44_generate_p434A.
Theorem C44_p434A_range_refuted : exists k rng k' rest, shaped k /\ bytes rng /\ prvVariant k = KeyVariantSidhA /\ Generate k rng = Ret (k', rest, false) /\ ~ 2 ^ (bitsOf k - 1) <= le_dec (Scalar k').
Proof.
  exists (mkPrv params434 KeyVariantSidhA (repeat 0 28) []), (repeat 0 27 ++ [255]). eexists. eexists.
  split; [split; [left; reflexivity|split; reflexivity]|]. split; [apply bytes_app; [apply Forall_repeat; unfold is_byte; lia|constructor; [unfold is_byte; lia|constructor]]|].
  split; [reflexivity|]. split; [vm_compute; reflexivity|]. vm_compute. intros X. apply X. reflexivity.
Qed.
Print Assumptions C44_p434A_range_refuted.
Example ex_C44 : exists k k', NewPrivateKey [(Fp434, params434)] Fp434 KeyVariantSike = Ret k /\ shaped k /\ ~ p434A k /\
  Generate k (repeat 7 50) = Ret (k', repeat 7 6, false) /\ le_dec (Scalar k') = 2 ^ 216 + le_dec (repeat 7 27) /\ Generate k (repeat 7 43) = Ret (mkPrv params434 KeyVariantSike (repeat 7 27 ++ [0]) (repeat 7 16), [], true).
Proof.
  eexists. eexists. split; [reflexivity|]. split; [split; [left; reflexivity|split; reflexivity]|]. split; [intros [_ X]; vm_compute in X; discriminate|].
  split; [vm_compute; reflexivity|]. split; vm_compute; reflexivity.
Qed.

(* ---------- C48: what panics ---------- *)
Definition longEnough (k : prvKey) : Prop := bitsOf k <= 8 * Z.of_nat (length (Scalar k)).
Lemma shaped_long : forall k, shaped k -> longEnough k.
Proof. intros k (RP & H & _). unfold longEnough, bitsOf. unfold scalarLen in H. pose proof (reg_sizes _ RP) as Z. destruct Z. destruct (onA (prvVariant k)); lia. Qed.
Lemma gen_total : forall P v sc, registered P -> SecretBitLen (if onA v then pA P else pB P) <= 8 * Z.of_nat (length sc) ->
  exists x, bind (if onA v then PublicKeyGenA_l P sc else PublicKeyGenB_l P sc) three = Ret x.
Proof.
  intros P v sc RP H. destruct (reg_strat P RP) as [SA SB]. destruct (onA v).
  - destruct (genA_ret (limbOps P) (limbDom (pA P)) (limbDom (pB P)) SA sc H) as (a & b & c & E). unfold PublicKeyGenA_l. rewrite E. exists (a, b, c). reflexivity.
  - destruct (genB_ret (limbOps P) (limbDom (pA P)) (limbDom (pB P)) SB sc H) as (a & b & c & E). unfold PublicKeyGenB_l. rewrite E. exists (a, b, c). reflexivity.
Qed.
Theorem C48_generate : forall k pub, registered (prvParams k) -> longEnough k ->
  (GeneratePublicKey k pub = Panic <-> pubVariant pub <> prvVariant k \/ pID (pubParams pub) <> pID (prvParams k)) /\
  (forall pub', GeneratePublicKey k pub = Ret pub' -> pubParams pub' = pubParams pub /\ pubVariant pub' = pubVariant pub).
Proof.
  intros k pub RP H. unfold GeneratePublicKey. destruct (Z.eqb_spec (pubVariant pub) (prvVariant k)) as [E1|E1]; cbn [negb orb].
  2:{ split; [split; auto|discriminate]. }
  destruct (Z.eqb_spec (pID (pubParams pub)) (pID (prvParams k))) as [E2|E2]; cbn [negb].
  2:{ split; [split; auto|discriminate]. }
  rewrite (reg_pkg _ RP). cbn [bind]. destruct (gen_total (prvParams k) (prvVariant k) (Scalar k) RP H) as (x & E).
  destruct (if onA (prvVariant k) then _ else _) as [l|]; [|discriminate]. cbn [bind] in *. rewrite E. cbn [bind]. split.
  - split; [discriminate|]. intros [X|X]; contradiction.
  - intros pub' X. apply Ret_inj in X. subst pub'. split; reflexivity.
Qed.
Print Assumptions C48_generate.
Theorem C48_derive : forall k ss pub, registered (prvParams k) -> longEnough k ->
  (DeriveSecret k ss pub = Panic <->
    pubVariant pub = prvVariant k \/ pID (pubParams pub) <> pID (prvParams k) \/ Z.of_nat (length ss) < SharedSecretSize (prvParams k)) /\
  (forall ss', DeriveSecret k ss pub = Ret ss' -> exists s, bytes s /\ Z.of_nat (length s) = SharedSecretSize (prvParams k) /\ ss' = s ++ skipn (length s) ss).
Proof.
  intros k ss pub RP H. unfold DeriveSecret. destruct (Z.eqb_spec (pubVariant pub) (prvVariant k)) as [E1|E1]; cbn [negb orb].
  { split; [split; auto|discriminate]. }
  destruct (Z.eqb_spec (pID (pubParams pub)) (pID (prvParams k))) as [E2|E2]; cbn [negb].
  2:{ split; [split; auto|discriminate]. }
  rewrite (reg_pkg _ RP). cbn [bind]. pose proof (reg_sizes _ RP) as Z. destruct Z. destruct (reg_strat _ RP) as [SA SB].
  assert (EJ : exists j, (if onA (prvVariant k) then DeriveSecretA_l (prvParams k) ss (Scalar k) (affine3Pt pub) else DeriveSecretB_l (prvParams k) ss (Scalar k) (affine3Pt pub)) =
    Fp2ToBytes ss (FromMontgomery (pField (prvParams k)) j) (Bytelen (prvParams k))).
  { unfold longEnough, bitsOf in H. destruct (onA (prvVariant k)).
    - destruct (derA_ret (limbOps (prvParams k)) (limbDom (pA (prvParams k))) SA (Scalar k) (affine3Pt pub) H) as (j & E). exists j. unfold DeriveSecretA_l. rewrite E. reflexivity.
    - destruct (derB_ret (limbOps (prvParams k)) (limbDom (pB (prvParams k))) SB (Scalar k) (affine3Pt pub) H) as (j & E). exists j. unfold DeriveSecretB_l. rewrite E. reflexivity. }
  destruct EJ as (j & ->). set (f := FromMontgomery _ j). destruct (Z_lt_le_dec (Z.of_nat (length ss)) (SharedSecretSize (prvParams k))) as [L|L].
  - unfold Fp2ToBytes. replace (_ <? _) with true by (symmetry; apply Z.ltb_lt; lia). split; [split; auto|discriminate].
  - rewrite Fp2ToBytes_ret by lia. split.
    + split; [discriminate|]. intros [X|[X|X]]; [contradiction|contradiction|lia].
    + intros ss' X. apply Ret_inj in X. subst ss'. exists (fpToBytes (fst f) (Bytelen (prvParams k)) ++ fpToBytes (snd f) (Bytelen (prvParams k))).
      split; [apply bytes_app; apply fpToBytes_bytes|]. rewrite app_length, !fpToBytes_length. split; [lia|]. rewrite <- app_assoc. do 3 f_equal. lia.
Qed.
Print Assumptions C48_derive.
(* a scalar too short for the ladder panics too (Scalar is an exported field) *)
Theorem C48_short_scalar : forall k ss pub pub', registered (prvParams k) -> ~ longEnough k -> GeneratePublicKey k pub' = Panic /\ DeriveSecret k ss pub = Panic.
Proof.
  intros k ss pub pub' RP H. unfold longEnough, bitsOf in H. unfold GeneratePublicKey, DeriveSecret. rewrite (reg_pkg _ RP). cbn [bind].
  unfold PublicKeyGenA_l, PublicKeyGenB_l, DeriveSecretA_l, DeriveSecretB_l. split.
  - destruct (_ || _); [reflexivity|]. destruct (onA (prvVariant k)); [rewrite genA_short by (cbn [limbDom dBits]; lia)|rewrite genB_short by (cbn [limbDom dBits]; lia)]; reflexivity.
  - destruct (_ || _); [reflexivity|]. destruct (onA (prvVariant k)); [rewrite derA_short by (cbn [limbDom dBits]; lia)|rewrite derB_short by (cbn [limbDom dBits]; lia)]; reflexivity.
Qed.
Print Assumptions C48_short_scalar.
(* the pairs (private, public) of documented variants that DeriveSecret accepts: all six unequal ones, although SIKE and SIDH-B keys are on the same side *)
Theorem C48_accepted : forall k ss pub, shaped k -> pubParams pub = prvParams k -> SharedSecretSize (prvParams k) <= Z.of_nat (length ss) ->
  In (prvVariant k) [1; 2; 6] -> In (pubVariant pub) [1; 2; 6] ->
  ((exists s, DeriveSecret k ss pub = Ret s) <-> In (prvVariant k, pubVariant pub) [(1, 2); (1, 6); (2, 1); (2, 6); (6, 1); (6, 2)]).
Proof.
  intros k ss pub SH EP LS H1 H2. pose proof SH as (RP & _). destruct (C48_derive k ss pub RP (shaped_long k SH)) as [D _]. rewrite EP in D.
  assert (D' : (exists s, DeriveSecret k ss pub = Ret s) <-> pubVariant pub <> prvVariant k).
  { destruct (DeriveSecret k ss pub) as [s|].
    - split; [|intros; exists s; reflexivity]. intros _ X. assert (Y : Ret s = Panic) by (apply D; left; exact X). discriminate.
    - split; [intros (s & X); discriminate|]. intros X. exfalso. destruct (proj1 D eq_refl) as [Y|[Y|Y]]; [contradiction|congruence|lia]. }
  rewrite D'. cbn in H1, H2. destruct H1 as [<-|[<-|[<-|[]]]]; destruct H2 as [<-|[<-|[<-|[]]]]; cbn; split; intros X; try lia; try tauto;
  repeat (destruct X as [X|X]; [try discriminate X; try discriminate|]); try contradiction; discriminate.
Qed.
Print Assumptions C48_accepted.

(* ---------- C65: the whole exchange through the API ---------- *)
Definition freshPub (P : sidhParams) (v : Z) : pubKey := let z := zeroFp2 (pField P) in mkPub P v (z, z, z).
Lemma valid_hold : forall P u v t, valid2 (pField P) (primeOf P) u -> valid2 (pField P) (primeOf P) v -> valid2 (pField P) (primeOf P) t ->
  exists c, hold3 P (u, v, t) c /\ all6 (fun x => 0 <= x < primeOf P) c.
Proof.
  intros P u v t (a & b & A & B' & H) (a1 & b1' & A1 & B1 & H1) (a2 & b2' & A2 & B2 & H2). exists ((a, b), (a1, b1'), (a2, b2')).
  split; [exact (conj H (conj H1 H2))|]. unfold all6. cbn [fst snd]. tauto.
Qed.
(* export, send, import into a fresh key: the same coordinates *)
Lemma wire : forall P v v' x c, registered P -> hold3 P x c -> all6 (fun x => 0 <= x < primeOf P) c ->
  exists e k', pubExport (mkPub P v x) (repeat 0 (Z.to_nat (PublicKeySize P))) = Ret e /\ pubImport (freshPub P v') e = Ret (k', false) /\
    pubParams k' = P /\ pubVariant k' = v' /\ hold3 P (affine3Pt k') c.
Proof.
  intros P v v' x c RP H H6. pose proof (reg_sizes P RP) as Z. destruct Z.
  pose proof (export_val (mkPub P v x) c (repeat 0 (Z.to_nat (PublicKeySize P))) RP H) as E. cbn [pubParams] in E. rewrite repeat_length in E. specialize (E ltac:(lia)).
  rewrite (skipn_all2 (repeat _ _)), app_nil_r in E by (rewrite repeat_length; lia).
  assert (EL : lift3 (fun x => x mod primeOf P) c = c).
  { destruct c as [[[c0 c1] [c2 c3]] [c4 c5]]. unfold lift3, map3, all6 in *. cbn [fst snd] in *. destruct H6 as ((? & ?) & (? & ?) & (? & ?)). rewrite !Z.mod_small by assumption. reflexivity. }
  rewrite EL in E. set (bl := Z.to_nat (Bytelen P)) in *. destruct (fresh_raw P v' _ eq_refl) as [R V].
  assert (LE : Z.of_nat (length (enc3 bl c)) = PublicKeySize P) by (rewrite enc3_length; unfold bl; lia).
  assert (BE : bytes (enc3 bl c)).
  { destruct c as [[[c0 c1] [c2 c3]] [c4 c5]]. rewrite enc3_blocks. cbn [map concat]. repeat apply bytes_app; try apply le_enc_bytes. constructor. }
  destruct (C42_import_used (freshPub P v') (enc3 bl c) RP R BE LE) as (k' & A & C & D & F). cbn [freshPub pubParams pubVariant] in C, D.
  exists (enc3 bl c), k'. split; [exact E|]. split; [exact A|]. split; [exact C|]. split; [exact D|].
  fold (freshPub P v') in V. rewrite V, lor3_0 in F. unfold hasCoords in F. rewrite C in F. cbn [freshPub pubParams] in F. unfold coordsOf in F. fold bl in F.
  rewrite <- (app_nil_r (enc3 bl c)) in F. rewrite dec3_enc3 in F; [exact F|].
  assert (BD : primeOf P < 256 ^ Z.of_nat bl) by (unfold bl; rewrite Z2Nat.id by lia; assumption).
  destruct c as [[c0 c1] c2]. unfold all6 in *. destruct H6 as ((? & ?) & (? & ?) & (? & ?)). repeat split; lia.
Qed.
Lemma same_hold : forall P x y c, hold3 P x c -> hold3 P y c ->
  let '(x0, x1, x2) := x in let '(y0, y1, y2) := y in same2 (pField P) (primeOf P) x0 y0 /\ same2 (pField P) (primeOf P) x1 y1 /\ same2 (pField P) (primeOf P) x2 y2.
Proof.
  intros P [[x0 x1] x2] [[y0 y1] y2] [[c0 c1] c2] (X0 & X1 & X2) (Y0 & Y1 & Y2).
  split; [exists (fst c0), (snd c0); split; assumption|]. split; [exists (fst c1), (snd c1); split; assumption|exists (fst c2), (snd c2); split; assumption].
Qed.
Theorem C65_exchange : forall P a b va vb, registered P -> shaped a -> shaped b -> bytes (Scalar a) -> bytes (Scalar b) ->
  prvParams a = P -> prvParams b = P -> prvVariant a = va -> prvVariant b = vb -> onA va = true -> onA vb = false ->
  exists pa pb ea eb ia ib s,
    GeneratePublicKey a (freshPub P va) = Ret pa /\ GeneratePublicKey b (freshPub P vb) = Ret pb /\
    pubExport pa (repeat 0 (Z.to_nat (PublicKeySize P))) = Ret ea /\ pubExport pb (repeat 0 (Z.to_nat (PublicKeySize P))) = Ret eb /\
    pubImport (freshPub P va) ea = Ret (ia, false) /\ pubImport (freshPub P vb) eb = Ret (ib, false) /\
    Z.of_nat (length s) = SharedSecretSize P /\ bytes s /\
    (forall ss, SharedSecretSize P <= Z.of_nat (length ss) ->
      DeriveSecret a ss ib = Ret (s ++ skipn (length s) ss) /\ DeriveSecret b ss ia = Ret (s ++ skipn (length s) ss) /\
      DeriveSecret a ss pb = Ret (s ++ skipn (length s) ss) /\ DeriveSecret b ss pa = Ret (s ++ skipn (length s) ss)).
Proof.
  intros P [Pa va' ka sa] [Pb vb' kb sb] va vb RP SHa SHb Ba Bb EA EB VA VB OA OB. cbn [prvParams prvVariant Scalar] in *. subst Pa Pb va' vb'.
  pose proof (shaped_long _ SHa) as LA. pose proof (shaped_long _ SHb) as LB. unfold longEnough, bitsOf in LA, LB. cbn [prvParams prvVariant Scalar] in LA, LB. rewrite OA in LA. rewrite OB in LB.
  pose proof (reg_sizes P RP) as Z. destruct Z.
  assert (LA0 : 0 <= SecretBitLen (pA P)) by lia. assert (LB0 : 0 <= SecretBitLen (pB P)) by lia.
  destruct (sidh_set_agrees P (primeOf P) (reg_set P RP) ka kb (conj Ba (conj LA0 LA)) (conj Bb (conj LB0 LB)))
    as (uA & vA & tA & uB & vB & tB & s & GA & GB & (A1 & A2 & A3) & (B1 & B2 & B3) & BS & LS & DA & DB).
  destruct (valid_hold P uA vA tA A1 A2 A3) as (cA & HA & RA). destruct (valid_hold P uB vB tB B1 B2 B3) as (cB & HB & RB).
  destruct (wire P va va (uA, vA, tA) cA RP HA RA) as (ea & ia & E1 & E2 & E3 & E4 & E5).
  destruct (wire P vb vb (uB, vB, tB) cB RP HB RB) as (eb & ib & F1 & F2 & F3 & F4 & F5).
  assert (NV : (vb =? va) = false) by (apply Z.eqb_neq; intros X; subst; congruence).
  assert (NV' : (va =? vb) = false) by (apply Z.eqb_neq; intros X; subst; congruence).
  exists (mkPub P va (uA, vA, tA)), (mkPub P vb (uB, vB, tB)), ea, eb, ia, ib, s.
  split. { unfold GeneratePublicKey, freshPub. cbn [pubVariant prvVariant pubParams prvParams Scalar]. rewrite !Z.eqb_refl. cbn [negb orb]. rewrite (reg_pkg P RP). cbn [bind]. rewrite OA, GA. reflexivity. }
  split. { unfold GeneratePublicKey, freshPub. cbn [pubVariant prvVariant pubParams prvParams Scalar]. rewrite !Z.eqb_refl. cbn [negb orb]. rewrite (reg_pkg P RP). cbn [bind]. rewrite OB, GB. reflexivity. }
  split; [exact E1|]. split; [exact F1|]. split; [exact E2|]. split; [exact F2|]. split; [lia|]. split; [exact BS|].
  intros ss LSS. assert (LN : length s = Z.to_nat (2 * Bytelen P)) by lia. rewrite LN.
  assert (GD : forall k, pubParams k = P -> pubVariant k = vb -> hold3 P (affine3Pt k) cB -> DeriveSecret (mkPrv P va ka sa) ss k = Ret (s ++ skipn (Z.to_nat (2 * Bytelen P)) ss)).
  { intros [Pk vk [[x0 x1] x2]] K1 K2 K3. cbn [pubParams pubVariant affine3Pt] in *. subst Pk vk. unfold DeriveSecret. cbn [pubVariant prvVariant pubParams prvParams Scalar affine3Pt].
    rewrite NV, Z.eqb_refl. cbn [negb orb]. rewrite (reg_pkg P RP). cbn [bind]. rewrite OA. destruct (same_hold P _ _ _ HB K3) as (Q1 & Q2 & Q3). apply DA; try assumption. lia. }
  assert (GD' : forall k, pubParams k = P -> pubVariant k = va -> hold3 P (affine3Pt k) cA -> DeriveSecret (mkPrv P vb kb sb) ss k = Ret (s ++ skipn (Z.to_nat (2 * Bytelen P)) ss)).
  { intros [Pk vk [[x0 x1] x2]] K1 K2 K3. cbn [pubParams pubVariant affine3Pt] in *. subst Pk vk. unfold DeriveSecret. cbn [pubVariant prvVariant pubParams prvParams Scalar affine3Pt].
    rewrite NV', Z.eqb_refl. cbn [negb orb]. rewrite (reg_pkg P RP). cbn [bind]. rewrite OB. destruct (same_hold P _ _ _ HA K3) as (Q1 & Q2 & Q3). apply DB; try assumption. lia. }
  split; [apply GD; assumption|]. split; [apply GD'; assumption|]. split; [apply GD; try reflexivity; exact HB|apply GD'; try reflexivity; exact HA].
Qed.
Print Assumptions C65_exchange.
(* every key pair made by NewPrivateKey and Generate meets the hypotheses *)
Example ex_C65 : exists a b a' b' ra rb, NewPrivateKey [(Fp503, params503)] Fp503 KeyVariantSidhA = Ret a /\ NewPrivateKey [(Fp503, params503)] Fp503 KeyVariantSike = Ret b /\
  Generate a (repeat 200 32) = Ret (a', ra, false) /\ Generate b (repeat 99 60) = Ret (b', rb, false) /\
  shaped a' /\ shaped b' /\ bytes (Scalar a') /\ bytes (Scalar b') /\ onA (prvVariant a') = true /\ onA (prvVariant b') = false.
Proof.
  do 6 eexists. split; [reflexivity|]. split; [reflexivity|]. split; [vm_compute; reflexivity|]. split; [vm_compute; reflexivity|].
  split; [split; [right; left; reflexivity|split; reflexivity]|]. split; [split; [right; left; reflexivity|split; reflexivity]|].
  split; [cbn [Scalar]; repeat (apply Forall_cons; [unfold is_byte; lia|]); apply Forall_nil|].
  split; [cbn [Scalar]; repeat (apply Forall_cons; [unfold is_byte; lia|]); apply Forall_nil|]. split; reflexivity.
Qed.
