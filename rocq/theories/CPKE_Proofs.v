(* CSIDH PKE: the model behaves as the ideal objects of CPKE_Spec. *)
From Coq Require Import ZArith List Lia Bool.
From Verif Require Import Lib Sha3_Spec Sha3_Iface Sha3_Model Sha3_Client Sha3_Proofs Sha3_Proofs2 P_SHA3 SIKE_Proofs.
From Verif Require Import MP Instr CSIDH_Field CSIDH_FieldProofs CSIDH_FieldProofs2 P_CSIDH_Field CSIDH_Curve CSIDH_Model CSIDH_ApiProofs P_CSIDH CSIDH_CurveProofs CSIDH_ValidProofs P_CSIDH_Curve CPKE_Spec CPKE_Model.
Import ListNotations.
Open Scope Z_scope.

(* ---------- SHAKE128 ---------- *)
Lemma shake128_bytes : forall M d, bytes (shake128 M d).
Proof. intros. unfold shake128, sponge. apply Forall_firstn, squeeze_bytes, absorb_bytes. Qed.
Lemma shake128_length : forall M n, bytes M -> length (shake128 M n) = n.
Proof.
  intros M n H. destruct (C06_shake_stream true [M] [repeat 0 n] ltac:(constructor; [exact H|constructor])) as (A & L & _).
  apply (f_equal (@length Z)) in A. cbn [concat] in A. rewrite !app_nil_r in A. rewrite repeat_length in A.
  rewrite <- A. rewrite <- (app_nil_r (concat _)). clear A.
  destruct (reads true (writes true NewShake128 [M]) [repeat 0 n]) as [|r [|? ?]]; try discriminate L. cbn [concat map] in *.
  injection L as L. rewrite !app_nil_r, L. apply repeat_length.
Qed.
Definition isShake128 (s : state) : Prop := rate s = 168%nat /\ size s = 0%nat /\ sfx s = 0x1f.
Lemma isShake128_new : isShake128 NewShake128.
Proof. split; [reflexivity|split; reflexivity]. Qed.
Lemma reset_shake128 : forall s, isShake128 s -> Reset s = NewShake128.
Proof. intros s (A & B' & C). unfold Reset. rewrite A, B', C. reflexivity. Qed.
Lemma write_shake128 : forall g s p, isShake128 s -> isShake128 (fst (Write g s p)).
Proof.
  intros g s p (A & B' & C). unfold Write. destruct (isSquezing s); [exact (conj A (conj B' C))|]. destruct (_ <? _)%nat; [exact (conj A (conj B' C))|].
  destruct (write_loop _ _ _ _ _). exact (conj A (conj B' C)).
Qed.
Lemma read_shake128 : forall g s o, isShake128 s -> isShake128 (fst (Read g s o)).
Proof.
  intros g s o H. unfold Read. set (c := if isSquezing s then s else finalize_sha3 g s).
  assert (isShake128 c) as (A & B' & C) by (unfold c; destruct (isSquezing s); exact H).
  destruct (_ =? 0)%nat; [exact (conj A (conj B' C))|]. destruct (read_loop _ _ _ _ _) as [[? ?] ?]. exact (conj A (conj B' C)).
Qed.
Lemma read_squeezing : forall g s o, isSquezing (fst (Read g s o)) = true.
Proof. intros. unfold Read. destruct (_ =? 0)%nat; [reflexivity|]. destruct (read_loop _ _ _ _ _) as [[? ?] ?]. reflexivity. Qed.

(* the hash object: reset, or used by Enc or Dec for the secret ss *)
Definition hashAt (g : bool) (h : state) (prev : option (list Z)) : Prop :=
  match prev with
  | None => h = NewShake128
  | Some q => is64 q /\ exists o, length o = 16%nat /\ h = fst (Read g (fst (Write g NewShake128 q)) o)
  end.
Lemma hashAt_shake : forall g h prev, hashAt g h prev -> isShake128 h.
Proof.
  intros g h [q|] H; [destruct H as (_ & o & _ & ->); apply read_shake128, write_shake128, isShake128_new|]. cbn [hashAt] in H. subst h. apply isShake128_new.
Qed.
Lemma hashSs_new : forall g ss, is64 ss -> exists h, hashSs g NewShake128 ss = (h, H128 ss ++ skipn 16 ss) /\ hashAt g h (Some ss).
Proof.
  intros g ss [Hb L]. unfold hashSs. destruct (C06_shake_stream g [ss] [firstn 16 ss] ltac:(constructor; [exact Hb|constructor])) as (A & _).
  unfold writes in A. cbn [fold_left reads] in A. destruct (Read g (fst (Write g NewShake128 ss)) (firstn 16 ss)) as [h o] eqn:E.
  cbn [concat] in A. rewrite !app_nil_r in A. rewrite firstn_length_le in A by lia. exists h. rewrite A. split; [reflexivity|].
  split; [exact (conj Hb L)|]. exists (firstn 16 ss). split; [apply firstn_length_le; lia|]. rewrite E. reflexivity.
Qed.
Lemma hashSs_stale : forall g h q ss, hashAt g h (Some q) -> is64 ss -> exists h', hashSs g h ss = (h', H128next q ++ skipn 16 ss) /\ isShake128 h'.
Proof.
  intros g h q ss ([Hq Lq] & o & Lo & ->) [Hb L]. unfold hashSs. set (w := fst (Write g NewShake128 q)).
  assert (E : fst (Write g (fst (Read g w o)) ss) = fst (Read g w o)) by (unfold Write; rewrite read_squeezing; reflexivity). rewrite E.
  pose proof (read_shake128 g _ (firstn 16 ss) (read_shake128 g w o (write_shake128 g _ q isShake128_new))) as S.
  destruct (C06_shake_stream g [q] [o; firstn 16 ss] ltac:(constructor; [exact Hq|constructor])) as (A & B' & _).
  unfold writes in A, B'. cbn [fold_left reads] in A, B'. fold w in A, B'.
  destruct (Read g w o) as [h1 o1]. cbn [fst] in *. destruct (Read g h1 (firstn 16 ss)) as [h2 o2]. cbn [fst concat map] in *.
  rewrite !app_nil_r, app_length, Lo, firstn_length_le in A by lia. change (16 + 16)%nat with 32%nat in A. injection B' as B1 B2.
  exists h2. split; [|exact S]. unfold H128next. rewrite <- A, skipn_prefix by lia. reflexivity.
Qed.

(* ---------- the CSIDH calls ---------- *)
Lemma zero64_ok : is64 zero64.
Proof. split; [apply Forall_repeat; unfold is_byte; lia|apply repeat_length]. Qed.
Lemma gaLoop_bytes : forall fuel st rng st' rest, bytes rng ->
  gaLoop fpOps fpZero one four isZero isNonQuadRes (fun x => x) fuel st rng = Some (st', rest) -> bytes rest.
Proof.
  induction fuel as [|fuel IH]; intros st rng st' rest Hb H; [discriminate|]. cbn [gaLoop] in H.
  destruct (randFp rng) as [[x rng']|] eqn:ER; [|discriminate]. destruct (randFp_red _ _ _ Hb ER) as [Fx Hb'].
  destruct (gDone fpOps st _); [exact (IH _ _ _ _ Hb' H)|].
  match type of H with (if ?c then _ else _) = _ => destruct c end; [injection H as _ <-; exact Hb'|exact (IH _ _ _ _ Hb' H)].
Qed.
Lemma groupAction_bytes : forall a e rng s rest, bytes rng -> groupActionFp a e rng = Some (s, rest) -> bytes rest.
Proof.
  intros a e rng s rest Hb H. unfold groupActionFp, groupAction in H.
  destruct (groupAction_st fpOps fpZero one four isZero isNonQuadRes (fun x => x) a e rng) as [[st r]|] eqn:G; [|discriminate].
  injection H as <- <-. exact (gaLoop_bytes _ _ _ _ _ Hb G).
Qed.
Lemma genPriv_bytes : forall rng err e rest, bytes rng -> generatePrivateKey rng = (err, e, rest) -> bytes rest.
Proof.
  intros rng err e rest. unfold generatePrivateKey. generalize (S (S (length rng))), 0%nat, (repeat 0 PrivateKeySize). intros n. revert rng.
  induction n as [|n IH]; intros rng i e0 Hb H; cbn [genLoop] in H; [injection H as _ _ <-; exact Hb|].
  destruct (_ <? _)%nat; [|injection H as _ _ <-; exact Hb]. unfold readFull64 in H. destruct (_ <? _)%nat; [injection H as _ _ <-; constructor|].
  destruct (genBuf _ _ _) as [i' e']. apply (IH _ _ _ ltac:(apply Forall_skipn, Hb) H).
Qed.
Lemma derive_ok : forall out a e rng ok ss rest, fp_ok a -> bytes rng -> is64 out -> deriveSecret out a e rng = Ret (ok, ss, rest) ->
  is64 ss /\ bytes rest /\ (ok = false -> ss = out).
Proof.
  intros out a e rng ok ss rest Ha Hb [Ho Lo] H. destruct ok.
  - destruct (C63_secret _ _ _ _ _ _ Ha Hb Lo H) as (L & B1 & _). split; [exact (conj B1 L)|]. split; [|discriminate].
    unfold deriveSecret in H. destruct (validate a rng) as [[v r]|] eqn:V; [|discriminate]. destruct v; [|discriminate].
    destruct (groupActionFp a e r) as [[s r']|] eqn:G; [|discriminate]. injection H as _ <-.
    apply (groupAction_bytes _ _ _ _ _) in G; [exact G|]. unfold validate in V. destruct (negb (isLess a p)); [discriminate|]. destruct (orb _ _); [discriminate|].
    destruct (validLoopFp (S (length rng)) a rng) as [[ok' r0]|] eqn:VL; [|discriminate]. injection V as -> ->.
    exact (validLoop_bytes _ _ _ _ _ Hb VL).
  - pose proof (C35_derive out a e rng) as D. rewrite H in D. destruct D as [-> V]. split; [exact (conj Ho Lo)|]. split; [|reflexivity].
    unfold validate in V. destruct (negb (isLess a p)); [injection V as <-; exact Hb|]. destruct (orb _ _); [injection V as <-; exact Hb|].
    destruct (validLoopFp (S (length rng)) a rng) as [[ok' r0]|] eqn:VL; [|discriminate]. injection V as -> ->.
    exact (validLoop_bytes _ _ _ _ _ Hb VL).
Qed.
Lemma genPub_ok : forall e rng a rest, bytes rng -> generatePublicKey e rng = Ret (a, rest) ->
  fp_red a /\ bytes rest /\ forall out, length out = 64%nat -> pubExport a out = (true, encodePub a).
Proof.
  intros e rng a rest Hb H. destruct (C63_public_key e rng a rest (repeat 0 64) Hb (repeat_length _ _) H) as (R & _).
  split; [exact R|]. split.
  - unfold generatePublicKey in H. destruct (groupActionFp (repeat 0 numWords) e rng) as [[s r]|] eqn:G; [|discriminate]. injection H as <- <-.
    exact (groupAction_bytes _ _ _ _ _ Hb G).
  - intros out Lo. exact (proj2 (C33_export a out (proj1 R)) Lo).
Qed.
Lemma import_decode : forall U, is64 U -> pubImport (repeat 0 8) U = (true, decodePub U) /\ fp_ok (decodePub U).
Proof.
  intros U [Hb L]. destruct (C33_import_or (repeat 0 8) U fp_zero_ok Hb) as [_ I]. destruct (I L) as (a & E & [Wa La] & V). rewrite E.
  rewrite val_repeat_0, Z.lor_0_l in V. assert (D : decodePub U = a).
  { unfold decodePub. rewrite <- V, <- La. apply limbs_of_val. exact Wa. }
  rewrite D. split; [reflexivity|exact (conj Wa La)].
Qed.
Lemma decode_encode : forall a, fp_ok a -> decodePub (encodePub a) = a.
Proof.
  intros a H. pose proof (C33_roundtrip_key a (repeat 0 64) H (repeat_length _ _)) as R. rewrite (proj2 (C33_export a _ H) (repeat_length _ _)) in R.
  cbn [snd] in R. destruct (import_decode (encodePub a)) as [I _].
  - split; [apply le_enc_bytes|apply le_enc_length].
  - unfold encodePub in *. rewrite R in I. injection I as I. symmetry. exact I.
Qed.

(* ---------- xor ---------- *)
Lemma map_nth_xor : forall x y, length x = length y -> map (fun i => Z.lxor (nth i x 0) (nth i y 0)) (seq 0 (length x)) = xor_list x y.
Proof.
  intros x. induction x as [|u x IH]; intros [|v y] L; try discriminate L; [reflexivity|]. cbn [length seq map xor_list nth]. f_equal.
  rewrite <- seq_shift, map_map. apply IH. injection L as L. exact L.
Qed.
Lemma xor16_ok : forall dst x m t, (16 <= length x)%nat -> length m = 16%nat -> xor16 dst x (m ++ t) = xor_list (firstn 16 x) m ++ skipn 16 dst.
Proof.
  intros dst x m t Lx Lm. unfold xor16. f_equal. rewrite <- (map_nth_xor (firstn 16 x) m) by (rewrite firstn_length_le; lia).
  rewrite firstn_length_le by lia. apply map_ext_in. intros i Hi. apply in_seq in Hi. f_equal.
  - rewrite <- (firstn_skipn 16 x) at 1. rewrite app_nth1 by (rewrite firstn_length_le; lia). reflexivity.
  - rewrite app_nth1 by lia. reflexivity.
Qed.
Lemma xor_cancel : forall m k, length k = length m -> xor_list (xor_list m k) k = m.
Proof.
  induction m as [|x m IH]; intros [|y k] L; try discriminate L; [reflexivity|]. cbn [xor_list]. rewrite Z.lxor_assoc, Z.lxor_nilpotent, Z.lxor_0_r. f_equal. apply IH. injection L as L. exact L.
Qed.
Lemma H128_length : forall q, is64 q -> length (H128 q) = 16%nat.
Proof. intros q [H _]. apply shake128_length, H. Qed.
Lemma H128next_length : forall q, is64 q -> length (H128next q) = 16%nat.
Proof. intros q [H _]. unfold H128next. rewrite skipn_length, shake128_length by exact H. reflexivity. Qed.

(* ---------- refinement ---------- *)
Definition absAt (g : bool) (c : mpke) (x : ideal) : Prop :=
  pRng (mP c) = xRng x /\ bytes (xRng x) /\ hashAt g (pH (mP c)) (xPrev x) /\ mCt0 c = xCt0 x /\ length (mCt0 c) = 64%nat /\ mCts c = xCts x.
Lemma enc_ideal : forall g c x pk pt, absAt g c x -> fp_ok pk -> isMsg pt ->
  match idealEnc x pk pt with
  | Panic => mpkeEnc g c pk pt = Panic
  | Ret (x', ct) => exists c', mpkeEnc g c pk pt = Ret (c', ct) /\ absAt g c' x'
  end.
Proof.
  intros g c x pk pt (ER & Hb & HH & E0 & L0 & EC) Hp [Hm Lm]. unfold idealEnc, mpkeEnc, pkeEnc. rewrite ER.
  destruct (generatePrivateKey (xRng x)) as [[err sk] r] eqn:EG. pose proof (genPriv_bytes _ _ _ _ Hb EG) as Hr. fold zero64.
  destruct (deriveSecret zero64 pk sk r) as [[[ok ss] r1]|] eqn:ED; [|reflexivity].
  destruct (derive_ok _ _ _ _ _ _ _ Hp Hr zero64_ok ED) as (Hs & Hr1 & _).
  rewrite (reset_shake128 _ (hashAt_shake _ _ _ HH)). destruct (hashSs_new g ss Hs) as (h & EH & HA). rewrite EH.
  destruct (generatePublicKey sk r1) as [[a r2]|] eqn:EP; [|reflexivity].
  destruct (genPub_ok _ _ _ _ Hr1 EP) as (_ & Hr2 & X). rewrite (X zero64 (repeat_length _ _)). cbn [snd].
  unfold zero64. rewrite xor16_ok by (try apply H128_length; try exact Hs; lia). rewrite (firstn_all2 pt) by lia.
  eexists. split; [reflexivity|]. cbn [absAt mP pRng pH mCt0 mCts xRng xPrev xCt0 xCts]. exact (conj eq_refl (conj Hr2 (conj HA (conj E0 (conj L0 EC))))).
Qed.
Lemma dec_ideal : forall g c x sk U V, absAt g c x -> is64 U -> is64 V ->
  match idealDec x sk U V with
  | Panic => mpkeDec g c sk U V = Panic
  | Ret (x', m) => exists c', mpkeDec g c sk U V = Ret (c', m) /\ absAt g c' x'
  end.
Proof.
  intros g c x sk U V (ER & Hb & HH & E0 & L0 & EC) HU [HV LV]. unfold idealDec, mpkeDec, pkeDec. rewrite ER. destruct (import_decode U HU) as [EI HI].
  rewrite EI. cbn [snd]. fold zero64. destruct (deriveSecret zero64 (decodePub U) sk (xRng x)) as [[[ok ss] r1]|] eqn:ED; [|reflexivity].
  destruct (derive_ok _ _ _ _ _ _ _ HI Hb zero64_ok ED) as (Hs & Hr1 & _).
  rewrite (reset_shake128 _ (hashAt_shake _ _ _ HH)). destruct (hashSs_new g ss Hs) as (h & EH & HA). rewrite EH.
  rewrite xor16_ok by (try apply H128_length; try exact Hs; lia). change (skipn 16 (repeat 0 16)) with (@nil Z). rewrite app_nil_r.
  eexists. split; [reflexivity|]. exact (conj eq_refl (conj Hr1 (conj HA (conj E0 (conj L0 EC))))).
Qed.
Lemma is64_mix : forall m ss, bytes m -> length m = 16%nat -> is64 ss -> is64 (m ++ skipn 16 ss).
Proof.
  intros m ss Hm Lm [Hs Ls]. split; [apply bytes_app; [exact Hm|apply Forall_skipn, Hs]|]. rewrite app_length, skipn_length. lia.
Qed.
Lemma loop_ideal : forall g keys h ss sk r pt prev done cts, hashAt g h prev -> is64 ss -> bytes r -> isMsg pt -> Forall fp_ok keys ->
  match idealEntries ss sk r pt prev cts keys with
  | Panic => encryptLoop g h ss sk r pt (done ++ cts) (length done) keys = Panic
  | Ret (r', cts') => bytes r' /\ exists h', encryptLoop g h ss sk r pt (done ++ cts) (length done) keys = Ret (h', r', done ++ cts') /\
      hashAt g h' (match keys with [] => prev | _ => None end)
  end.
Proof.
  intros g. induction keys as [|pk keys IH]; intros h ss sk r pt prev done cts HH Hs Hr Hm Hk; cbn [idealEntries encryptLoop].
  - split; [exact Hr|]. exists h. split; [reflexivity|exact HH].
  - inversion Hk as [|? ? Hp Hk']; subst. destruct (deriveSecret ss pk sk r) as [[[ok s1] r1]|] eqn:ED; [|reflexivity].
    destruct (derive_ok _ _ _ _ _ _ _ Hp Hr Hs ED) as (Hs1 & Hr1 & _).
    set (mask := match prev with None => H128 s1 | Some q => H128next q end).
    assert (X : exists h1, hashSs g h s1 = (h1, mask ++ skipn 16 s1) /\ isShake128 h1 /\ bytes mask /\ length mask = 16%nat).
    { destruct prev as [q|].
      - destruct (hashSs_stale g h q s1 HH Hs1) as (h1 & E & S). exists h1. split; [exact E|]. split; [exact S|]. split; [apply Forall_skipn, shake128_bytes|]. apply H128next_length, HH.
      - cbn [hashAt] in HH. subst h. destruct (hashSs_new g s1 Hs1) as (h1 & E & S). exists h1. split; [exact E|]. split; [exact (hashAt_shake _ _ _ S)|]. split; [apply shake128_bytes|apply H128_length, Hs1]. }
    destruct X as (h1 & EH & S1 & Hmk & Lmk). rewrite EH, (reset_shake128 _ S1). clearbody mask.
    destruct cts as [|ct cts].
    + rewrite app_nil_r. replace (nth_error done (length done)) with (@None (list Z)); [reflexivity|]. symmetry. apply nth_error_None. lia.
    + rewrite nth_error_app2 by lia. rewrite Nat.sub_diag. cbn [nth_error].
      rewrite xor16_ok by (try exact Lmk; destruct Hm; lia). rewrite (firstn_all2 pt) by (destruct Hm; lia).
      rewrite firstn_app, firstn_all, Nat.sub_diag, firstn_O, app_nil_r.
      rewrite skipn_app, (skipn_all2 done) by lia. replace (S (length done) - length done)%nat with 1%nat by lia. change (skipn 1 (ct :: cts)) with cts. rewrite app_nil_l.
      set (e := xor_list pt mask ++ skipn 16 ct).
      specialize (IH NewShake128 (mask ++ skipn 16 s1) sk r1 pt None (done ++ [e]) cts eq_refl (is64_mix _ _ Hmk Lmk Hs1) Hr1 Hm Hk').
      rewrite app_length in IH. cbn [length] in IH. replace (length done + 1)%nat with (S (length done)) in IH by lia.
      rewrite <- !app_assoc in IH. cbn [app] in IH.
      destruct (idealEntries (mask ++ skipn 16 s1) sk r1 pt None cts keys) as [[r' cts']|]; [|exact IH].
      destruct IH as (Hr' & h' & E & HA). split; [exact Hr'|]. exists h'. rewrite E, <- app_assoc. split; [reflexivity|]. destruct keys; exact HA.
Qed.
Lemma encrypt_ideal : forall g c x keys pt, absAt g c x -> Forall fp_ok keys -> isMsg pt ->
  match idealEncrypt x keys pt with
  | Panic => mpkeEncrypt g (Some c) keys pt = Panic
  | Ret x' => exists c', mpkeEncrypt g (Some c) keys pt = Ret c' /\ absAt g c' x'
  end.
Proof.
  intros g c x keys pt (ER & Hb & HH & E0 & L0 & EC) Hk Hm. unfold idealEncrypt, mpkeEncrypt. rewrite ER.
  destruct (generatePrivateKey (xRng x)) as [[err sk] r] eqn:EG. pose proof (genPriv_bytes _ _ _ _ Hb EG) as Hr. fold zero64.
  pose proof (loop_ideal g keys (pH (mP c)) zero64 sk r pt (xPrev x) [] (xCts x) HH zero64_ok Hr Hm Hk) as L. cbn [app length] in L. rewrite EC.
  destruct (idealEntries zero64 sk r pt (xPrev x) (xCts x) keys) as [[r1 cts]|]; [|rewrite L; reflexivity].
  destruct L as (Hr1 & h & E & HA). rewrite E. destruct (generatePublicKey sk r1) as [[a r2]|] eqn:EP; [|reflexivity].
  destruct (genPub_ok _ _ _ _ Hr1 EP) as (_ & Hr2 & X). rewrite (X (mCt0 c) L0). cbn [snd]. eexists. split; [reflexivity|].
  unfold absAt. cbn [mP pRng pH mCt0 mCts xRng xPrev xCt0 xCts]. split; [reflexivity|]. split; [exact Hr2|]. split; [exact HA|]. split; [reflexivity|]. split; [apply le_enc_length|reflexivity].
Qed.
