(* C87: the CSIDH based encryption in the amd64 build, over its machine code, does what the portable build does, whatever the CPU. *)
From Coq Require Import ZArith List Lia Bool.
From Verif Require Import Lib Sha3_Spec Sha3_Iface Sha3_Model Sha3_Client Sha3_Proofs Sha3_Proofs2 P_SHA3 SIKE_Proofs Sha3_Amd P_Sha3_Amd.
From Verif Require Import MP Instr CSIDH_Field CSIDH_FieldProofs CSIDH_FieldProofs2 P_CSIDH_Field CSIDH_Curve CSIDH_Model CSIDH_ApiProofs P_CSIDH
  CSIDH_CurveProofs CSIDH_ValidProofs P_CSIDH_Curve P_CSIDH_Zero CSIDH_AmdKern CSIDH_Amd P_CSIDH_Amd CPKE_Spec CPKE_Model CPKE_Proofs P_CPKE CPKE_Amd.
Import ListNotations.
Open Scope Z_scope.

Lemma zero_w64 : is_w64 0. Proof. split; reflexivity || discriminate. Qed.
Lemma new128_sane : sane NewShake128. Proof. apply new_sane. unfold is_byte. lia. Qed.
Lemma hashAt_sane g h prev : hashAt g h prev -> sane h.
Proof.
  destruct prev as [q|]; cbn [hashAt]; [|intros ->; apply new128_sane]. intros ([Hq _] & o & _ & ->).
  apply (ReadA_ok g 0 zero_w64). apply (WriteA_ok g 0 zero_w64); [apply new128_sane|exact Hq].
Qed.
Lemma hashSsA_ok M g h ss : is_w64 (aBP M) -> sane h -> bytes ss -> hashSsA M g h ss = Some (hashSs g h ss).
Proof.
  intros Hb Hh Hs. unfold hashSsA, hashSs. destruct (WriteA_ok g (aBP M) Hb h ss Hh Hs) as [E S]. rewrite E. cbn [ob]. destruct (Write g h ss) as [h1 n]. cbn [fst] in *. cbv zeta.
  rewrite (proj1 (ReadA_ok g (aBP M) Hb h1 (firstn 16 ss) S)). cbn [ob]. destruct (Read g h1 _) as [h2 o]. reflexivity.
Qed.

(* The hash on the machine is SHAKE128 of FIPS 202 *)
Theorem C87_hash : forall M g ss, is_w64 (aBP M) -> is64 ss -> exists h, hashSsA M g NewShake128 ss = Some (h, shake128 ss 16 ++ skipn 16 ss).
Proof.
  intros M g ss Hb Hs. destruct (hashSs_new g ss Hs) as (h & E & _). exists h. rewrite hashSsA_ok, E; [reflexivity|exact Hb|apply new128_sane|apply Hs].
Qed.
Print Assumptions C87_hash.
(* One recipient: on an object after any history, Enc and Dec end as in the portable build, with the same object, ciphertext, message and panics; no run is stuck *)
Theorem C87_enc : forall M g c pk pt, is_w64 (aBP M) -> pkeOk c -> fp_ok pk -> pkeEncA M g (Some c) pk pt = Some (pkeEnc g (Some c) pk pt).
Proof.
  intros M g c pk pt HM (Hb & HH) Hp. unfold pkeEncA, pkeEnc. destruct (generatePrivateKey (pRng c)) as [[err sk] r] eqn:EG. pose proof (genPriv_bytes _ _ _ _ Hb EG) as Hr.
  rewrite C79_secret by assumption. destruct (deriveSecret (repeat 0 64) pk sk r) as [[[ok ss] r1]|] eqn:ED; [|reflexivity]. cbn [ab].
  destruct (derive_ok _ _ _ _ _ _ _ Hp Hr zero64_ok ED) as (Hs & Hr1 & _). cbv zeta. rewrite (reset_shake128 _ HH). rewrite hashSsA_ok by (assumption || apply new128_sane || apply Hs). cbn [ob].
  destruct (hashSs g NewShake128 ss) as [h s1]. rewrite C79_public_key by assumption. destruct (generatePublicKey sk r1) as [[a r2]|]; reflexivity.
Qed.
Print Assumptions C87_enc.
Theorem C87_dec : forall M g c sk U V, is_w64 (aBP M) -> pkeOk c -> is64 U -> pkeDecA M g (Some c) sk U V = Some (pkeDec g (Some c) sk U V).
Proof.
  intros M g c sk U V HM (Hb & HH) HU. unfold pkeDecA, pkeDec. cbv zeta. destruct (import_decode U HU) as [EI HI]. rewrite EI. cbn [snd].
  rewrite C79_secret by assumption. destruct (deriveSecret (repeat 0 64) (decodePub U) sk (pRng c)) as [[[ok ss] r1]|] eqn:ED; [|reflexivity]. cbn [ab].
  destruct (derive_ok _ _ _ _ _ _ _ HI Hb zero64_ok ED) as (Hs & Hr1 & _). rewrite (reset_shake128 _ HH). rewrite hashSsA_ok by (assumption || apply new128_sane || apply Hs). cbn [ob].
  destruct (hashSs g NewShake128 ss) as [h s1]. reflexivity.
Qed.
Print Assumptions C87_dec.

Lemma loopA_ok M g : is_w64 (aBP M) -> forall keys h ss sk r pt prev cts i, hashAt g h prev -> is64 ss -> bytes r -> Forall fp_ok keys ->
  encryptLoopA M g h ss sk r pt cts i keys = Some (encryptLoop g h ss sk r pt cts i keys) /\ (forall h' r' cts', encryptLoop g h ss sk r pt cts i keys = Ret (h', r', cts') -> bytes r').
Proof.
  intro HM. induction keys as [|pk keys IH]; intros h ss sk r pt prev cts i HH Hs Hr Hk; cbn [encryptLoopA encryptLoop]; [split; [reflexivity|intros h' r' cts' X; injection X as _ <- _; exact Hr]|].
  inversion Hk as [|? ? Hp Hk']; subst. rewrite C79_secret by assumption. destruct (deriveSecret ss pk sk r) as [[[ok s1] r1]|] eqn:ED; [|split; [reflexivity|discriminate]]. cbn [ab].
  destruct (derive_ok _ _ _ _ _ _ _ Hp Hr Hs ED) as (Hs1 & Hr1 & _). rewrite hashSsA_ok by (assumption || apply (hashAt_sane g h prev HH) || apply Hs1). cbn [ob].
  assert (X : exists h1 m, hashSs g h s1 = (h1, m ++ skipn 16 s1) /\ isShake128 h1 /\ bytes m /\ length m = 16%nat).
  { destruct prev as [q|].
    - destruct (hashSs_stale g h q s1 HH Hs1) as (h1 & E & S). exists h1, (H128next q). split; [exact E|]. split; [exact S|]. split; [apply Forall_skipn, shake128_bytes|]. apply H128next_length, HH.
    - cbn [hashAt] in HH. subst h. destruct (hashSs_new g s1 Hs1) as (h1 & E & S). exists h1, (H128 s1). split; [exact E|]. split; [exact (hashAt_shake _ _ _ S)|]. split; [apply shake128_bytes|apply H128_length, Hs1]. }
  destruct X as (h1 & m & EH & S1 & Bm & Lm). rewrite EH. cbv zeta. rewrite (reset_shake128 _ S1). destruct (nth_error cts i) as [ct|]; [|split; [reflexivity|discriminate]].
  apply (IH NewShake128 _ sk r1 pt None); [reflexivity|apply is64_mix; assumption|exact Hr1|exact Hk'].
Qed.
(* Many recipients.  The hash object is as Allocate, Encrypt (clean), or Enc and Dec (stale) leave it. *)
Theorem C87_encrypt : forall M g c keys pt, is_w64 (aBP M) -> clean c \/ (exists q, stale g c q) -> Forall fp_ok keys ->
  mpkeEncryptA M g (Some c) keys pt = Some (mpkeEncrypt g (Some c) keys pt).
Proof.
  intros M g c keys pt HM HC Hk. assert (X : exists prev, hashAt g (pH (mP c)) prev /\ bytes (pRng (mP c))).
  { destruct HC as [(H1 & _ & H2)|(q & H1 & _ & H2)]; [exists None|exists (Some q)]; split; assumption. }
  destruct X as (prev & HH & Hb). unfold mpkeEncryptA, mpkeEncrypt. destruct (generatePrivateKey (pRng (mP c))) as [[err sk] r] eqn:EG. pose proof (genPriv_bytes _ _ _ _ Hb EG) as Hr.
  destruct (loopA_ok M g HM keys (pH (mP c)) (repeat 0 64) sk r pt prev (mCts c) 0%nat HH zero64_ok Hr Hk) as [E S]. rewrite E. destruct (encryptLoop _ _ _ _ _ _ _ _ _) as [[[h' r'] cts']|] eqn:EL; [|reflexivity]. cbn [ab].
  rewrite C79_public_key by (exact HM || exact (S h' r' cts' eq_refl)). destruct (generatePublicKey sk r') as [[a r2]|]; reflexivity.
Qed.
Print Assumptions C87_encrypt.

Lemma abs_pke g c x : absAt g c x -> pkeOk (mP c).
Proof. intros (E & Hb & HH & _). split; [rewrite E; exact Hb|exact (hashAt_shake _ _ _ HH)]. Qed.
Lemma abs_state g c x : absAt g c x -> clean c \/ exists q, stale g c q.
Proof. intros (E & Hb & HH & _ & L & _). destruct (xPrev x) as [q|] eqn:EP; [right; exists q|left]; (split; [rewrite E; exact Hb|]); (split; [exact L|]); exact HH. Qed.
Lemma historyA_from M g : is_w64 (aBP M) -> forall ops c x, absAt g c x -> Forall opOk ops -> mpkeRunA M g c ops = Some (idealRun x ops).
Proof.
  intro HM. induction ops as [|o ops IH]; intros c x HA HO; [reflexivity|]. inversion HO as [|? ? Ho HO']; subst.
  destruct o as [pk pt|sk U V|keys pt]; cbn [mpkeRunA idealRun]; cbn [opOk] in Ho.
  - rewrite (C87_enc M g (mP c) pk pt HM (abs_pke g c x HA) (proj1 Ho)). cbn [ob]. pose proof (enc_ideal g c x pk pt HA (proj1 Ho) (proj2 Ho)) as X. unfold mpkeEnc in X.
    destruct (idealEnc x pk pt) as [[x' [U V]]|]; destruct (pkeEnc g (Some (mP c)) pk pt) as [[q [U1 V1]]|]; try discriminate X; [| |reflexivity].
    + destruct X as (c' & E & HA'). injection E as <- <- <-. rewrite (IH _ x' HA' HO'). reflexivity.
    + destruct X as (c' & E & _). discriminate E.
  - rewrite (C87_dec M g (mP c) sk U V HM (abs_pke g c x HA) (proj1 (proj2 Ho))). cbn [ob]. pose proof (dec_ideal g c x sk U V HA (proj1 (proj2 Ho)) (proj2 (proj2 Ho))) as X. unfold mpkeDec in X.
    destruct (idealDec x sk U V) as [[x' m]|]; destruct (pkeDec g (Some (mP c)) sk U V) as [[q m1]|]; try discriminate X; [| |reflexivity].
    + destruct X as (c' & E & HA'). injection E as <- <-. rewrite (IH _ x' HA' HO'). reflexivity.
    + destruct X as (c' & E & _). discriminate E.
  - rewrite (C87_encrypt M g c keys pt HM (abs_state g c x HA) (proj1 Ho)). cbn [ob]. pose proof (encrypt_ideal g c x keys pt HA (proj1 Ho) (proj2 Ho)) as X.
    destruct (idealEncrypt x keys pt) as [x'|]; [|rewrite X; reflexivity]. destruct X as (c' & E & HA'). rewrite E, (IH c' x' HA' HO'). cbn [ob]. destruct HA' as (_ & _ & _ & E0 & _ & EC). rewrite E0, EC. reflexivity.
Qed.
(* Any sequence of calls on one object: the machine shows what the specification of C58 shows (with the stale hash state it describes) and what the portable build shows *)
Theorem C87_history : forall M g n rng ct0 ops, is_w64 (aBP M) -> bytes rng -> length ct0 = 64%nat -> Forall opOk ops ->
  mpkeRunA M g (mpkeAllocate n rng ct0) ops = Some (idealRun (mkIdeal rng None ct0 (repeat (repeat 0 64) (Z.to_nat n))) ops) /\
  mpkeRunA M g (mpkeAllocate n rng ct0) ops = Some (mpkeRun g (mpkeAllocate n rng ct0) ops).
Proof.
  intros M g n rng ct0 ops HM Hb L0 HO. rewrite (C58_history g n rng ct0 ops Hb L0 HO).
  assert (HA : absAt g (mpkeAllocate n rng ct0) (mkIdeal rng None ct0 (repeat (repeat 0 64) (Z.to_nat n)))) by exact (conj eq_refl (conj Hb (conj eq_refl (conj eq_refl (conj L0 eq_refl))))).
  split; exact (historyA_from M g HM ops _ _ HA HO).
Qed.
Print Assumptions C87_history.

(* a case meeting the hypotheses: Enc, then Encrypt on the same object, whose entry shows the stale hash, also on the machine *)
Example ex_C87 : forall M, is_w64 (aBP M) -> mpkeRunA M true (mpkeAllocate 1 (ex_seed ++ ex_seed) (repeat 0 64)) ex_ops =
  Some [SCt ex_U (xor_list ex_pt (shake128 (repeat 0 64) 16) ++ repeat 0 48); SMulti ex_U [xor_list ex_pt (skipn 16 (shake128 (repeat 0 64) 32)) ++ repeat 0 48]].
Proof.
  intros M HM. destruct (C87_history M true 1 (ex_seed ++ ex_seed) (repeat 0 64) ex_ops HM (bytes_app _ _ ex_seed_bytes ex_seed_bytes) (repeat_length _ _) ex_ops_ok) as [_ E]. rewrite E, ex_run. reflexivity.
Qed.
