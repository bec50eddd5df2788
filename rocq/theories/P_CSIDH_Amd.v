(* C79: dh/csidh in the amd64 build, over its machine code, computes what the portable build computes, whatever the CPU. *)
From Coq Require Import ZArith List Lia Bool.
From Verif Require Import Lib MP NT P_CSIDH_Field FieldAlg MontCurve Instr CSIDH_Field CSIDH_FieldProofs CSIDH_FieldProofs2 CSIDH_Curve CSIDH_Model CSIDH_ApiProofs CSIDH_GaProofs
  CSIDH_CurveProofs CSIDH_ValidProofs CSIDH_AmdKern CSIDH_AmdProofs CSIDH_Amd CSIDH_AmdProofs2 P_CSIDH_Curve P_CSIDH_Zero.
Import ListNotations.
Open Scope Z_scope.

(* a product written to variable d from variables a and b, any of them the same *)
Theorem C79_product : forall M d a b (m : nat -> list Z), is_w64 (aBP M) -> fp_ok (m d) -> fp_red (m a) -> fp_red (m b) ->
  exists r, mulRdcA M d a b m = Some r /\ fp_red r /\ (val r * 2 ^ 512) mod P = (val (m a) * val (m b)) mod P.
Proof.
  intros M d a b m HM Hd Ha Hb. exists (mulRdc (m a) (m b)).
  split; [apply (mulRdcA_ok M HM d a b m Hd (proj1 Ha) (proj1 Hb)); destruct Hb; lia|].
  exact (mulRdc_spec (m a) (m b) (proj1 Ha) Hb).
Qed.
Print Assumptions C79_product.
(* powers and the test for a square, with the windows of modExpRdcCommon over the machine products *)
Theorem C79_powers : forall M b a e, is_w64 (aBP M) -> mrep b a ->
  (fp_ok e -> exists r, modExp512A M b e = Some r /\ mrep r (a ^ val e)) /\
  (forall k, is_w64 k -> exists r, modExp64A M b k = Some r /\ mrep r (a ^ k)) /\
  (exists q, isNonQuadResA M b = Some q /\ (q = 0 \/ q = 1) /\ (q = 0 <-> a mod P <> 0 /\ exists y, (y * y) mod P = a mod P)).
Proof.
  intros M b a e HM Hb. pose proof (proj1 Hb) as Rb. split; [|split].
  - intro He. exists (modExpRdc512 b e). split; [exact (proj1 (modExpA_ok M HM b e 512 Rb))|exact (modExpRdc512_ok b a e Hb He)].
  - intros k Hk. exists (modExpRdc64 b k). split; [exact (proj1 (modExpA_ok M HM b [k; 0; 0; 0; 0; 0; 0; 0] 64 Rb))|exact (modExpRdc64_ok b a k Hb Hk)].
  - exists (isNonQuadRes b). split; [exact (isNonQuadResA_ok M HM b Rb)|]. split; [exact (isNonQuadRes_01 b Rb)|exact (isNonQuadRes_ok b a Hb)].
Qed.
Print Assumptions C79_powers.
(* key generation, validation and derivation: no run is stuck, and result, output buffer and bytes drawn are those of the portable build *)
Theorem C79_public_key : forall M e rng, is_w64 (aBP M) -> bytes rng -> generatePublicKeyA M e rng = Some (generatePublicKey e rng).
Proof. intros M e rng HM. exact (generatePublicKeyA_ok M HM e rng). Qed.
Print Assumptions C79_public_key.
Theorem C79_validate : forall M a rng, is_w64 (aBP M) -> fp_ok a -> bytes rng -> validateA M a rng = Some (validate a rng).
Proof. intros M a rng HM. exact (validateA_ok M HM a rng). Qed.
Print Assumptions C79_validate.
Theorem C79_secret : forall M out a e rng, is_w64 (aBP M) -> fp_ok a -> bytes rng -> deriveSecretA M out a e rng = Some (deriveSecret out a e rng).
Proof. intros M out a e rng HM. exact (deriveSecretA_ok M HM out a e rng). Qed.
Print Assumptions C79_secret.
(* so no two CPUs differ *)
Theorem C79_same_on_all_cpus : forall M M' out a e rng, is_w64 (aBP M) -> is_w64 (aBP M') -> fp_ok a -> bytes rng ->
  generatePublicKeyA M e rng = generatePublicKeyA M' e rng /\ validateA M a rng = validateA M' a rng /\
  deriveSecretA M out a e rng = deriveSecretA M' out a e rng.
Proof.
  intros M M' out a e rng H H' Ha Hb. rewrite !C79_public_key, !C79_validate, !C79_secret by assumption. repeat split; reflexivity.
Qed.
Print Assumptions C79_same_on_all_cpus.
(* what the machine code accepts has a point of large order dividing p + 1, what it rejects is no curve of the class; secrets are encodings *)
Theorem C79_meaning : forall M A (a : Fq) rng, is_w64 (aBP M) -> frep A a -> bytes rng ->
  (forall rest, validateA M A rng = Some (Ret (true, rest)) ->
    smooth a /\ (no_quarter a -> exists b Q N, pm1 b /\ curve a b Q /\ order a b Q N /\ (N | prodZ primes) /\ 16 * P < N * N)) /\
  (forall rest, validateA M A rng = Some (Ret (false, rest)) -> ~ smooth a \/ exists b Q, pm1 b /\ curve a b Q /\ times a b (P + 1) Q <> infinity) /\
  (forall out e out' rest, length out = 64%nat -> deriveSecretA M out A e rng = Some (Ret (true, out', rest)) ->
    length out' = 64%nat /\ bytes out' /\ 0 <= le_dec out' < P).
Proof.
  intros M A a rng HM HA Hb. pose proof (proj1 (proj1 HA)) as Ok. rewrite (C79_validate M A rng HM Ok Hb). split; [|split].
  - intros rest E. injection E as E. exact (C61_accept A a rng rest HA Hb E).
  - intros rest E. injection E as E. exact (C61_reject A a rng rest HA Hb E).
  - intros out e out' rest L E. rewrite (C79_secret M out A e rng HM Ok Hb) in E. injection E as E. exact (C63_secret out A e rng out' rest Ok Hb L E).
Qed.
Print Assumptions C79_meaning.

(* a CPU with both features and one with none make the same key of the same bytes: here the zero key, drawing 4 and -4 *)
Example ex_C79 : forall bmi2 adx, generatePublicKeyA (mkAmd bmi2 adx 7) zeroKey (drawBytes ex_x4 ++ drawBytes ex_xm4) = Some (Ret (repeat 0 8, [])).
Proof.
  intros bmi2 adx. rewrite <- (app_nil_r (drawBytes ex_xm4)).
  rewrite C79_public_key; [rewrite ex_C67; reflexivity|unfold is_w64; cbn [aBP]; lia|].
  apply Forall_app. split; [apply le_enc_bytes|]. rewrite app_nil_r. apply le_enc_bytes.
Qed.
Example ex_C79_machines : is_w64 (aBP (mkAmd true true 7)) /\ fast (mkAmd true true 7) = true /\ fast (mkAmd true false 7) = false.
Proof. split; [unfold is_w64; cbn [aBP]; lia|split; reflexivity]. Qed.
(* one and the same product on the two paths *)
Example ex_C79_product : forall M, is_w64 (aBP M) -> exists r, mulRdcA M 0 0 0 (fun _ => four) = Some r /\ mrep r 16.
Proof.
  intros M HM. exists (mulRdc four four). assert (F : fp_red four) by exact (proj1 frep_four).
  split; [apply (mulRdcA_ok M HM 0 0 0 (fun _ => four)); try apply F; destruct F; lia|].
  assert (R : mrep four 4).
  { apply (mrep_cong _ (1 + 1 + (1 + 1))); [|reflexivity].
    assert (E : four = addRdc (addRdc one one) (addRdc one one)) by (vm_compute; reflexivity). rewrite E. apply mrep_add; apply mrep_add; exact mrep_one. }
  exact (mrep_mul _ _ _ _ R R).
Qed.
