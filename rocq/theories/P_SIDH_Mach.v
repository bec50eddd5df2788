(* C88: the SIDH exchange between two machines, field arithmetic in machine code. *)
From Coq Require Import ZArith List Bool Lia.
From Verif Require Import Lib MP Instr SIDH_Consts SIDH_Field SIDH_Curve X86 SIDH_AsmModel SIDH_AsmFp2 SIDH_AsmCore P_SIDH_AsmFp2.
From Verif Require Import Sha3_Model SIDH_Api SIDH_ApiProofs P_SIDH_Api SIKE_Model SIKE_Spec SIKE_Proofs P_SIKE SIKE_Mach P_SIKE_Mach P_SIKE_Amd.
Import ListNotations.
Open Scope Z_scope.

Lemma right_fp Q K : right Q K -> match K with Amd64 _ _ fp => is_w64 fp | Arm64 => True end.
Proof. destruct K; [exact (fun H => H)|exact (fun _ => I)]. Qed.
Lemma fresh_sound Q v : sound Q (freshPub (paramsOf Q) v).
Proof.
  assert (L : later [(Fp751, params751); (Fp503, params503); (Fp434, params434)]) by (apply l_init; reflexivity).
  apply (new_sound Q _ v (freshPub (paramsOf Q) v) L). destruct Q; reflexivity.
Qed.
(* Each side makes its keys, exports, imports what came over the wire and derives on a machine of its own; both get s, the secret of the portable build. *)
Theorem C88_exchange : forall K bp K' bp' Q a b va vb, is_w64 bp -> is_w64 bp' -> right Q K -> right Q K' -> shaped a -> shaped b -> bytes (Scalar a) -> bytes (Scalar b) ->
  prvParams a = paramsOf Q -> prvParams b = paramsOf Q -> prvVariant a = va -> prvVariant b = vb -> onA va = true -> onA vb = false -> let P := paramsOf Q in
  exists pa pb ea eb ia ib s,
    GeneratePublicKeyM K bp a (freshPub P va) = Ret (Some pa) /\ GeneratePublicKeyM K' bp' b (freshPub P vb) = Ret (Some pb) /\
    pubExportM K bp pa (repeat 0 (Z.to_nat (PublicKeySize P))) = Ret (Some ea) /\ pubExportM K' bp' pb (repeat 0 (Z.to_nat (PublicKeySize P))) = Ret (Some eb) /\
    pubImportM K' bp' (freshPub P va) ea = Ret (Some (ia, false)) /\ pubImportM K bp (freshPub P vb) eb = Ret (Some (ib, false)) /\
    Z.of_nat (length s) = SharedSecretSize P /\ bytes s /\
    (forall ss, SharedSecretSize P <= Z.of_nat (length ss) ->
      DeriveSecretM K bp a ss ib = Ret (Some (s ++ skipn (length s) ss)) /\ DeriveSecretM K' bp' b ss ia = Ret (Some (s ++ skipn (length s) ss)) /\
      DeriveSecret a ss ib = Ret (s ++ skipn (length s) ss)).
Proof.
  intros K bp K' bp' Q a b va vb Hb Hb' HK HK' SA SB BA BB EA EB VA VB OA OB P.
  destruct (C65_exchange P a b va vb (reg_of Q) SA SB BA BB EA EB VA VB OA OB) as (pa & pb & ea & eb & ia & ib & s & H1 & H2 & H3 & H4 & H5 & H6 & H7 & H8 & H9).
  exists pa, pb, ea, eb, ia, ib, s.
  destruct (C84_public_key K bp Q a (freshPub P va) Hb HK EA eq_refl) as [G1 S1]. destruct (S1 pa H1) as [Spa _].
  destruct (C84_public_key K' bp' Q b (freshPub P vb) Hb' HK' EB eq_refl) as [G2 S2]. destruct (S2 pb H2) as [Spb _].
  assert (Z0 : bytes (repeat 0 (Z.to_nat (PublicKeySize P)))) by (apply Forall_repeat; unfold is_byte; lia).
  pose proof (bytes_export pa _ ea Z0 H3) as Bea. pose proof (bytes_export pb _ eb Z0 H4) as Beb.
  destruct (C84_import K' bp' Q (freshPub P va) ea Hb' (right_fp Q K' HK') (fresh_sound Q va) Bea) as [I1 T1]. destruct (T1 ia false H5) as [Sia _].
  destruct (C84_import K bp Q (freshPub P vb) eb Hb (right_fp Q K HK) (fresh_sound Q vb) Beb) as [I2 T2]. destruct (T2 ib false H6) as [Sib _].
  split; [rewrite G1, H1; reflexivity|]. split; [rewrite G2, H2; reflexivity|]. split; [rewrite (C84_export K bp Q pa _ Hb Spa), H3; reflexivity|]. split; [rewrite (C84_export K' bp' Q pb _ Hb' Spb), H4; reflexivity|].
  split; [rewrite I1, H5; reflexivity|]. split; [rewrite I2, H6; reflexivity|]. split; [exact H7|]. split; [exact H8|]. intros ss Hss. destruct (H9 ss Hss) as (D1 & D2 & _).
  split; [rewrite (C84_secret K bp Q Q a ss ib Hb HK EA Sib), D1; reflexivity|]. split; [rewrite (C84_secret K' bp' Q Q b ss ia Hb' HK' EB Sia), D2; reflexivity|exact D1].
Qed.
Print Assumptions C88_exchange.

(* a case meeting the hypotheses: p751 between an amd64 machine without ADX and an arm64 one *)
Example ex_C88 : exists a b, shaped a /\ shaped b /\ bytes (Scalar a) /\ bytes (Scalar b) /\ prvParams a = paramsOf P751 /\ prvParams b = paramsOf P751 /\
  onA (prvVariant a) = true /\ onA (prvVariant b) = false /\ right P751 (Amd64 true false 4096) /\ right P751 Arm64.
Proof.
  exists (mkPrv params751 KeyVariantSidhA (repeat 200 47) []), (mkPrv params751 KeyVariantSidhB (repeat 99 48) []).
  split; [split; [right; right; reflexivity|split; reflexivity]|]. split; [split; [right; right; reflexivity|split; reflexivity]|].
  split; [apply Forall_repeat; unfold is_byte; lia|]. split; [apply Forall_repeat; unfold is_byte; lia|]. repeat (split; [reflexivity|]). split; [split; lia|discriminate].
Qed.
