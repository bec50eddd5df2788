From Coq Require Import ZArith List Bool Lia.
From Verif Require Import Lib MP Instr SIDH_Consts SIDH_Field SIDH_FieldProofs SIDH_Fp2Proofs SIDH_Inst SIDH_Curve SIDH_Bytes SIDH_Final X86 SIDH_AsmModel SIDH_AsmProofs SIDH_AsmFp2 SIDH_AsmFp2Proofs SIDH_AsmCore SIDH_AsmCoreProofs SIDH_ArmModel.
Import ListNotations.
Local Open Scope Z_scope.

(* dh/sidh/internal/{p434,p503,p751}/fp2.go compiled against the amd64 or the arm64 kernels.  A memory m is a list of Fp2 variables; d, l, r, k are
   pointers into it, which may coincide in any way.  A machine K is Amd64 f g fp, where f = cpu.X86.HasBMI2 and g = cpu.X86.HasADX are arbitrary
   and fp, the address of the multiplication's frame, is any word, or Arm64; bp is what BP holds, an arbitrary word (meaningless on arm64).
   Some (m', bp') is a run that ends; None is a run that is stuck.  What involves a multiplication is not claimed for p503 on arm64: *)
Definition right (P : pkg) (K : arch) : Prop := match K with Amd64 _ _ fp => is_w64 fp | Arm64 => P <> P503 end.
(* Reduced as the field code keeps its values: both coordinates have n words and are below 2p. *)
Definition reduced (P : pkg) (x : fp2) : Prop :=
  (isW (nOf P) (fst x) /\ val (fst x) < 2 * primeOf P) /\ (isW (nOf P) (snd x) /\ val (snd x) < 2 * primeOf P).
Definition anyWords (P : pkg) (x : fp2) : Prop := isW (nOf P) (fst x) /\ isW (nOf P) (snd x).
Lemma red_ok P x : reduced P x <-> ok2 P x.
Proof. unfold reduced, ok2, fpok, isW, nOf. tauto. Qed.
Lemma reds_ok P m : Forall (reduced P) m -> Forall (ok2 P) m.
Proof. apply Forall_impl. intros x. apply red_ok. Qed.

(* C73 *)
Theorem C73_add : forall P K bp m d l r, is_w64 bp -> Forall (anyWords P) m -> (d < length m)%nat -> (l < length m)%nat -> (r < length m)%nat ->
  aadd P K d l r m bp = Some (setl m d (fp2add (fieldOf P) (rd m l) (rd m r)), bp).
Proof. intros P K bp m d l r Hb Hm. apply aadd_ok; assumption. Qed.
Print Assumptions C73_add.
Theorem C73_sub : forall P K bp m d l r, is_w64 bp -> Forall (anyWords P) m -> (d < length m)%nat -> (l < length m)%nat -> (r < length m)%nat ->
  asub P K d l r m bp = Some (setl m d (fp2sub (fieldOf P) (rd m l) (rd m r)), bp).
Proof. intros P K bp m d l r Hb Hm. apply asub_ok; assumption. Qed.
Print Assumptions C73_sub.
Theorem C73_mul : forall P K bp m d l r, right P K -> is_w64 bp -> Forall (reduced P) m -> (d < length m)%nat -> (l < length m)%nat -> (r < length m)%nat ->
  exists bp', amul P K d l r m bp = Some (setl m d (fp2mul (fieldOf P) (rd m l) (rd m r)), bp') /\ is_w64 bp'.
Proof. intros P K bp m d l r Hf Hb Hm. apply amul_ok; auto using reds_ok. Qed.
Print Assumptions C73_mul.
Theorem C73_sqr : forall P K bp m d k, right P K -> is_w64 bp -> Forall (reduced P) m -> (d < length m)%nat -> (k < length m)%nat ->
  exists bp', asqr P K d k m bp = Some (setl m d (fp2sqr (fieldOf P) (rd m k)), bp') /\ is_w64 bp'.
Proof. intros P K bp m d k Hf Hb Hm. apply asqr_ok; auto using reds_ok. Qed.
Print Assumptions C73_sqr.
Theorem C73_inv : forall P K bp m d k, right P K -> is_w64 bp -> Forall (reduced P) m -> (d < length m)%nat -> (k < length m)%nat ->
  exists bp', ainv P K d k m bp = Some (setl m d (fp2inv (fieldOf P) (rd m k)), bp') /\ is_w64 bp'.
Proof. intros P K bp m d k Hf Hb Hm. apply ainv_ok; auto using reds_ok. Qed.
Print Assumptions C73_inv.
(* the four variables of the conditional swap are two by two different: a choice byte 0 leaves them, 1 exchanges them *)
Theorem C73_cswap : forall P K bp px pz qx qz, Forall (anyWords P) [px; pz; qx; qz] ->
  acswap P K 0 1 2 3 0 [px; pz; qx; qz] bp = Some ([px; pz; qx; qz], bp) /\
  acswap P K 0 1 2 3 1 [px; pz; qx; qz] bp = Some ([qx; qz; px; pz], bp).
Proof.
  intros P K bp px pz qx qz Hm. rewrite !acswap_ok by first [assumption|destruct K; [exact I|cbn; lia]|cbn; lia]. rewrite Z.mod_0_l by lia. change (1 mod 256) with 1.
  inversion Hm as [|? ? [[A1 A2] [A3 A4]] M1]; subst. inversion M1 as [|? ? [[B1 B2] [B3 B4]] M2]; subst.
  inversion M2 as [|? ? [[C1 C2] [C3 C4]] M3]; subst. inversion M3 as [|? ? [[D1 D2] [D3 D4]] _]; subst. clear - A1 A2 A3 A4 B1 B2 B3 B4 C1 C2 C3 C4 D1 D2 D3 D4.
  destruct px as [a a'], pz as [b b'], qx as [c c'], qz as [e e']. cbn [fst snd] in *.
  destruct (P_SIDH_Field.C39_cswap a c A1 C1 ltac:(congruence)) as [E1 E2]. destruct (P_SIDH_Field.C39_cswap a' c' A3 C3 ltac:(congruence)) as [E3 E4].
  destruct (P_SIDH_Field.C39_cswap b e B1 D1 ltac:(congruence)) as [E5 E6]. destruct (P_SIDH_Field.C39_cswap b' e' B3 D3 ltac:(congruence)) as [E7 E8].
  unfold swapped, fp2cswap. cbn [Nat.eqb rd nth setl firstn skipn app fst snd]. rewrite E1, E2, E3, E4. cbn [fst snd].
  cbn [Nat.eqb rd nth setl firstn skipn app fst snd]. rewrite E5, E6, E7, E8. split; reflexivity.
Qed.
Print Assumptions C73_cswap.
Theorem C73_fromMontgomery : forall P K bp m d k, is_w64 bp -> Forall (anyWords P) m -> (d < length m)%nat -> (k < length m)%nat ->
  exists bp', aFromMont P K d k m bp = Some (setl m d (FromMontgomery (fieldOf P) (rd m k)), bp') /\ is_w64 bp'.
Proof. intros P K bp m d k Hb Hm. apply aFromMont_ok; assumption. Qed.
Print Assumptions C73_fromMontgomery.
(* the other direction, as Import uses it: in place, on bytes OR-ed into a variable that holds any reduced value.  The byte length keeps the
   value within what the multiplication can take, and the constant it is multiplied by never meets the wrong case of the arm64 mulP503 (C78), so
   this one holds for p503 on arm64 too. *)
Lemma bitsPkg P : 0 < Bytelen (paramsOf P) /\ 2 * primeOf P <= 2 ^ (8 * Bytelen (paramsOf P)) /\ (Z.to_nat (Bytelen (paramsOf P)) <= 8 * nOf P)%nat /\
  match P with P434 => True | P503 => 2 ^ (8 * Bytelen (paramsOf P)) <= 2 ^ 511 | P751 => 2 ^ (8 * Bytelen (paramsOf P)) <= 2 ^ 752 end.
Proof. assert (forall x y, (x <=? y) = true -> x <= y) as L by (intros; apply Z.leb_le; assumption). destruct P; repeat split; try (apply Nat.leb_le; vm_compute; reflexivity); apply L; vm_compute; reflexivity. Qed.
Lemma or_mulOk P x y bs : fpok (fieldOf P) (primeOf P) x -> bytes bs -> (length bs <= Z.to_nat (Bytelen (paramsOf P)))%nat ->
  words y -> length y = nOf P -> val y = Z.lor (val x) (le_dec bs) -> mulOk P y.
Proof.
  intros (W & L & V) Hb Lb Wy Ly E. split; [split; assumption|]. destruct (bitsPkg P) as (B0 & B1 & _ & B2).
  pose proof (val_bound x W). pose proof (le_dec_bound bs Hb) as D.
  assert (D2 : 256 ^ Z.of_nat (length bs) <= 2 ^ (8 * Bytelen (paramsOf P))).
  { change 256 with (2 ^ 8). rewrite <- Z.pow_mul_r by lia. apply Z.pow_le_mono_r; lia. }
  pose proof (lor_bound (val x) (le_dec bs) (8 * Bytelen (paramsOf P)) ltac:(lia) ltac:(lia) ltac:(lia)) as O. rewrite <- E in O.
  destruct P; [exact I|lia|lia].
Qed.
Theorem C73_import : forall P K bp x input, match K with Amd64 _ _ fp => is_w64 fp | Arm64 => True end -> is_w64 bp -> reduced P x -> bytes input -> 2 * Bytelen (paramsOf P) <= Z.of_nat (length input) ->
  exists y bp', BytesToFp2 x input (Bytelen (paramsOf P)) = Ret y /\
    aToMont P K 0 0 [y] bp = Some ([ToMontgomery (fieldOf P) y], bp') /\ reduced P (ToMontgomery (fieldOf P) y).
Proof.
  intros P K bp x input Hf Hb Hx Hi Li. apply red_ok in Hx. destruct Hx as [X1 X2]. destruct (bitsPkg P) as (B0 & _ & BL & _).
  pose proof X1 as (W1 & L1 & _). pose proof X2 as (W2 & L2 & _). fold (nOf P) in L1, L2.
  destruct (BytesToFp2_ok x input (Bytelen (paramsOf P)) ltac:(lia) W1 W2 ltac:(rewrite L1; exact BL) ltac:(rewrite L2; exact BL) Hi Li) as (y & E & Y1 & Y2 & Y3 & Y4 & Y5 & Y6).
  assert (M1 : mulOk P (fst y)).
  { refine (or_mulOk P (fst x) _ _ X1 _ _ Y1 _ Y3); [apply Forall_firstn, Hi|apply firstn_le_length|congruence]. }
  assert (M2 : mulOk P (snd y)).
  { refine (or_mulOk P (snd x) _ _ X2 _ _ Y4 _ Y6); [apply Forall_firstn, Forall_skipn, Hi|apply firstn_le_length|congruence]. }
  destruct (aToMont_ok P K [y] bp Hb 0%nat 0%nat Hf) as (bp' & A & _); [constructor; [split; [apply M1|apply M2]|constructor]|cbn; lia..|split; assumption|].
  exists y, bp'. split; [exact E|]. split; [exact A|]. apply red_ok.
  destruct (prodR2 P (fst y) M1) as [O1 V1]. destruct (prodR2 P (snd y) M2) as [O2 V2].
  split; apply (rdc_ok _ _ (okOf P)); assumption.
Qed.
Print Assumptions C73_import.

(* on arm64 the product of reduced p503 elements can be wrong in both coordinates (as field elements; C78), and so can the square *)
Definition badFp : list Z := limbs 8 (2 ^ 323 + 2 ^ 188 - 2 ^ 66 - 2 ^ 51).
Definition coords (r : option (list fp2 * Z)) : Z * Z := match r with Some (x :: _, _) => (val (fst x), val (snd x)) | _ => (0, 0) end.
Theorem C73_mul503_arm_refuted : exists x, reduced P503 x /\ exists a b,
  (a, b) = coords (amul P503 Arm64 0 1 1 [x; x] 0) /\
  (a * 2 ^ 512 - (val (fst x) * val (fst x) - val (snd x) * val (snd x))) mod p503 <> 0 /\
  (b * 2 ^ 512 - 2 * val (fst x) * val (snd x)) mod p503 <> 0.
Proof.
  exists (badFp, repeat 0 8). split; [apply red_ok, ok2_b_ok; vm_compute; reflexivity|].
  eexists _, _. split; [vm_compute; reflexivity|]. split; vm_compute; discriminate.
Qed.
Print Assumptions C73_mul503_arm_refuted.
Theorem C73_sqr503_arm_refuted : exists x, reduced P503 x /\ exists a b,
  (a, b) = coords (asqr P503 Arm64 0 1 [x; x] 0) /\
  (a * 2 ^ 512 - (val (fst x) * val (fst x) - val (snd x) * val (snd x))) mod p503 <> 0.
Proof.
  exists (badFp, repeat 0 8). split; [apply red_ok, ok2_b_ok; vm_compute; reflexivity|].
  eexists _, _. split; [vm_compute; reflexivity|]. vm_compute; discriminate.
Qed.
Print Assumptions C73_sqr503_arm_refuted.

(* C74: key generation and shared secrets.  Ret (Some x) is a run that ends with x, Panic the panic of an index out of range. *)
Definition ended {X Y} (h : X -> Y) (r : res X) : res Y := match r with Ret a => Ret (h a) | Panic => Panic end.
Theorem C74_publicKeyA : forall P K bp prv, right P K -> is_w64 bp -> PublicKeyGenA_a P K bp prv = ended (map Some) (PublicKeyGenA_l (paramsOf P) prv).
Proof. intros. apply PublicKeyGenA_asm; assumption. Qed.
Print Assumptions C74_publicKeyA.
Theorem C74_publicKeyB : forall P K bp prv, right P K -> is_w64 bp -> PublicKeyGenB_a P K bp prv = ended (map Some) (PublicKeyGenB_l (paramsOf P) prv).
Proof. intros. apply PublicKeyGenB_asm; assumption. Qed.
Print Assumptions C74_publicKeyB.
Theorem C74_secretA : forall P K bp ss prv x y z, right P K -> is_w64 bp -> reduced P x -> reduced P y -> reduced P z ->
  DeriveSecretA_a P K bp ss prv (x, y, z) = ended Some (DeriveSecretA_l (paramsOf P) ss prv (x, y, z)).
Proof. intros. apply DeriveSecretA_asm; [assumption..|]. unfold ok3. rewrite <- !red_ok. auto. Qed.
Print Assumptions C74_secretA.
Theorem C74_secretB : forall P K bp ss prv x y z, right P K -> is_w64 bp -> reduced P x -> reduced P y -> reduced P z ->
  DeriveSecretB_a P K bp ss prv (x, y, z) = ended Some (DeriveSecretB_l (paramsOf P) ss prv (x, y, z)).
Proof. intros. apply DeriveSecretB_asm; [assumption..|]. unfold ok3. rewrite <- !red_ok. auto. Qed.
Print Assumptions C74_secretB.
Lemma paramsOf_set P : sidh_set (paramsOf P) (primeOf P) /\ pField (paramsOf P) = fieldOf P.
Proof. split; [|apply fieldQ]. unfold sidh_set. destruct P; auto. Qed.
Lemma same_reduced P x y : same2 (pField (paramsOf P)) (primeOf P) x y -> reduced P y.
Proof. rewrite fieldQ. intros (a & b & _ & [(A1 & A2 & A3) _] & [(B1 & B2 & B3) _]). unfold reduced, isW, nOf. repeat split; try assumption; try apply A3; apply B3. Qed.
(* two parties on different machines: for any secrets of the right length both sides end, and with the same bytes *)
Theorem C74_agreement : forall P K bp K' bp' ka kb, right P K -> is_w64 bp -> right P K' -> is_w64 bp' ->
  long (pA (paramsOf P)) ka -> long (pB (paramsOf P)) kb ->
  exists uA vA tA uB vB tB s,
    PublicKeyGenA_a P K bp ka = Ret [Some uA; Some vA; Some tA] /\ PublicKeyGenB_a P K' bp' kb = Ret [Some uB; Some vB; Some tB] /\
    Z.of_nat (length s) = 2 * Bytelen (paramsOf P) /\
    (forall u v t ss, same2 (fieldOf P) (primeOf P) uB u -> same2 (fieldOf P) (primeOf P) vB v -> same2 (fieldOf P) (primeOf P) tB t ->
      2 * Bytelen (paramsOf P) <= Z.of_nat (length ss) ->
      DeriveSecretA_a P K bp ss ka (u, v, t) = Ret (Some (s ++ skipn (length s) ss))) /\
    (forall u v t ss, same2 (fieldOf P) (primeOf P) uA u -> same2 (fieldOf P) (primeOf P) vA v -> same2 (fieldOf P) (primeOf P) tA t ->
      2 * Bytelen (paramsOf P) <= Z.of_nat (length ss) ->
      DeriveSecretB_a P K' bp' ss kb (u, v, t) = Ret (Some (s ++ skipn (length s) ss))).
Proof.
  intros P K bp K' bp' ka kb Hf Hb Hf' Hb' LA LB. destruct (paramsOf_set P) as [S EF].
  destruct (sidh_set_agrees _ _ S ka kb LA LB) as (uA & vA & tA & uB & vB & tB & s & GA & GB & _ & _ & _ & LS & DA & DB).
  assert (EL : Z.to_nat (2 * Bytelen (paramsOf P)) = length s) by lia. rewrite EL in DA, DB. rewrite <- EF.
  exists uA, vA, tA, uB, vB, tB, s. rewrite C74_publicKeyA, C74_publicKeyB, GA, GB by assumption.
  split; [reflexivity|]. split; [reflexivity|]. split; [exact LS|]. split; intros u v t ss S1 S2 S3 L.
  - rewrite C74_secretA by first [assumption|eapply same_reduced; eassumption]. rewrite (DA u v t ss S1 S2 S3 L). reflexivity.
  - rewrite C74_secretB by first [assumption|eapply same_reduced; eassumption]. rewrite (DB u v t ss S1 S2 S3 L). reflexivity.
Qed.
Print Assumptions C74_agreement.

(* concrete cases: the hypotheses are met, and the calls do something *)
Definition exX (P : pkg) : fp2 := (firstn (nOf P) [11; 22; 33; 44; 55; 66; 77; 88; 99; 110; 121; 132], firstn (nOf P) [132; 121; 110; 99; 88; 77; 66; 55; 44; 33; 22; 11]).
Lemma exX_red P : reduced P (exX P).
Proof. apply red_ok, ok2_b_ok. destruct P; vm_compute; reflexivity. Qed.
Example ex_C73_sqr_in_place : Forall (reduced P503) [exX P503; exX P503] /\
  (exists bp', asqr P503 (Amd64 true true 4096) 0 0 [exX P503; exX P503] 7 = Some ([fp2sqr f503 (exX P503); exX P503], bp')) /\ fp2sqr f503 (exX P503) <> exX P503.
Proof.
  split; [constructor; [apply exX_red|constructor; [apply exX_red|constructor]]|]. split.
  - destruct (C73_sqr P503 (Amd64 true true 4096) 7 [exX P503; exX P503] 0 0) as (bp' & E & _); [split; lia|split; lia|constructor; [apply exX_red|constructor; [apply exX_red|constructor]]|cbn; lia..|]. exists bp'. exact E.
  - vm_compute. discriminate.
Qed.
Example ex_C73_import : exists y bp', BytesToFp2 (exX P751) (repeat 255 188) 94 = Ret y /\ aToMont P751 Arm64 0 0 [y] 7 = Some ([ToMontgomery f751 y], bp') /\ val (fst y) = 2 ^ 752 - 1.
Proof.
  destruct (C73_import P751 Arm64 7 (exX P751) (repeat 255 188)) as (y & bp' & E & A & _); [exact I|split; lia|apply exX_red|unfold bytes; cbn [repeat]; repeat (constructor; [split; lia|]); constructor|cbn; lia|].
  exists y, bp'. split; [exact E|]. split; [exact A|]. change (Bytelen (paramsOf P751)) with 94 in E. vm_compute in E. injection E as <-. vm_compute. reflexivity.
Qed.
Example ex_C74_agreement : long (pA (paramsOf P503)) (repeat 77 32) /\ long (pB (paramsOf P503)) (repeat 201 32) /\ long (pA (paramsOf P751)) (repeat 77 47) /\ long (pB (paramsOf P751)) (repeat 201 48).
Proof.
  repeat split; try (cbn; lia); unfold bytes; cbn [repeat]; repeat (constructor; [split; lia|]); constructor.
Qed.
