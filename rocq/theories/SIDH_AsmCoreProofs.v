(* Key generation and shared secrets do not depend on whether the assembly is used, nor on the CPU's features. *)
From Coq Require Import ZArith List Lia Bool.
From Verif Require Import Lib MP Instr SIDH_Consts SIDH_Field SIDH_FieldProofs SIDH_Fp2Proofs SIDH_Inst SIDH_Curve SIDH_Sim X86 SIDH_AsmModel SIDH_AsmProofs SIDH_AsmFp2 SIDH_AsmFp2Proofs SIDH_AsmCore P_SIDH_Field.
Import ListNotations.
Open Scope Z_scope.

Section Core.
Variables (P : pkg) (K : arch) (bp : Z).
Hypothesis HK : usable P K.
Hypothesis Hb : is_w64 bp.
Notation F := (fieldOf P).
Notation p := (primeOf P).
Notation Q := (paramsOf P).
Notation ok := (ok2 P).
Let OK := okOf P.
Definition rel (x : option fp2) (y : fp2) : Prop := x = Some y /\ ok y.
Lemma fieldQ : pField Q = F. Proof. clear HK. destruct P; reflexivity. Qed.
Lemma z2_ok : ok (z2 P). Proof. split; apply (fpok_zero F p OK). Qed.
Lemma mem3 x y : ok x -> ok y -> Forall ok [z2 P; x; y].
Proof. intros. constructor; [apply z2_ok|constructor; [assumption|constructor; [assumption|constructor]]]. Qed.
Lemma mem2 x : ok x -> Forall ok [z2 P; x].
Proof. intros. constructor; [apply z2_ok|constructor; [assumption|constructor]]. Qed.
Lemma memW l : Forall ok l -> Forall (isW2 P) l.
Proof. apply Forall_impl. apply ok2_W. Qed.
Lemma add_ok2 x y : ok x -> ok y -> ok (fp2add F x y).
Proof. intros [X1 X2] [Y1 Y2]. split; apply (addP_spec F p OK); assumption. Qed.
Lemma sub_ok2 x y : ok x -> ok y -> ok (fp2sub F x y).
Proof. intros [X1 X2] [Y1 Y2]. split; apply (subP_spec F p OK); assumption. Qed.
Lemma sqr_ok2 x : ok x -> ok (fp2sqr F x).
Proof.
  intros [X1 X2]. pose proof (p16 P). pose proof (pp0 P). pose proof (proj1 (addP_spec F p OK _ _ X1 X1)) as AA. pose proof (proj1 (addP_spec F p OK _ _ X1 X2)) as AB. pose proof (proj1 (subP_spec F p OK _ _ X1 X2)) as AM.
  destruct (prod_ok P _ _ AB AM) as [O1 V1]. destruct (prod_ok P _ _ AA X2) as [O2 V2].
  split; apply (rdc_ok F p OK); first [assumption|fold (nOf P); lia].
Qed.
Lemma rep_ok2 x : ok x -> exists a, rep F p OK x a.
Proof. intros [X1 X2]. exact (rep_exists F p OK x X1 X2). Qed.
Lemma ok2_rep x a : rep F p OK x a -> ok x.
Proof. intros [[X1 _] [X2 _]]. split; assumption. Qed.
Lemma mul_ok2 x y : ok x -> ok y -> ok (fp2mul F x y).
Proof. intros X Y. destruct (rep_ok2 x X) as [a A]. destruct (rep_ok2 y Y) as [b C]. exact (ok2_rep _ _ (rep_mul F p OK _ _ _ _ A C)). Qed.
Lemma inv_ok2 x : ok x -> ok (fp2inv F x).
Proof. intros X. destruct (rep_ok2 x X) as [a A]. exact (ok2_rep _ _ (rep_inv F p OK (sidh_field_s34 F p (sidhField P)) _ _ A)). Qed.
Lemma rel_add x x' y y' : rel x x' -> rel y y' -> rel (oadd P K bp x y) (fp2add F x' y').
Proof.
  intros [-> X] [-> Y]. split; [|apply add_ok2; assumption]. unfold oadd, op2.
  rewrite aadd_ok by first [assumption|apply memW, mem3; assumption|cbn; lia]. reflexivity.
Qed.
Lemma rel_sub x x' y y' : rel x x' -> rel y y' -> rel (osub P K bp x y) (fp2sub F x' y').
Proof.
  intros [-> X] [-> Y]. split; [|apply sub_ok2; assumption]. unfold osub, op2.
  rewrite asub_ok by first [assumption|apply memW, mem3; assumption|cbn; lia]. reflexivity.
Qed.
Lemma rel_mul x x' y y' : rel x x' -> rel y y' -> rel (omul P K bp x y) (fp2mul F x' y').
Proof.
  intros [-> X] [-> Y]. split; [|apply mul_ok2; assumption]. unfold omul, op2.
  edestruct (amul_ok P K HK [z2 P; x'; y'] bp Hb 0%nat 1%nat 2%nat) as (bp' & E & _); [apply mem3; assumption|cbn; lia..|]. rewrite E. reflexivity.
Qed.
Lemma rel_sqr x x' : rel x x' -> rel (osqr P K bp x) (fp2sqr F x').
Proof.
  intros [-> X]. split; [|apply sqr_ok2; assumption]. unfold osqr, op1.
  edestruct (asqr_ok P K HK [z2 P; x'] bp Hb 0%nat 1%nat) as (bp' & E & _); [apply mem2; assumption|cbn; lia..|]. rewrite E. reflexivity.
Qed.
Lemma rel_inv x x' : rel x x' -> rel (oinv P K bp x) (fp2inv F x').
Proof.
  intros [-> X]. split; [|apply inv_ok2; assumption]. unfold oinv, op1.
  edestruct (ainv_ok P K HK [z2 P; x'] bp Hb 0%nat 1%nat) as (bp' & E & _); [apply mem2; assumption|cbn; lia..|]. rewrite E. reflexivity.
Qed.
Lemma rel_powp x x' k : rel x x' -> rel (opowp P K bp x k) (fp2powp F x' k).
Proof. intros X. induction k as [k IH|k IH|]; cbn [opowp fp2powp]; auto using rel_mul. Qed.
Lemma rel_swap x x' y y' c : rel x x' -> rel y y' -> c = 0 \/ c = 1 ->
  rel (fst (oswap P K bp x y c)) (fst (fp2cswap x' y' c)) /\ rel (snd (oswap P K bp x y c)) (snd (fp2cswap x' y' c)).
Proof.
  intros [-> X] [-> Y] C. unfold oswap.
  assert (Hc : swapByte K c) by (unfold swapByte; destruct K; [exact I|]; destruct C as [-> | ->]; [left|right]; reflexivity).
  rewrite acswap1_ok by first [exact Hc|apply memW; constructor; [assumption|constructor; [assumption|constructor]]|cbn; lia].
  assert (M : c mod 256 = c) by (apply Z.mod_small; lia). rewrite M. unfold swapped. cbn [Nat.eqb rd nth setl firstn skipn app fst snd].
  destruct x' as [x1 x2], y' as [y1 y2]. destruct X as [(X1 & L1 & V1) (X2 & L2 & V2)], Y as [(Y1 & M1 & U1) (Y2 & M2 & U2)]. cbn [fst snd] in *.
  pose proof (C39_cswap x1 y1 X1 Y1 ltac:(congruence)) as [A0 A1]. pose proof (C39_cswap x2 y2 X2 Y2 ltac:(congruence)) as [B0 B1].
  unfold fp2cswap, rel, ok2. cbn [fst snd].
  destruct C as [-> | ->]; rewrite ?A0, ?A1, ?B0, ?B1; cbn [fst snd]; repeat split; assumption.
Qed.

Definition fpok_b (x : list Z) : bool := forallb (fun w => (0 <=? w) && (w <? 2 ^ 64)) x && (length x =? nOf P)%nat && (val x <? 2 * p).
Lemma fpok_b_ok x : fpok_b x = true -> fpok F p x.
Proof.
  unfold fpok_b. rewrite !andb_true_iff, forallb_forall, Nat.eqb_eq, Z.ltb_lt. intros [[A C] D]. split; [|split; assumption].
  apply Forall_forall. intros w Hw. specialize (A w Hw). rewrite andb_true_iff, Z.leb_le, Z.ltb_lt in A. exact A.
Qed.
Definition ok2_b (x : fp2) : bool := fpok_b (fst x) && fpok_b (snd x).
Lemma ok2_b_ok x : ok2_b x = true -> ok x.
Proof. unfold ok2_b. rewrite andb_true_iff. intros [A C]. split; apply fpok_b_ok; assumption. Qed.
End Core.
Definition constants (Q : sidhParams) : list fp2 := [OneFp2 Q; HalfFp2 Q; InitA Q; InitC Q; AffineP (pA Q); AffineQ (pA Q); AffineR (pA Q); AffineP (pB Q); AffineQ (pB Q); AffineR (pB Q)].
Lemma constants_ok P : Forall (ok2 P) (constants (paramsOf P)).
Proof.
  assert (E : forallb (ok2_b P) (constants (paramsOf P)) = true) by (destruct P; vm_compute; reflexivity).
  apply Forall_forall. intros x Hx. rewrite forallb_forall in E. apply ok2_b_ok, E, Hx.
Qed.
Section Top.
Variables (P : pkg) (K : arch) (bp : Z).
Hypothesis HK : usable P K.
Hypothesis Hb : is_w64 bp.
Notation F := (fieldOf P).
Notation Q := (paramsOf P).
Notation R := (rel P).
Lemma const_rel x : In x (constants Q) -> R (Some x) x.
Proof. intros Hx. split; [reflexivity|]. pose proof (constants_ok P) as C. rewrite Forall_forall in C. apply C, Hx. Qed.
Ltac cr := apply const_rel; unfold constants; cbn [In]; tauto.
Lemma asm_simulates : simulates (asmFops P K bp) (sidhOps F (OneFp2 Q)) R.
Proof.
  constructor; cbn [asmFops sidhOps car fadd fsub fmul fsqr finv fpow]; intros.
  - apply rel_add; assumption.
  - apply rel_sub; assumption.
  - apply rel_mul; assumption.
  - apply rel_sqr; assumption.
  - apply rel_inv; assumption.
  - destruct k; [cr|apply rel_powp; assumption|lia].
Qed.
Lemma asm_sim : sim (asmOps P K bp) (limbOps Q) R.
Proof.
  constructor; unfold limbOps; cbn [asmOps so s0 sOne sHalf sCA sCC scswap].
  - rewrite fieldQ. exact asm_simulates.
  - rewrite fieldQ. split; [reflexivity|apply z2_ok].
  - cr.
  - cr.
  - cr.
  - cr.
  - intros. apply rel_swap; assumption.
Qed.
Lemma domA_rel : RD (asmOps P K bp) (limbOps Q) R (asmDom (pA Q)) (limbDom (pA Q)).
Proof. unfold RD. cbn [asmDom limbDom dP dQ dR dBits dStrat]. repeat split; cr. Qed.
Lemma domB_rel : RD (asmOps P K bp) (limbOps Q) R (asmDom (pB Q)) (limbDom (pB Q)).
Proof. unfold RD. cbn [asmDom limbDom dP dQ dR dBits dStrat]. repeat split; cr. Qed.
Definition mapRes {X Y} (h : X -> Y) (r : res X) : res Y := match r with Ret a => Ret (h a) | Panic => Panic end.
Lemma rr_rel x y : rr R x y -> x = mapRes Some y.
Proof. intros [a a' [-> _]|]; reflexivity. Qed.
Lemma rr_list x y : rr (Forall2 R) x y -> x = mapRes (map Some) y.
Proof. intros [a a' H|]; [|reflexivity]. cbn [mapRes]. f_equal. induction H as [|u u' l l' [-> _] _ IH]; cbn [map]; [reflexivity|rewrite IH; reflexivity]. Qed.
Theorem PublicKeyGenA_asm prv : PublicKeyGenA_a P K bp prv = mapRes (map Some) (PublicKeyGenA_l Q prv).
Proof. apply rr_list. apply (PublicKeyGenA_sim _ _ _ asm_sim _ _ _ _ domA_rel domB_rel). Qed.
Theorem PublicKeyGenB_asm prv : PublicKeyGenB_a P K bp prv = mapRes (map Some) (PublicKeyGenB_l Q prv).
Proof. apply rr_list. apply (PublicKeyGenB_sim _ _ _ asm_sim _ _ _ _ domA_rel domB_rel). Qed.
Definition ok3 (k : fp2 * fp2 * fp2) : Prop := let '(x, y, z) := k in ok2 P x /\ ok2 P y /\ ok2 P z.
Lemma secret_ok ss j j' : rr R j j' -> bind j (secretBytes P K bp ss) = mapRes Some (bind j' (fun j => Fp2ToBytes ss (FromMontgomery (pField Q) j) (Bytelen Q))).
Proof.
  intros [a a' [-> H]|]; [|reflexivity]. cbn [bind]. unfold secretBytes, op1. rewrite fieldQ.
  edestruct (aFromMont_ok P K [z2 P; a'] bp Hb 0%nat 1%nat) as (bp' & E & _); [apply memW, mem2; assumption|cbn; lia..|]. rewrite E.
  cbn [got rd nth setl firstn skipn app]. destruct (Fp2ToBytes _ _ _); reflexivity.
Qed.
Theorem DeriveSecretA_asm ss prv pub : ok3 pub -> DeriveSecretA_a P K bp ss prv pub = mapRes Some (DeriveSecretA_l Q ss prv pub).
Proof.
  destruct pub as [[x y] z]. intros (X & Y & Z). unfold DeriveSecretA_a, DeriveSecretA_l. apply secret_ok.
  apply (DeriveJA_sim _ _ _ asm_sim _ _ domA_rel); split; auto.
Qed.
Theorem DeriveSecretB_asm ss prv pub : ok3 pub -> DeriveSecretB_a P K bp ss prv pub = mapRes Some (DeriveSecretB_l Q ss prv pub).
Proof.
  destruct pub as [[x y] z]. intros (X & Y & Z). unfold DeriveSecretB_a, DeriveSecretB_l. apply secret_ok.
  apply (DeriveJB_sim _ _ _ asm_sim _ _ domB_rel); split; auto.
Qed.
End Top.
