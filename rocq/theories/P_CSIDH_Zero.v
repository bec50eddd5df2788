(* C67: the private key with all exponents zero acts trivially, whatever the random draws. *)
From Coq Require Import ZArith List Lia Bool Field.
From Verif Require Import Lib MP Instr CSIDH_Field CSIDH_FieldProofs CSIDH_FieldProofs2 P_CSIDH_Field CSIDH_Curve CSIDH_Model
  CSIDH_ApiProofs CSIDH_GaProofs P_CSIDH FieldAlg MontCurve CSIDH_CurveProofs CSIDH_ValidProofs P_CSIDH_Curve.
Import ListNotations.
Add Field Fqp : (k_th Fq).
Open Scope Z_scope.

Definition zeroKey : list Z := repeat 0 37.
Lemma initE_zero : forall s, initE zeroKey s = repeat 0 74.
Proof. intros [|]; vm_compute; reflexivity. Qed.
Lemma passStep_zero : forall st i, pe fpOps st = repeat 0 74 -> (i < 74)%nat -> pdone fpOps st = true -> passStep fpOps fpZero one four isZero st i = st.
Proof.
  intros [P0 A0 e0 k0 d0 l0] i He Hi Hd. cbn [pe pdone] in He, Hd. subst. unfold passStep. cbn [pP pA pe pk pdone plog].
  rewrite !nth_repeat. change (negb (0 =? 0)) with false. cbv iota. cbn [pP pA pe pk pdone plog]. rewrite nth_repeat. reflexivity.
Qed.
Lemma fold_zero : forall l st, pe fpOps st = repeat 0 74 -> Forall (fun i => (i < 74)%nat) l -> pdone fpOps st = true ->
  fold_left (passStep fpOps fpZero one four isZero) l st = st.
Proof.
  induction l as [|i l IH]; intros st He Hl Hd; [reflexivity|]. inversion Hl; subst. cbn [fold_left]. rewrite passStep_zero by assumption. apply IH; assumption.
Qed.
Lemma mul_inv_one : forall a, fp_red a -> fmul fpOps a (finv fpOps one) = a.
Proof.
  intros a Ha. destruct (frep_exists a Ha) as [x Hx]. apply (frep_unique _ _ x); [|exact Hx].
  pose proof (sim_mul _ _ _ sim_fp _ _ _ _ Hx (sim_inv _ _ _ sim_fp _ _ frep_one)) as M. cbn [absOps car fmul finv] in M.
  replace (kmul x (kinv k1)) with x in M; [exact M|].
  rewrite <- (k_inv_unique Fq k1 k1) by ring. ring.
Qed.
Definition zeroAt (a : list Z) (st : gaState fpOps) : Prop := gA fpOps st = a /\ forall s, gE fpOps st s = repeat 0 74.
Lemma round_zero : forall a st x s, fp_red a -> zeroAt a st -> s = negb (isNonQuadRes (montEval fpOps fpZero one four a x) =? 0) -> gDone fpOps st s = false ->
  zeroAt a (gaRound fpOps fpZero one four isZero isNonQuadRes st x) /\
  forall b, gDone fpOps (gaRound fpOps fpZero one four isZero isNonQuadRes st x) b = if Bool.eqb b s then true else gDone fpOps st b.
Proof.
  intros a st x s Ha [HA HE] Hs HD. unfold gaRound. rewrite HA, <- Hs, HD.
  match goal with |- context [fold_left _ ?l ?st0] => rewrite (fold_zero l st0) end.
  - cbn [pA pe pk pdone plog fst snd]. unfold zeroAt. cbn [gA gE gDone]. rewrite (mul_inv_one a Ha). split.
    + split; [reflexivity|]. intros b. unfold setB. destruct (Bool.eqb b s); [|apply HE]. apply HE.
    + intros b. reflexivity.
  - cbn [pe]. apply HE.
  - apply Forall_forall. intros i Hi. apply in_seq in Hi. unfold primeCount in Hi. lia.
  - reflexivity.
Qed.
Lemma gaLoop_zero : forall fuel a st rng st' rest, fp_red a -> zeroAt a st ->
  gaLoop fpOps fpZero one four isZero isNonQuadRes (fun x => x) fuel st rng = Some (st', rest) -> gA fpOps st' = a.
Proof.
  induction fuel as [|fuel IH]; intros a st rng st' rest Ha HZ H; [discriminate|]. cbn [gaLoop] in H.
  destruct (randFp rng) as [[x rng']|] eqn:ER; [|discriminate]. rewrite (proj1 HZ) in H.
  set (s := negb (isNonQuadRes (montEval fpOps fpZero one four a x) =? 0)) in H.
  destruct (gDone fpOps st s) eqn:ED; [exact (IH a _ _ _ _ Ha HZ H)|].
  destruct (round_zero a st x s Ha HZ eq_refl ED) as [R _].
  match type of H with (if ?c then _ else _) = _ => destruct c end; [injection H as <- <-; apply R|exact (IH a _ _ _ _ Ha R H)].
Qed.
Lemma zeroAt_init : forall a, zeroAt a (gaInit fpOps a zeroKey).
Proof. intros a. split; [reflexivity|]. intros s. cbn [gaInit gE]. apply initE_zero. Qed.

Theorem C67_identity : forall a rng s rest, fp_red a -> groupActionFp a zeroKey rng = Some (s, rest) -> s = a.
Proof.
  intros a rng s rest Ha H. unfold groupActionFp, groupAction in H.
  destruct (groupAction_st fpOps fpZero one four isZero isNonQuadRes (fun x => x) a zeroKey rng) as [[st r]|] eqn:G; [|discriminate].
  injection H as <- <-. exact (gaLoop_zero _ a _ _ _ _ Ha (zeroAt_init a) G).
Qed.
Print Assumptions C67_identity.
(* its public key is the starting curve *)
Theorem C67_public : forall rng a rest, generatePublicKey zeroKey rng = Ret (a, rest) -> a = repeat 0 8.
Proof.
  intros rng a rest H. unfold generatePublicKey in H. destruct (groupActionFp (repeat 0 numWords) zeroKey rng) as [[s r]|] eqn:G; [|discriminate].
  injection H as <- <-. exact (C67_identity _ _ _ _ (proj1 frep_zero) G).
Qed.
Print Assumptions C67_public.
(* the secret it shares with anybody is that party's public key, that is, public *)
Theorem C67_secret : forall out a rng ss rest, fp_ok a -> length out = 64%nat -> deriveSecret out a zeroKey rng = Ret (true, ss, rest) -> ss = le_enc 64 (val a).
Proof.
  intros out a rng ss rest Ha Lo H. unfold deriveSecret in H. destruct (validate a rng) as [[ok r]|] eqn:V; [|discriminate]. destruct ok; [|discriminate].
  destruct (groupActionFp a zeroKey r) as [[s r']|] eqn:G; [|discriminate]. injection H as <- <-.
  unfold validate in V. rewrite (isLess_ok a p Ha p_ok) in V. fold P in V. destruct (Z.ltb_spec (val a) P) as [h|h]; [|discriminate].
  rewrite (C67_identity a r s r' (conj Ha h) G). rewrite (proj2 (C33_export a out Ha) Lo). reflexivity.
Qed.
Print Assumptions C67_secret.
(* it succeeds as soon as the draws have hit both sides *)
Theorem C67_succeeds : forall a rng x r1 y r2, fp_red a -> randFp rng = Some (x, r1) -> randFp r1 = Some (y, r2) ->
  isNonQuadRes (montEval fpOps fpZero one four a x) = 0 -> isNonQuadRes (montEval fpOps fpZero one four a y) = 1 ->
  groupActionFp a zeroKey rng = Some (a, r2).
Proof.
  intros a rng x r1 y r2 Ha E1 E2 Qx Qy. unfold groupActionFp, groupAction, groupAction_st.
  assert (L : exists n, length rng = S n).
  { unfold randFp in E1. destruct rng; [discriminate E1|]. eexists. reflexivity. }
  destruct L as [n ->]. cbn [gaLoop]. rewrite E1. pose proof (zeroAt_init a) as HZ. set (st := gaInit fpOps a zeroKey) in *.
  rewrite (proj1 HZ), Qx. change (negb (0 =? 0)) with false. assert (D0 : forall b, gDone fpOps st b = false) by reflexivity. clearbody st. rewrite D0.
  destruct (round_zero a st x false Ha HZ ltac:(rewrite Qx; reflexivity) (D0 false)) as [R1 D1].
  set (st1 := gaRound fpOps fpZero one four isZero isNonQuadRes st x) in *. clearbody st1. rewrite !D1, !D0. cbn [Bool.eqb andb].
  rewrite E2, (proj1 R1), Qy. change (negb (1 =? 0)) with true. rewrite D1, D0. cbn [Bool.eqb].
  destruct (round_zero a st1 y true Ha R1 ltac:(rewrite Qy; reflexivity) ltac:(rewrite D1, D0; reflexivity)) as [R2 D2].
  set (st2 := gaRound fpOps fpZero one four isZero isNonQuadRes st1 y) in *. clearbody st2. rewrite !D2, !D1, !D0. cbn [Bool.eqb andb]. rewrite (proj1 R2). reflexivity.
Qed.
Print Assumptions C67_succeeds.

(* a concrete run: the draws 4 and -4 (in Montgomery form) on y^2 = x^3 + x *)
Definition drawBytes (x : list Z) : list Z := le_enc 64 (val x).
Definition ex_xm4 : list Z := limbs 8 (P - val ex_x4).
Lemma ex_xm4_rep : frep ex_xm4 (fq (-4)).
Proof.
  apply frep_mrep. split; [|vm_compute; reflexivity]. split; [|vm_compute; reflexivity]. split; [|apply limbs_length]. apply limbs_words.
Qed.
Lemma ex_side_m4 : isNonQuadRes (montEval fpOps fpZero one four fpZero ex_xm4) = 1.
Proof.
  apply (C36_side fpZero ex_xm4 k0 (fq (-4)) frep_zero ex_xm4_rep). exists (fq ex_y). cbn [MontCurve.onc]. apply fq_inj. vm_compute. reflexivity.
Qed.
Lemma ex_draws : forall r, randFp (drawBytes ex_x4 ++ drawBytes ex_xm4 ++ r) = Some (ex_x4, drawBytes ex_xm4 ++ r) /\ randFp (drawBytes ex_xm4 ++ r) = Some (ex_xm4, r).
Proof.
  assert (X : forall x r, fp_red x -> randFp (drawBytes x ++ r) = Some (x, r)).
  { intros x r [Hx Lx]. unfold randFp. cbn [randFp_loop]. unfold readFull64, drawBytes. rewrite app_length, le_enc_length.
    destruct (Nat.ltb_spec (64 + length r) 64) as [h|_]; [lia|]. rewrite firstn_app, skipn_app, le_enc_length, Nat.sub_diag, firstn_O, app_nil_r.
    rewrite firstn_all2, skipn_all2 by (rewrite le_enc_length; lia). rewrite app_nil_l, skipn_O.
    destruct (randFp_cand_ok (le_enc 64 (val x)) (le_enc_bytes _ _) (le_enc_length _ _)) as [F V].
    assert (PB : P < 2 ^ 511) by (apply Z.ltb_lt; vm_compute; reflexivity).
    rewrite le_dec_enc in V. change (8 * Z.of_nat 64) with 512 in V. pose proof (val_bound x (proj1 Hx)) as [V0 _].
    rewrite (Z.mod_small (val x)) in V by (split; [exact V0|]; apply Z.lt_trans with P; [exact Lx|]; apply Z.lt_trans with (2 ^ 511); [exact PB|reflexivity]).
    rewrite Z.mod_small in V by (split; [exact V0|]; apply Z.lt_trans with P; [exact Lx|exact PB]).
    assert (E : randFp_cand (le_enc 64 (val x)) = x) by (destruct F, Hx; apply val_inj; try assumption; congruence).
    rewrite E, (isLess_ok x p Hx p_ok). fold P. destruct (Z.ltb_spec (val x) P) as [_|h]; [reflexivity|lia]. }
  intros r. split; apply X; [exact (proj1 ex_frep4)|exact (proj1 ex_xm4_rep)].
Qed.
Example ex_C67 : forall r, generatePublicKey zeroKey (drawBytes ex_x4 ++ drawBytes ex_xm4 ++ r) = Ret (repeat 0 8, r).
Proof.
  intros r. unfold generatePublicKey. destruct (ex_draws r) as [E1 E2]. change (repeat 0 numWords) with fpZero.
  rewrite (C67_succeeds fpZero _ _ _ _ _ (proj1 frep_zero) E1 E2 ex_C36 ex_side_m4). reflexivity.
Qed.
