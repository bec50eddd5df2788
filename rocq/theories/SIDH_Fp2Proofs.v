(* The SIDH field implementation computes in GF(p) and GF(p^2) (Montgomery representation). *)
From Coq Require Import ZArith List Lia Bool Znumtheory.
From Verif Require Import Lib MP NT Instr SIDH_Consts SIDH_Field SIDH_FieldProofs FieldAlg.
Import ListNotations.
Open Scope Z_scope.

(* the exponent computed by p34's strategy (window digits are odd: 2*ml+1) *)
Definition p34_exp (F : fieldParams) : Z :=
  fold_left (fun e (pm : Z * Z) => let '(pw, ml) := pm in e * 2 * 2 ^ Z.max 0 (pw - 1) + (2 * ml + 1))
    (firstn (length (powStrategy F) mod 256) (combine (powStrategy F) (mulStrategy F)))
    (2 * Z.of_nat (initialMul F) + 1).
Definition strategy34_ok (F : fieldParams) (p : Z) : Prop :=
  (initialMul F < 16)%nat /\ (forall m, In m (mulStrategy F) -> 0 <= m < 16) /\ p34_exp F = (p - 3) / 4.

Section Cong.
  Variable p : Z.
  Definition cg (a b : Z) : Prop := (p | a - b).
  Lemma cg_refl : forall a, cg a a. Proof. intros. exists 0. lia. Qed.
  Lemma cg_sym : forall a b, cg a b -> cg b a. Proof. intros a b [k H]. exists (- k). lia. Qed.
  Lemma cg_trans : forall a b c, cg a b -> cg b c -> cg a c. Proof. intros a b c [k H] [l H']. exists (k + l). lia. Qed.
  Lemma cg_add : forall a b c d, cg a b -> cg c d -> cg (a + c) (b + d). Proof. intros a b c d [k H] [l H']. exists (k + l). lia. Qed.
  Lemma cg_sub : forall a b c d, cg a b -> cg c d -> cg (a - c) (b - d). Proof. intros a b c d [k H] [l H']. exists (k - l). lia. Qed.
  Lemma cg_mul : forall a b c d, cg a b -> cg c d -> cg (a * c) (b * d).
  Proof. intros a b c d [k H] [l H']. exists (k * c + b * l). assert (a = b + k * p) by lia. assert (c = d + l * p) by lia. subst a c. ring. Qed.
End Cong.

Section Fp2.
  Variable F : fieldParams.
  Variable p : Z.
  Hypothesis OK : field_ok F p.
  Hypothesis S34 : strategy34_ok F p.
  Notation n := (FpWords F).
  Notation R := (B ^ Z.of_nat n).
  Notation ok := (fpok F p).
  Notation dok := (dblok F).
  Notation cg := (cg p).
  Let pp := p_pos F p OK.
  Let Rp := R_pos F.
  Let R16 := R_16p F p OK.

  Lemma cg_mod : forall a, cg (a mod p) a.
  Proof. intros a. exists (- (a / p)). pose proof (Z.div_mod a p ltac:(lia)). lia. Qed.
  Lemma cg_eq : forall a b, cg a b <-> a mod p = b mod p.
  Proof. intros. unfold cg. rewrite <- mod_divide by lia. reflexivity. Qed.
  Lemma cg_p : forall a k, cg (a + k * p) a. Proof. intros. exists k. lia. Qed.
  Lemma cg_pow : forall a b k, cg a b -> 0 <= k -> cg (a ^ k) (b ^ k).
  Proof.
    intros a b k H Hk. rewrite <- (Z2Nat.id k) by assumption. induction (Z.to_nat k) as [|m IH]; [apply cg_refl|].
    rewrite Nat2Z.inj_succ, !Z.pow_succ_r by lia. apply cg_mul; assumption.
  Qed.
  Lemma cg_Rcancel : forall a b, cg (R * a) (R * b) -> cg a b.
  Proof.
    intros a b H. unfold cg in *. rewrite <- Z.mul_sub_distr_l in H.
    apply Gauss with R; [exact H|]. apply rel_prime_sym. exact (R_coprime F p OK).
  Qed.

  (* x holds c in Montgomery form *)
  Definition mrep (x : list Z) (c : Z) : Prop := ok x /\ cg (val x) (c * R).
  Lemma mrep_cg : forall x c d, mrep x c -> cg c d -> mrep x d.
  Proof. intros x c d [H1 H2] H. split; [exact H1|]. eapply cg_trans; [exact H2|]. apply cg_mul; [exact H|apply cg_refl]. Qed.
  Lemma mrep_inj : forall x c d, mrep x c -> mrep x d -> cg c d.
  Proof. intros x c d [_ H1] [_ H2]. apply cg_Rcancel. rewrite !(Z.mul_comm R). eapply cg_trans; [apply cg_sym; exact H1|exact H2]. Qed.

  (* x holds c * R^2 in double width *)
  Definition drep (x : list Z) (c : Z) : Prop := dok x /\ cg (val x) (c * R * R).

  Lemma mrep_zero : mrep (zeroFp F) 0.
  Proof. split; [apply (fpok_zero F p OK)|]. unfold zeroFp. rewrite val_repeat_0. apply cg_refl. Qed.
  Lemma mrep_addP : forall x y c d, mrep x c -> mrep y d -> mrep (addP F x y) (c + d).
  Proof.
    intros x y c d [Hx Cx] [Hy Cy]. destruct (addP_spec F p OK x y Hx Hy) as [O V]. split; [exact O|].
    rewrite Z.mul_add_distr_r. eapply cg_trans; [|apply cg_add; [exact Cx|exact Cy]].
    rewrite V. destruct (_ <? _); [apply cg_refl|]. exists (-2). lia.
  Qed.
  Lemma mrep_subP : forall x y c d, mrep x c -> mrep y d -> mrep (subP F x y) (c - d).
  Proof.
    intros x y c d [Hx Cx] [Hy Cy]. destruct (subP_spec F p OK x y Hx Hy) as [O V]. split; [exact O|].
    rewrite Z.mul_sub_distr_r. eapply cg_trans; [|apply cg_sub; [exact Cx|exact Cy]].
    rewrite V. destruct (_ <? _); [|apply cg_refl]. exists 2. lia.
  Qed.
  Lemma drep_mulPx : forall x y c d, mrep x c -> mrep y d -> drep (mulPx F x y) (c * d) /\ 0 <= val (mulPx F x y) < 4 * p * p.
  Proof.
    intros x y c d [Hx Cx] [Hy Cy]. destruct (mulPx_ok F p OK x y Hx Hy) as [O V]. rewrite V.
    pose proof (fpok_nonneg F p x Hx). pose proof (fpok_nonneg F p y Hy).
    split; [split; [exact O|]|nia]. rewrite V. replace (c * d * R * R) with (c * R * (d * R)) by ring. apply cg_mul; assumption.
  Qed.
  Lemma drep_adlP : forall x y c d, drep x c -> drep y d -> 0 <= val x -> 0 <= val y -> val x + val y < R * R ->
    drep (adlP x y) (c + d) /\ val (adlP x y) = val x + val y.
  Proof.
    intros x y c d [Hx Cx] [Hy Cy] _ _ L. destruct (adlP_spec F x y Hx Hy L) as [O V]. split; [split; [exact O|]|exact V].
    rewrite V. replace ((c + d) * R * R) with (c * R * R + d * R * R) by ring. apply cg_add; assumption.
  Qed.
  Lemma drep_sulP : forall x y c d, drep x c -> drep y d -> 0 <= val x < p * R -> 0 <= val y <= p * R ->
    drep (sulP F x y) (c - d) /\ 0 <= val (sulP F x y) < p * R.
  Proof.
    intros x y c d [Hx Cx] [Hy Cy] Lx Ly. destruct (sulP_spec F p OK x y Hx Hy ltac:(lia)) as [O V].
    assert (E : cg (val (sulP F x y)) (val x - val y)).
    { rewrite V. destruct (_ <? _); [exists R; lia|apply cg_refl]. }
    split; [split; [exact O|]|].
    - replace ((c - d) * R * R) with (c * R * R - d * R * R) by ring. eapply cg_trans; [exact E|]. apply cg_sub; assumption.
    - rewrite V. destruct (Z.ltb_spec (val x - val y) 0); lia.
  Qed.
  Lemma mrep_rdc : forall x c, drep x c -> val x < p * R -> mrep (rdc F x) c.
  Proof.
    intros x c [Hx Cx] L. destruct (rdc_ok F p OK x Hx L) as [O V]. split; [exact O|].
    apply cg_Rcancel. apply cg_eq in Cx. apply cg_eq. rewrite V, Cx. f_equal. ring.
  Qed.
  Lemma p4R : 4 * p * p < p * R. Proof. nia. Qed.
  Lemma mrep_mulP : forall x y c d, mrep x c -> mrep y d -> mrep (mulP F x y) (c * d).
  Proof.
    intros x y c d Hx Hy. destruct (drep_mulPx x y c d Hx Hy) as [D L]. apply mrep_rdc; [exact D|]. pose proof p4R. lia.
  Qed.

  (* ---------- p34 ---------- *)
  Lemma mrep_sqrs : forall k x c, mrep x c -> mrep (sqrs F k x) (c ^ (2 ^ Z.of_nat k)).
  Proof.
    induction k; intros x c H. { cbn [sqrs]. rewrite Z.pow_1_r. exact H. }
    cbn [sqrs]. rewrite Nat2Z.inj_succ, Z.pow_succ_r by lia.
    rewrite Z.pow_mul_r by (try lia; apply Z.pow_nonneg; lia). apply IHk. rewrite Z.pow_2_r. apply mrep_mulP; exact H.
  Qed.
  Lemma lookup34_ok : forall x c, mrep x c -> forall i, (i < 16)%nat ->
    mrep (nth i (lookup34 F x) []) (c ^ (2 * Z.of_nat i + 1)).
  Proof.
    intros x c H. unfold lookup34. set (xx := mulP F x x).
    assert (X : mrep xx (c * c)) by (apply mrep_mulP; exact H).
    assert (G : forall m, let t := fold_left (fun t _ => t ++ [mulP F (last t []) xx]) (seq 1 m) [x] in
      length t = S m /\ last t [] = nth m t [] /\ forall i, (i < S m)%nat -> mrep (nth i t []) (c ^ (2 * Z.of_nat i + 1))).
    { induction m.
      - cbn. split; [reflexivity|]. split; [reflexivity|]. intros i Hi. assert (i = 0)%nat as -> by lia. cbn. rewrite Z.mul_1_r. exact H.
      - rewrite seq_S, fold_left_app. cbn [fold_left]. set (t := fold_left _ (seq 1 m) [x]) in *.
        destruct IHm as (L & La & N). split; [|split].
        + rewrite app_length, L. cbn. lia.
        + rewrite last_last, app_nth2, L, Nat.sub_diag by lia. reflexivity.
        + intros i Hi. destruct (Nat.eq_dec i (S m)) as [->|].
          * rewrite app_nth2, L, Nat.sub_diag by lia. cbn [nth]. rewrite La.
            replace (2 * Z.of_nat (S m) + 1) with (2 * Z.of_nat m + 1 + 2) by lia.
            rewrite Z.pow_add_r, Z.pow_2_r by lia. apply mrep_mulP; [apply N; lia|exact X].
          * rewrite app_nth1 by lia. apply N. lia. }
    exact (proj2 (proj2 (G 15%nat))).
  Qed.
  Lemma p34_ok : forall x c, mrep x c -> mrep (p34 F x) (c ^ ((p - 3) / 4)).
  Proof.
    intros x c H. destruct S34 as (I & M & E). rewrite <- E. unfold p34, p34_exp.
    set (L := firstn _ (combine _ _)).
    assert (ML : forall pm, In pm L -> 0 <= snd pm < 16).
    { intros [pw ml] Hin. apply M. assert (G : In (pw, ml) (combine (powStrategy F) (mulStrategy F))).
      { rewrite <- (firstn_skipn (length (powStrategy F) mod 256)). apply in_or_app. left. exact Hin. }
      apply in_combine_r in G. exact G. }
    pose proof (lookup34_ok x c H) as T. set (t := lookup34 F x) in *.
    assert (G0 : 0 <= 2 * Z.of_nat (initialMul F) + 1) by lia.
    pose proof (T (initialMul F) I) as T0.
    generalize dependent (2 * Z.of_nat (initialMul F) + 1). generalize (nth (initialMul F) t []). clear E I M.
    induction L as [|[pw ml] L IH]; intros d e He Hd; [exact Hd|].
    cbn [fold_left]. apply IH.
    - intros; apply ML; right; assumption.
    - pose proof (ML (pw, ml) ltac:(left; reflexivity)) as Q. cbn [snd] in Q.
      assert (0 <= 2 ^ Z.max 0 (pw - 1)) by (apply Z.pow_nonneg; lia). nia.
    - pose proof (ML (pw, ml) ltac:(left; reflexivity)) as Q. cbn [snd] in Q.
      unfold p34_step. 
      assert (PW : Z.of_nat (Z.to_nat (pw - 1)) = Z.max 0 (pw - 1)) by lia.
      assert (P0 : 0 <= 2 ^ Z.max 0 (pw - 1)) by (apply Z.pow_nonneg; lia).
      rewrite Z.pow_add_r by nia. apply mrep_mulP.
      + replace (e * 2 * 2 ^ Z.max 0 (pw - 1)) with (2 * e * 2 ^ Z.max 0 (pw - 1)) by ring.
        rewrite Z.pow_mul_r by lia. rewrite <- PW. apply mrep_sqrs.
        replace (2 * e) with (e + e) by ring. rewrite Z.pow_add_r by lia. apply mrep_mulP; exact Hd.
      + pose proof (T (Z.to_nat ml) ltac:(lia)) as T1. rewrite Z2Nat.id in T1 by lia. exact T1.
  Qed.

  (* ---------- GF(p^2) ---------- *)
  Definition Kp : fld := Fp p (fo_prime _ _ OK).
  Definition K2 : fld := Fp2 p (fo_prime _ _ OK) (fo_34 _ _ OK).
  Notation v a := (fpv p a).
  (* x holds the element a of GF(p^2) *)
  Definition rep (x : fp2) (a : K2) : Prop := mrep (fst x) (v (fst a)) /\ mrep (snd x) (v (snd a)).

  Lemma rep_cg : forall x (a : Kp) z, mrep x z -> v a = z mod p -> mrep x (v a).
  Proof. intros x a z H E. rewrite E. eapply mrep_cg; [exact H|]. apply cg_sym, cg_mod. Qed.
  Lemma v_inj : forall a b : Kp, cg (v a) (v b) -> a = b.
  Proof. intros a b H. apply fpv_inj. apply cg_eq in H. rewrite !fpv_mod in H. exact H. Qed.
  Lemma rep_inj : forall x (a b : K2), rep x a -> rep x b -> a = b.
  Proof.
    intros x [a1 a2] [b1 b2] [H1 H2] [H3 H4]. cbn [fst snd] in *.
    rewrite (v_inj a1 b1 (mrep_inj _ _ _ H1 H3)), (v_inj a2 b2 (mrep_inj _ _ _ H2 H4)). reflexivity.
  Qed.
  Lemma rep_exists : forall x, ok (fst x) -> ok (snd x) -> exists a, rep x a.
  Proof.
    assert (G : forall y, ok y -> exists a : Kp, mrep y (v a)).
    { intros y Hy. destruct (rel_prime_bezout _ _ (R_coprime F p OK)) as [u w Huw].
      exists (fpm p (fo_prime _ _ OK) (val y * u)). rewrite fpv_fpm. split; [exact Hy|].
      apply cg_sym. eapply cg_trans; [apply cg_mul; [apply cg_mod|apply cg_refl]|].
      exists (- val y * w). replace (val y * u * R - val y) with (val y * (u * R - 1)) by ring.
      replace (u * R - 1) with (- w * p) by lia. ring. }
    intros [x1 x2] H1 H2. destruct (G x1 H1) as [a1 A1]. destruct (G x2 H2) as [a2 A2]. exists (a1, a2). split; assumption.
  Qed.

  Lemma rep_add : forall x y (a b : K2), rep x a -> rep y b -> rep (fp2add F x y) (kadd a b).
  Proof.
    intros [x1 x2] [y1 y2] [a1 a2] [b1 b2] [X1 X2] [Y1 Y2]. cbn [fst snd] in *. unfold fp2add. cbn [fst snd]. split; cbn [fst snd].
    - eapply rep_cg; [apply mrep_addP; eassumption|reflexivity].
    - eapply rep_cg; [apply mrep_addP; eassumption|reflexivity].
  Qed.
  Lemma rep_sub : forall x y (a b : K2), rep x a -> rep y b -> rep (fp2sub F x y) (ksub a b).
  Proof.
    intros [x1 x2] [y1 y2] [a1 a2] [b1 b2] [X1 X2] [Y1 Y2]. cbn [fst snd] in *. unfold fp2sub. cbn [fst snd]. split; cbn [fst snd].
    - eapply rep_cg; [apply mrep_subP; eassumption|reflexivity].
    - eapply rep_cg; [apply mrep_subP; eassumption|reflexivity].
  Qed.
  Lemma v_add : forall a b : Kp, v (kadd a b) = (v a + v b) mod p. Proof. reflexivity. Qed.
  Lemma v_sub : forall a b : Kp, v (ksub a b) = (v a - v b) mod p. Proof. reflexivity. Qed.
  Lemma v_mul : forall a b : Kp, v (kmul a b) = (v a * v b) mod p. Proof. reflexivity. Qed.
  Lemma v_addc : forall a b : Kp, cg (v (kadd a b)) (v a + v b). Proof. intros. rewrite v_add. apply cg_mod. Qed.
  Lemma v_subc : forall a b : Kp, cg (v (ksub a b)) (v a - v b). Proof. intros. rewrite v_sub. apply cg_mod. Qed.
  Lemma v_mulc : forall a b : Kp, cg (v (kmul a b)) (v a * v b). Proof. intros. rewrite v_mul. apply cg_mod. Qed.

  Lemma mul_re : forall a b : K2, cg (v (fst (kmul a b))) (v (fst a) * v (fst b) - v (snd a) * v (snd b)).
  Proof.
    intros [a1 a2] [b1 b2]. cbn [fst snd]. eapply cg_trans; [apply (v_subc (kmul (a1 : Kp) b1) (kmul (a2 : Kp) b2))|].
    apply cg_sub; apply v_mulc.
  Qed.
  Lemma mul_im : forall a b : K2, cg (v (snd (kmul a b))) (v (fst a) * v (snd b) + v (snd a) * v (fst b)).
  Proof.
    intros [a1 a2] [b1 b2]. cbn [fst snd]. eapply cg_trans; [apply (v_addc (kmul (a1 : Kp) b2) (kmul (a2 : Kp) b1))|].
    apply cg_add; apply v_mulc.
  Qed.

  Lemma rep_mul : forall x y (a b : K2), rep x a -> rep y b -> rep (fp2mul F x y) (kmul a b).
  Proof.
    intros x y a b [X1 X2] [Y1 Y2]. unfold fp2mul.
    destruct (drep_mulPx _ _ _ _ X1 Y1) as [AC LAC]. destruct (drep_mulPx _ _ _ _ X2 Y2) as [BD LBD].
    pose proof (mrep_subP _ _ _ _ X2 X1) as BA. pose proof (mrep_subP _ _ _ _ Y1 Y2) as CD.
    destruct (drep_mulPx _ _ _ _ BA CD) as [M LM].
    set (m := mulPx F (subP F (snd x) (fst x)) (subP F (fst y) (snd y))) in *.
    set (ac := mulPx F (fst x) (fst y)) in *. set (bd := mulPx F (snd x) (snd y)) in *.
    assert (P2 : 16 * p * p <= p * R) by nia. assert (PR : p * R < R * R) by nia.
    destruct (drep_adlP m ac _ _ M AC ltac:(lia) ltac:(lia) ltac:(lia)) as [A1 V1].
    destruct (drep_adlP _ bd _ _ A1 BD ltac:(lia) ltac:(lia) ltac:(lia)) as [A2 V2].
    destruct (drep_sulP ac bd _ _ AC BD ltac:(lia) ltac:(lia)) as [S1 VS].
    split; cbn [fst snd].
    - eapply mrep_cg; [apply mrep_rdc; [exact S1|lia]|]. apply cg_sym, mul_re.
    - eapply mrep_cg; [apply mrep_rdc; [exact A2|lia]|]. apply cg_sym. eapply cg_trans; [apply mul_im|].
      match goal with |- cg ?s ?t => replace t with s by ring end. apply cg_refl.
  Qed.
  Lemma rep_sqr : forall x (a : K2), rep x a -> rep (fp2sqr F x) (kmul a a).
  Proof.
    intros x a [X1 X2]. unfold fp2sqr.
    pose proof (mrep_addP _ _ _ _ X1 X1) as A2. pose proof (mrep_addP _ _ _ _ X1 X2) as AB. pose proof (mrep_subP _ _ _ _ X1 X2) as AmB.
    destruct (drep_mulPx _ _ _ _ AB AmB) as [M1 L1]. destruct (drep_mulPx _ _ _ _ A2 X2) as [M2 L2]. pose proof p4R.
    split; cbn [fst snd].
    - eapply mrep_cg; [apply mrep_rdc; [exact M1|lia]|]. apply cg_sym. eapply cg_trans; [apply mul_re|].
      match goal with |- cg ?s ?t => replace t with s by ring end. apply cg_refl.
    - eapply mrep_cg; [apply mrep_rdc; [exact M2|lia]|]. apply cg_sym. eapply cg_trans; [apply mul_im|].
      match goal with |- cg ?s ?t => replace t with s by ring end. apply cg_refl.
  Qed.

  Lemma v_inv : forall a : Kp, cg (v (kinv a)) (v a ^ (p - 2)).
  Proof.
    intros a. change (v (kinv a)) with (fpinvZ p (v a) mod p). eapply cg_trans; [apply cg_mod|]. unfold fpinvZ.
    destruct (Z.eqb_spec (v a mod p) 0) as [E|E]; [|apply cg_mod].
    rewrite fpv_mod in E. rewrite E, Z.pow_0_l by lia. apply cg_refl.
  Qed.
  Lemma rep_inv : forall x (a : K2), rep x a -> rep (fp2inv F x) (kinv a).
  Proof.
    intros x a [X1 X2]. unfold fp2inv.
    destruct (drep_mulPx _ _ _ _ X1 X1) as [M1 L1]. destruct (drep_mulPx _ _ _ _ X2 X2) as [M2 L2].
    assert (P2 : 16 * p * p <= p * R) by nia. assert (PR : p * R < R * R) by nia.
    destruct (drep_adlP _ _ _ _ M1 M2 ltac:(lia) ltac:(lia) ltac:(lia)) as [A V].
    set (N := v (fst a) * v (fst a) + v (snd a) * v (snd a)) in *.
    set (e1 := adlP _ _) in *. assert (F1 : mrep (rdc F e1) N) by (apply mrep_rdc; [exact A|lia]).
    set (f1 := rdc F e1) in *.
    assert (F2 : mrep (mulP F (mulP F (p34 F (mulP F f1 f1)) (p34 F (mulP F f1 f1))) f1) (N ^ (p - 2))).
    { pose proof (p34_ok _ _ (mrep_mulP _ _ _ _ F1 F1)) as Q. pose proof (mrep_mulP _ _ _ _ (mrep_mulP _ _ _ _ Q Q) F1) as Q2.
      eapply mrep_cg; [exact Q2|]. set (e := (p - 3) / 4).
      assert (E4 : p - 2 = e + e + e + e + 1).
      { unfold e. pose proof (Z.div_mod (p - 3) 4 ltac:(lia)) as D. pose proof (fo_34 _ _ OK) as M4.
        assert (M0 : (p - 3) mod 4 = 0) by (rewrite Zminus_mod, M4; reflexivity). lia. }
      assert (0 <= e) by (apply Z.div_pos; lia).
      rewrite E4, !Z.pow_add_r, Z.pow_1_r, Z.pow_mul_l by lia.
      match goal with |- cg ?s ?t => replace t with s by ring end. apply cg_refl. }
    set (f2 := mulP F _ f1) in *.
    assert (NV : cg (N ^ (p - 2)) (v (kinv (f2norm p (fo_prime _ _ OK) a : Kp)))).
    { apply cg_sym. eapply cg_trans; [apply v_inv|]. apply cg_pow; [|lia]. unfold f2norm.
      eapply cg_trans; [apply (v_addc (kmul (fst a : Kp) (fst a)) (kmul (snd a : Kp) (snd a)))|]. apply cg_add; apply v_mulc. }
    split; cbn [fst snd].
    - destruct (drep_mulPx _ _ _ _ X1 F2) as [M3 L3]. eapply mrep_cg; [apply mrep_rdc; [exact M3|lia]|].
      apply cg_sym. eapply cg_trans; [apply (v_mulc (fst a) (kinv (f2norm p (fo_prime _ _ OK) a : Kp)))|].
      apply cg_mul; [apply cg_refl|apply cg_sym; exact NV].
    - pose proof (mrep_subP _ _ _ _ mrep_zero X2) as F3. destruct (drep_mulPx _ _ _ _ F3 F2) as [M3 L3].
      eapply mrep_cg; [apply mrep_rdc; [exact M3|lia]|].
      apply cg_sym. eapply cg_trans; [apply (v_mulc (kopp (snd a : Kp)) (kinv (f2norm p (fo_prime _ _ OK) a : Kp)))|].
      apply cg_mul; [|apply cg_sym; exact NV]. change (v (kopp (snd a : Kp))) with ((- v (snd a)) mod p).
      eapply cg_trans; [apply cg_mod|]. apply cg_refl.
  Qed.

  Variable one : fp2.
  Hypothesis one_ok : rep one k1.
  Lemma rep_powp : forall k x (a : K2), rep x a -> rep (fp2powp F x k) (kpowp a k).
  Proof.
    induction k; intros x a H; cbn [fp2powp kpowp]; auto using rep_mul.
  Qed.
  Theorem sim_sidh : simulates (sidhOps F one) (absOps K2) rep.
  Proof.
    constructor; cbn [sidhOps absOps car fadd fsub fmul fsqr finv fpow].
    - intros; apply rep_add; assumption.
    - intros; apply rep_sub; assumption.
    - intros; apply rep_mul; assumption.
    - intros; apply rep_sqr; assumption.
    - intros; apply rep_inv; assumption.
    - intros x x' k H Hk. destruct k; [exact one_ok|apply rep_powp; exact H|lia].
  Qed.

  (* ---------- conversions ---------- *)
  Lemma val_pad : forall l m, val (l ++ repeat 0 m) = val l.
  Proof. intros. rewrite val_app, val_repeat_0. ring. Qed.
  (* any FpWords words, not only reduced ones *)
  Lemma toMont1 : forall x, words x -> length x = n -> mrep (rdc F (mulPx F x (fR2 F))) (val x).
  Proof.
    intros x W L. destruct (fo_R2 _ _ OK) as (W2 & L2 & V2).
    destruct (mulPx_spec F x (fR2 F) W W2 L L2 (fo_n1 _ _ OK) (fo_n2 _ _ OK)) as (A & C & D).
    pose proof (val_bound x W) as Bx. rewrite L in Bx.
    assert (B2 : 0 <= val (fR2 F) < p) by (rewrite V2; apply Z.mod_pos_bound; lia).
    apply mrep_rdc.
    - split; [split; assumption|]. rewrite D, V2. rewrite <- Z.mul_assoc. apply cg_mul; [apply cg_refl|apply cg_mod].
    - rewrite D. nia.
  Qed.
  Lemma fromMont1 : forall x c, mrep x c ->
    words (modP F (rdc F (x ++ repeat 0 n))) /\ length (modP F (rdc F (x ++ repeat 0 n))) = n /\
    val (modP F (rdc F (x ++ repeat 0 n))) = c mod p.
  Proof.
    intros x c [(W & L & V) C].
    assert (D : dok (x ++ repeat 0 n)).
    { split; [apply words_app; [exact W|apply words_repeat_0]|]. rewrite app_length, repeat_length. lia. }
    destruct (rdc_ok F p OK _ D ltac:(rewrite val_pad; nia)) as [O E]. rewrite val_pad in E.
    destruct (modP_spec F p OK _ O) as (A1 & A2 & A3). split; [exact A1|]. split; [exact A2|].
    rewrite A3. apply cg_eq. apply cg_Rcancel. apply cg_eq in C. apply cg_eq. rewrite E, C. f_equal. ring.
  Qed.
End Fp2.
