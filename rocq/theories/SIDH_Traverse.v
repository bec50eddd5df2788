(* The strategy-driven tree traversal of core.go performs the naive chain of isogenies, for every
   strategy that passes an index-only check. *)
From Coq Require Import ZArith List Lia Bool Field.
From Verif Require Import Lib MP Instr FieldAlg MontCurve SIDH_Consts SIDH_Field SIDH_Curve SIDH_Line.
Import ListNotations.
Open Scope Z_scope.

(* ---------- the traversal's bookkeeping without the points ---------- *)
Section Check.
  Variable strat : list Z.
  Let stratSz := Z.of_nat (length strat).
  Fixpoint chk_inner (fuel : nat) (j : Z) (indices : list Z) (i : Z) (sIdx : nat) : option (list Z * Z * nat) :=
    match fuel with
    | O => None
    | S fuel =>
      if i <=? stratSz - j then
        match nth_error strat sIdx with
        | None => None
        | Some k => if (1 <=? k) && (k <? 2 ^ 31) then chk_inner fuel j (i :: indices) (i + k) (S sIdx) else None
        end
      else Some (indices, i, sIdx)
    end.
  (* after the inner loop the current point is exactly stratSz - j + 1 levels down *)
  Definition chk_step (st : option (list Z * Z * nat)) (j : nat) : option (list Z * Z * nat) :=
    match st with
    | None => None
    | Some (indices, i, sIdx) =>
      match chk_inner (length strat + 2) (Z.of_nat j) indices i sIdx with
      | Some (i' :: indices, i, sIdx) => if i =? stratSz - Z.of_nat j + 1 then Some (indices, i', sIdx) else None
      | _ => None
      end
    end.
  (* all entries used, stacks empty at the end *)
  Definition strat_ok : bool :=
    match fold_left chk_step (seq 1 (length strat)) (Some ([], 0, 0%nat)) with
    | Some ([], i, sIdx) => (i =? 0) && (Nat.eqb sIdx (length strat))
    | _ => false
    end.
End Check.

Section Walk.
  Variable F : fld.
  Notation pt := (pt F). Notation eqv := (eqv F). Notation nz := (nz F). Notation aff := (aff F).
  (* one side of the protocol: multiplication by l^k, codomain, isogeny, kernel condition, exact order *)
  Variable mulp : F -> nat -> pt -> pt.
  Variable cod : F -> F -> F.
  Variable iso : F -> pt -> pt.
  Variable kok : F -> F -> Prop.
  Variable ord : F -> nat -> pt -> Prop.
  Fixpoint gwalk (n : nat) (a : F) (p : pt) : F * (pt -> pt) :=
    match n with
    | O => (a, fun x => x)
    | S n => let s := aff (mulp a n p) in
             let w := gwalk n (cod a s) (iso s p) in (fst w, fun x => snd w (iso s x))
    end.
  Record side : Prop := {
    m_0 : forall a p, mulp a 0 p = p;
    m_add : forall a i k p, mulp a (i + k) p = mulp a i (mulp a k p);
    m_eqv : forall a k p q, eqv p q -> eqv (mulp a k p) (mulp a k q);
    m_hom : forall a s k p, nonsing F a -> kok a s -> nz p -> eqv (mulp (cod a s) k (iso s p)) (iso s (mulp a k p));
    i_eqv : forall s p q, eqv p q -> eqv (iso s p) (iso s q);
    o_nz : forall a n p, nonsing F a -> ord a (S n) p -> nz p;
    o_ker : forall a n p, nonsing F a -> ord a (S n) p -> exists s, eqv (mulp a n p) (s, k1) /\ kok a s /\ nonsing F (cod a s) /\ ord (cod a s) n (iso s p)
  }.
  Hypothesis SD : side.

  (* the implementation *)
  Variable V : sops.
  Variable PHI : Type.
  Variable pow : point V -> curve V -> Z -> point V.
  Variable genc : point V -> curve V * PHI.
  Variable evalp : PHI -> point V -> point V.
  Variable RP : point V -> pt -> Prop.
  Variable RC : curve V -> F -> Prop.
  Record impl : Prop := {
    r_eqv : forall x p q, RP x p -> eqv p q -> RP x q;
    r_pow : forall x e p a k, RP x p -> RC e a -> 0 <= k < 2 ^ 31 -> RP (pow x e k) (mulp a (Z.to_nat k) p);
    r_gen : forall x a s, RP x (s, k1) -> nonsing F a -> kok a s -> RC (fst (genc x)) (cod a s);
    r_eval : forall x a s y q, RP x (s, k1) -> nonsing F a -> kok a s -> RP y q -> RP (evalp (snd (genc x)) y) (iso s q)
  }.
  Hypothesis IM : impl.

  Section Strat.
  Variable strat : list Z.
  Definition sinv (a : F) (p : pt) (points : list (point V)) (indices : list Z) : Prop :=
    Forall2 (fun x i => 0 <= i /\ RP x (mulp a (Z.to_nat i) p)) points indices.
  Lemma inner_ok : forall fuel j cp a p xR points indices i sIdx indices' i' sIdx',
    RC cp a -> sinv a p points indices -> 0 <= i -> RP xR (mulp a (Z.to_nat i) p) ->
    chk_inner strat fuel j indices i sIdx = Some (indices', i', sIdx') ->
    exists xR' points', trav_inner V pow strat fuel j cp xR points indices i sIdx = Ret (xR', points', indices', i', sIdx') /\
      sinv a p points' indices' /\ 0 <= i' /\ RP xR' (mulp a (Z.to_nat i') p).
  Proof.
    induction fuel as [|fuel IH]; intros j cp a p xR points indices i sIdx indices' i' sIdx' HC HI Hi HX H; [discriminate|].
    cbn [chk_inner trav_inner] in *. destruct (i <=? Z.of_nat (length strat) - j).
    - destruct (nth_error strat sIdx) as [k|]; [|discriminate]. destruct ((1 <=? k) && (k <? 2 ^ 31)) eqn:EK; [|discriminate].
      apply andb_prop in EK. destruct EK as [K1 K2]. apply Z.leb_le in K1. apply Z.ltb_lt in K2.
      eapply IH; try eassumption.
      + constructor; [split; assumption|exact HI].
      + lia.
      + replace (Z.to_nat (i + k)) with (Z.to_nat k + Z.to_nat i)%nat by lia. rewrite (m_add SD). apply (r_pow IM); [assumption|assumption|lia].
    - injection H as -> -> ->. exists xR, points. split; [reflexivity|]. split; [exact HI|]. split; assumption.
  Qed.
  Lemma loop_ok : forall c j cp a p xR points indices i sIdx ps (ps0 : list pt) (G : pt -> pt) sf,
    nonsing F a -> RC cp a -> sinv a p points indices -> 0 <= i -> RP xR (mulp a (Z.to_nat i) p) -> ord a (S c) p ->
    Forall2 (fun q' q => RP q' (G q)) ps ps0 ->
    (j + c = S (length strat))%nat ->
    fold_left (chk_step strat) (seq j c) (Some (indices, i, sIdx)) = Some ([], 0, sf) ->
    exists cp' xR' ps' a' p' H,
      fold_left (trav_step V pow genc evalp strat) (seq j c) (Ret (cp, xR, points, indices, i, sIdx, ps)) = Ret (cp', xR', [], [], 0, sf, ps') /\
      RC cp' a' /\ nonsing F a' /\ ord a' 1 p' /\ RP xR' p' /\ Forall2 (fun q' q => RP q' (H (G q))) ps' ps0 /\
      fst (gwalk (S c) a p) = cod a' (aff p') /\ (forall q, snd (gwalk (S c) a p) q = iso (aff p') (H q)).
  Proof.
    induction c as [|c IH]; intros j cp a p xR points indices i sIdx ps ps0 G sf NS HC HI Hi HX HO HP HJ H.
    - cbn [seq fold_left] in *. injection H as -> -> ->. inversion HI; subst.
      exists cp, xR, ps, a, p, (fun q => q). change (Z.to_nat 0) with 0%nat in HX. rewrite (m_0 SD) in HX. cbn [gwalk fst snd].
      rewrite (m_0 SD). split; [reflexivity|]. split; [exact HC|]. split; [exact NS|]. split; [exact HO|]. split; [exact HX|]. split; [exact HP|]. split; reflexivity.
    - cbn [seq fold_left] in *. unfold chk_step at 2 in H.
      destruct (chk_inner strat (length strat + 2) (Z.of_nat j) indices i sIdx) as [[[idx i'] sI]|] eqn:EC.
      2:{ exfalso. clear - H. induction (seq (S j) c) as [|x l IHl]; [discriminate|]. cbn [fold_left chk_step] in H. auto. }
      assert (DN : forall l, fold_left (chk_step strat) l None = None) by (clear; induction l as [|x l IHl]; [reflexivity|exact IHl]).
      destruct idx as [|top idx]; [rewrite DN in H; discriminate|].
      destruct (i' =? Z.of_nat (length strat) - Z.of_nat j + 1) eqn:EI; [|rewrite DN in H; discriminate].
      apply Z.eqb_eq in EI.
      destruct (inner_ok _ _ cp a p xR points indices i sIdx _ _ _ HC HI Hi HX EC) as (xR1 & pts1 & ET & HI1 & Hi1 & HX1).
      unfold trav_step at 2. cbn [bind]. rewrite ET. cbn [bind].
      replace (Z.to_nat i') with (S c) in HX1 by lia.
      destruct (o_ker SD a (S c) p NS HO) as (s & ES & KS & NS' & HO').
      pose proof (o_nz SD a (S c) p NS HO) as NP.
      pose proof (r_eqv IM _ _ _ HX1 ES) as HX2.
      destruct (genc xR1) as [cp1 phi] eqn:EG.
      pose proof (r_gen IM xR1 a s HX2 NS KS) as HC1. rewrite EG in HC1. cbn [fst] in HC1.
      assert (HE : forall y q, RP y q -> RP (evalp phi y) (iso s q)).
      { intros y q HY. pose proof (r_eval IM xR1 a s y q HX2 NS KS HY) as E. rewrite EG in E. exact E. }
      inversion HI1 as [|xt top' pts2 idx' [Ht HT] HR]; subst. cbn [map].
      assert (ML : forall y k, RP y (mulp a k p) -> RP (evalp phi y) (mulp (cod a s) k (iso s p))).
      { intros y k HY. eapply (r_eqv IM); [apply HE, HY|]. apply eqv_sym, (m_hom SD); assumption. }
      edestruct (IH (S j) cp1 (cod a s) (iso s p) (evalp phi xt) (map (evalp phi) pts2) idx top sI (map (evalp phi) ps) ps0 (fun q => iso s (G q)) sf)
        as (cp' & xR' & ps' & a' & p' & H' & A1 & A2 & A3 & A4 & A5 & A6 & A7 & A8).
      + exact NS'.
      + exact HC1.
      + clear - HR ML. induction HR as [|y k ys ks [Hk HY] _ IHR]; constructor; [|exact IHR]. split; [exact Hk|]. apply ML, HY.
      + exact Ht.
      + apply ML, HT.
      + exact HO'.
      + clear - HP HE. induction HP as [|y q ys qs HY _ IHP]; constructor; [|exact IHP]. apply HE, HY.
      + lia.
      + exact H.
      + exists cp', xR', ps', a', p', (fun q => H' (iso s q)).
        split; [exact A1|]. split; [exact A2|]. split; [exact A3|]. split; [exact A4|]. split; [exact A5|]. split; [exact A6|].
        cbn [gwalk]. replace (aff (mulp a (S c) p)) with s by (symmetry; apply eqv_aff1; exact ES).
        cbn [gwalk] in A7, A8. cbn [fst snd]. split; [exact A7|]. intros q. apply (A8 (iso s q)).
  Qed.
  (* the traversal followed by the last isogeny of PublicKeyGen / DeriveSecret *)
  Theorem traverse_ok : strat_ok strat = true -> forall cp a p xR ps ps0,
    nonsing F a -> RC cp a -> RP xR p -> ord a (S (length strat)) p -> Forall2 RP ps ps0 ->
    exists xR' ps', traverse V pow genc evalp strat cp xR ps = Ret (xR', ps') /\
      RC (fst (genc xR')) (fst (gwalk (S (length strat)) a p)) /\
      Forall2 (fun q' q => RP (evalp (snd (genc xR')) q') (snd (gwalk (S (length strat)) a p) q)) ps' ps0.
  Proof.
    intros OK cp a p xR ps ps0 NS HC HX HO HP. unfold strat_ok in OK.
    destruct (fold_left (chk_step strat) (seq 1 (length strat)) (Some ([], 0, 0%nat))) as [[[[|? ?] i] sI]|] eqn:E; try discriminate.
    apply andb_prop in OK. destruct OK as [OK _]. apply Z.eqb_eq in OK. subst i.
    destruct (loop_ok (length strat) 1 cp a p xR [] [] 0 0%nat ps ps0 (fun q => q) sI) as (cp' & xR' & ps' & a' & p' & H & A1 & A2 & A3 & A4 & A5 & A6 & A7 & A8);
      try assumption; try lia.
    - constructor.
    - change (Z.to_nat 0) with 0%nat. rewrite (m_0 SD). exact HX.
    - exists xR', ps'. unfold traverse. rewrite A1. cbn [bind]. split; [reflexivity|].
      destruct (o_ker SD a' 0 p' A3 A4) as (s & ES & KS & _). rewrite (m_0 SD) in ES.
      rewrite A7, (eqv_aff1 F p' s ES). pose proof (r_eqv IM _ _ _ A5 ES) as HS. split; [apply (r_gen IM); assumption|].
      clear - A6 A8 IM HS A3 KS ES. induction A6 as [|y q ys qs HY _ IHP]; constructor; [|exact IHP]. rewrite A8, (eqv_aff1 F p' s ES). eapply (r_eval IM); eassumption.
  Qed.
  End Strat.
End Walk.
