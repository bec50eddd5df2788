(* C19 - C23: CTR_DRBG. *)
From Coq Require Import ZArith List Bool Lia.
From Verif Require Import Lib AES_Spec AES_Model AES_Proofs AES_Proofs2 P_AES DRBG_Spec DRBG_Model DRBG_Proofs.
Import ListNotations.
Open Scope Z_scope.

(** * Call histories *)
(* a read is described by the caller's buffer (its contents are overwritten) and the additional data *)
Inductive call := CInit (entropy pers : list Z) | CReseed (entropy data : list Z) | CRead (out ad : list Z).
Inductive obs := Accepted (b : bool) | Done | Bytes (o : list Z) (n : Z).

Definition mcall (c : CtrDrbg) (x : call) : option (CtrDrbg * obs) :=
  match x with
  | CInit e p => match Init c e p with Some (c', b) => Some (c', Accepted b) | None => None end
  | CReseed e d => match Reseed c e d with Some c' => Some (c', Done) | None => None end
  | CRead out ad => match ReadWithAdditionalData c out ad with Some (c', o, n) => Some (c', Bytes o n) | None => None end
  end.
Fixpoint mcalls (c : CtrDrbg) (l : list call) : option (CtrDrbg * list obs) :=
  match l with
  | [] => Some (c, [])
  | x :: l' => match mcall c x with
               | None => None
               | Some (c', o) => match mcalls c' l' with None => None | Some (c'', os) => Some (c'', o :: os) end
               end
  end.
Definition call_ok (x : call) : Prop :=
  match x with CInit a b | CReseed a b => bytes a /\ bytes b | CRead _ a => bytes a end.

(* SP 800-90A view of a call other than Init *)
Definition to_op (x : call) : op :=
  match x with CRead out ad => OGenerate (length out) ad | CReseed e d => OReseed e d | CInit e p => OReseed e p end.
Definition view (x : call) (o : list Z) : obs :=
  match x with CRead out _ => Bytes o (Z.of_nat (length out)) | _ => Done end.
Definition aligned (x : call) : Prop :=
  match x with CInit _ _ => False | CReseed _ _ => True | CRead out _ => (length out mod 16 = 0)%nat end.

Fixpoint views (l : list call) (os : list (list Z)) : list obs :=
  match l, os with x :: l', o :: os' => view x o :: views l' os' | _, _ => [] end.

Lemma GenImpl_aligned : forall Kp s n a, key32 (Key s) -> block_ok (V s) -> bytes a -> (n mod 16 = 0)%nat ->
  fst (GenImpl Kp s n a) = Generate s n a.
Proof.
  intros Kp s n a HK Hv Ba Hn. unfold GenImpl, Generate.
  assert (En : ((n + 15) / 16 = n / 16)%nat).
  { pose proof (Nat.div_mod n 16 ltac:(discriminate)). rewrite Hn in H.
    symmetry. apply (Nat.div_unique _ 16 (n / 16) 15); lia. }
  rewrite En, Hn.
  assert (L : forall K vv, key32 K -> block_ok vv -> firstn n (fst (blocks (n / 16) K vv)) = fst (blocks (n / 16) K vv)).
  { intros K vv H1 H2. apply firstn_all2. rewrite (proj1 (blocks_ok _ K vv H1 H2)).
    pose proof (Nat.div_mod n 16 ltac:(discriminate)). lia. }
  destruct a as [|x a].
  - pose proof (L (Key s) (V s) HK Hv) as L1. destruct (blocks (n / 16) (Key s) (V s)) as [t vv]. cbn [fst] in *.
    rewrite firstn_O, app_nil_r, L1. reflexivity.
  - destruct (Update_ok (pad48 (x :: a)) s Hv HK (pad48_bytes _ Ba) (pad48_length _)) as [U1 U2].
    pose proof (L _ _ U2 U1) as L1.
    destruct (blocks (n / 16) (Key (Update (pad48 (x :: a)) s)) (V (Update (pad48 (x :: a)) s))) as [t vv]. cbn [fst] in *.
    rewrite firstn_O, app_nil_r, L1. reflexivity.
Qed.

Lemma aligned_calls : forall l c s Kp, DR c s -> keyed Kp (blockEnc c) -> Forall call_ok l -> Forall aligned l ->
  exists c', mcalls c l = Some (c', views l (run s (map to_op l))).
Proof.
  induction l as [|x l IH]; intros c s Kp HD HK HO HA. { exists c. reflexivity. }
  inversion HO; inversion HA; subst. cbn [mcalls map run views].
  destruct x as [e p|e d|out ad]; cbn [aligned call_ok mcall to_op step view] in *; [contradiction| |].
  - destruct (reseed_ok c s e d HD) as (c1 & E & D & K & _); [tauto|tauto|]. rewrite E.
    destruct (IH c1 _ _ D K) as [c' E']; auto. rewrite E'. exists c'. reflexivity.
  - destruct (read_ok c s Kp out ad HD HK ltac:(assumption)) as (c1 & E & D & K & _). rewrite E.
    rewrite GenImpl_aligned in * by (try apply HD; auto).
    destruct (Generate s (length out) ad) as [o s']. cbn [fst snd] in *.
    destruct (IH c1 _ _ D K) as [c' E']; auto. rewrite E'. exists c'. reflexivity.
Qed.

Theorem C19_ctr_drbg_sp800_90a : forall entropy pers l,
  bytes entropy -> bytes pers -> Forall call_ok l -> Forall aligned l ->
  exists c', mcalls NewCtrDrbg (CInit entropy pers :: l) =
    Some (c', Accepted true :: views l (run (Instantiate entropy pers) (map to_op l))).
Proof.
  intros e p l Be Bp HO HA. cbn [mcalls mcall].
  destruct (init_ok NewCtrDrbg _ e p new_DR Be Bp) as (c1 & E & D & K & _). { cbn. lia. }
  rewrite E. destruct (aligned_calls l c1 _ _ D K HO HA) as [c' E']. rewrite E'. exists c'. reflexivity.
Qed.
Print Assumptions C19_ctr_drbg_sp800_90a.

(** * What happens for every length *)
(* Independent description: Kp is the key the cipher object was last given. *)
Record istate := mkI { kp : list Z; ws : wstate }.
Definition icall (i : istate) (x : call) : istate * obs :=
  match x with
  | CInit e p => if (length e <? 32)%nat then (i, Accepted false)
                 else (mkI (Key (ws i)) (ReseedS (ws i) e p), Accepted true)
  | CReseed e d => (mkI (Key (ws i)) (ReseedS (ws i) e d), Done)
  | CRead out ad => let '(o, s', k) := GenImpl (kp i) (ws i) (length out) ad in
                    (mkI k s', Bytes o (Z.of_nat (length out)))
  end.
Fixpoint icalls (i : istate) (l : list call) : list obs :=
  match l with [] => [] | x :: l' => let '(i', o) := icall i x in o :: icalls i' l' end.

Definition Inv (c : CtrDrbg) (i : istate) : Prop := DR c (ws i) /\ keyed (kp i) (blockEnc c) /\ strength c = 256.

Lemma icall_ok : forall c i x, Inv c i -> call_ok x ->
  exists c', mcall c x = Some (c', snd (icall i x)) /\ Inv c' (fst (icall i x)).
Proof.
  intros c i x (HD & HK & HS) HO. destruct x as [e p|e d|out ad]; cbn [mcall icall call_ok] in *.
  - destruct (Nat.ltb_spec (length e) 32).
    + unfold Init. rewrite HS. change (256 / 8) with 32.
      replace (Z.of_nat (length e) <? 32) with true by (symmetry; apply Z.ltb_lt; lia).
      exists c. split; [reflexivity|]. split; auto.
    + destruct (init_ok c (ws i) e p HD) as (c1 & E & D & K & S1); try tauto.
      { rewrite HS. change (256 / 8) with 32. lia. }
      rewrite E. exists c1. split; [reflexivity|]. split; auto.
  - destruct (reseed_ok c (ws i) e d HD) as (c1 & E & D & K & S1); try tauto. rewrite E.
    exists c1. split; [reflexivity|]. split; auto. split; auto. congruence.
  - destruct (read_ok c (ws i) (kp i) out ad HD HK HO) as (c1 & E & D & K & S1 & _). rewrite E.
    destruct (GenImpl (kp i) (ws i) (length out) ad) as [[o s'] k]. cbn [fst snd] in *.
    exists c1. split; [reflexivity|]. split; auto. split; auto. congruence.
Qed.
Lemma icalls_ok : forall l c i, Inv c i -> Forall call_ok l -> exists c', mcalls c l = Some (c', icalls i l).
Proof.
  induction l as [|x l IH]; intros c i HI HO. { exists c. reflexivity. }
  inversion HO; subst. cbn [mcalls icalls]. destruct (icall_ok c i x HI) as (c1 & E & HI1); auto. rewrite E.
  destruct (icall i x) as [i' o]. cbn [fst snd] in *. destruct (IH c1 i' HI1) as [c' E']; auto. rewrite E'.
  exists c'. reflexivity.
Qed.

Theorem C20_history_exact : forall entropy pers l,
  bytes entropy -> bytes pers -> Forall call_ok l ->
  exists c', mcalls NewCtrDrbg (CInit entropy pers :: l) =
    Some (c', Accepted true :: icalls (mkI (repeat 0 32) (Instantiate entropy pers)) l).
Proof.
  intros e p l Be Bp HO. cbn [mcalls mcall].
  destruct (init_ok NewCtrDrbg _ e p new_DR Be Bp) as (c1 & E & D & K & S1). { cbn. lia. }
  rewrite E. destruct (icalls_ok l c1 (mkI (repeat 0 32) (Instantiate e p))) as [c' E']; auto.
  { split; auto. }
  rewrite E'. exists c'. reflexivity.
Qed.
Print Assumptions C20_history_exact.

(* states reached by a first Init and any further calls *)
Definition Reached (c : CtrDrbg) : Prop :=
  exists e p l os, bytes e /\ bytes p /\ Forall call_ok l /\ mcalls NewCtrDrbg (CInit e p :: l) = Some (c, os).

Lemma mcalls_Inv : forall l c i c' os, Inv c i -> Forall call_ok l -> mcalls c l = Some (c', os) -> exists i', Inv c' i'.
Proof.
  induction l as [|x l IH]; intros c i c' os HI HO E; cbn [mcalls] in E. { injection E as <- _. eauto. }
  inversion HO; subst. destruct (icall_ok c i x HI) as (c1 & E1 & HI1); auto. rewrite E1 in E.
  destruct (mcalls c1 l) as [[c2 os2]|] eqn:E2; [|discriminate]. injection E as <- _. eapply IH; eauto.
Qed.
Lemma Reached_Inv : forall c, Reached c -> exists i, Inv c i.
Proof.
  intros c (e & p & l & os & Be & Bp & HO & E). cbn [mcalls mcall] in E.
  destruct (init_ok NewCtrDrbg _ e p new_DR Be Bp) as (c1 & E1 & D & K & S1). { cbn. lia. }
  rewrite E1 in E. destruct (mcalls c1 l) as [[c2 os2]|] eqn:E2; [|discriminate]. injection E as <- _.
  eapply (mcalls_Inv l c1 (mkI (repeat 0 32) (Instantiate e p))); eauto. split; auto.
Qed.

(* The tail of an unaligned request repeats the beginning of the block before it. *)
Theorem C20_tail_repeats : forall c out ad q r c' o n, Reached c -> bytes ad ->
  length out = (16 * (q + 1) + r)%nat -> (r < 16)%nat ->
  ReadWithAdditionalData c out ad = Some (c', o, n) ->
  slice o (16 * (q + 1)) r = slice o (16 * q) r /\ length o = length out.
Proof.
  intros c out ad q r c' o n HR Ba L Hr E. destruct (Reached_Inv c HR) as [i (HD & HK & _)].
  destruct (read_ok c (ws i) (kp i) out ad HD HK Ba) as (c1 & E1 & D & K & _ & LO). rewrite E in E1.
  injection E1 as _ -> _. split; [|exact LO]. revert LO. unfold GenImpl.
  assert (Edm : (length out / 16 = q + 1 /\ length out mod 16 = r)%nat).
  { split; [symmetry; apply (Nat.div_unique _ 16 (q + 1) r) | symmetry; apply (Nat.mod_unique _ 16 (q + 1) r)]; lia. }
  destruct Edm as [-> ->].
  set (pim := match ad with [] => (kp i, ws i, repeat 0 48) | _ => (Key (ws i), Update (pad48 ad) (ws i), pad48 ad) end).
  assert (P : exists K1 s1 a1, pim = (K1, s1, a1) /\ key32 (Key s1) /\ block_ok (V s1)).
  { unfold pim. destruct HD as (_ & _ & Hv & HKk & _). destruct ad as [|x ad].
    - do 3 eexists. split; [reflexivity|]. auto.
    - do 3 eexists. split; [reflexivity|]. destruct (Update_ok (pad48 (x :: ad)) (ws i) Hv HKk (pad48_bytes _ Ba) (pad48_length _)). auto. }
  destruct P as (K1 & s1 & a1 & -> & HK1 & Hv1).
  replace (q + 1)%nat with (S q) by lia.
  destruct (blocks_ok (S q) (Key s1) (V s1) HK1 Hv1) as (Lb & _ & Ov).
  pose proof (blocks_last q (Key s1) (V s1) HK1 Hv1) as BL.
  destruct (blocks (S q) (Key s1) (V s1)) as [t vv]. cbn [fst snd Nat.eqb] in *. intros _.
  destruct (AES_encrypt_ok (Key s1) vv (key32_ok _ HK1) Ov) as [_ [_ Le]].
  unfold slice. rewrite !skipn_app, Lb.
  replace (16 * S q - 16 * S q)%nat with 0%nat by lia. replace (16 * q - 16 * S q)%nat with 0%nat by lia.
  rewrite (skipn_all2 t) by lia. rewrite app_nil_l, BL. rewrite !skipn_O.
  rewrite firstn_firstn, Nat.min_id. rewrite firstn_app. replace (r - length (AES_encrypt (Key s1) vv))%nat with 0%nat by (rewrite Le; lia).
  rewrite firstn_O, app_nil_r. reflexivity.
Qed.
Print Assumptions C20_tail_repeats.

(* A request below one block encrypts the current, not incremented counter under the key that was
   in force before the previous read finished. *)
Theorem C20_short_read_stale_key : forall c out1 c1 o1 n1 out2 c2 o2 n2, Reached c ->
  ReadWithAdditionalData c out1 [] = Some (c1, o1, n1) -> (length out2 < 16)%nat ->
  Read c1 out2 = Some (c2, o2, n2) ->
  o2 = firstn (length out2) (AES_encrypt (key c) (v c1)).
Proof.
  intros c out1 c1 o1 n1 out2 c2 o2 n2 HR E1 L2 E2.
  destruct (Reached_Inv c HR) as [i (HD & HK & _)].
  destruct (read_ok c (ws i) (kp i) out1 [] HD HK ltac:(constructor)) as (c1' & E1' & D1 & K1 & _). rewrite E1 in E1'.
  injection E1' as <- _ _.
  destruct (read_ok c1 _ _ out2 [] D1 K1 ltac:(constructor)) as (c2' & E2' & _). unfold Read in E2. rewrite E2 in E2'.
  injection E2' as _ -> _.
  destruct HD as (Hv & Hk & _). rewrite Hk. destruct D1 as (Hv1 & _). rewrite Hv1.
  unfold GenImpl at 1 3. rewrite (Nat.div_small (length out2)), (Nat.mod_small (length out2)) by auto.
  cbn [blocks Nat.eqb fst app].
  unfold GenImpl. destruct (blocks (length out1 / 16) (Key (ws i)) (V (ws i))) as [t vv]. reflexivity.
Qed.
Print Assumptions C20_short_read_stale_key.

Definition out_of (r : option (CtrDrbg * list obs)) : list Z :=
  match r with Some (_, _ :: Bytes o _ :: _) => o | _ => [] end.
Definition keyof (r : option (CtrDrbg * bool)) : list Z := match r with Some (c, _) => key c | None => [] end.
Definition zbuf (n : nat) : list Z := repeat 0 n.
(* hence the SP 800-90A claim fails without the alignment hypothesis *)
Theorem C20_unaligned_sp800_90a_refuted : exists entropy pers l,
  bytes entropy /\ bytes pers /\ Forall call_ok l /\
  (forall x, In x l -> exists out, x = CRead out []) /\
  forall c', mcalls NewCtrDrbg (CInit entropy pers :: l) <>
    Some (c', Accepted true :: views l (run (Instantiate entropy pers) (map to_op l))).
Proof.
  exists (zbuf 16), [], [CRead (zbuf 17) []].
  split; [apply zeros_bytes|]. split; [constructor|]. split; [repeat constructor|].
  split. { intros x [<-|[]]. eexists. reflexivity. }
  intros c' E.
  set (mo := out_of (mcalls NewCtrDrbg [CInit (zbuf 16) []; CRead (zbuf 17) []])).
  assert (X : mo = out_of (Some (c', Accepted true :: views [CRead (zbuf 17) []]
                      (run (Instantiate (zbuf 16) []) (map to_op [CRead (zbuf 17) []]))))) by (unfold mo; rewrite E; reflexivity).
  revert X. apply zlist_neq. vm_compute. reflexivity.
Qed.
Print Assumptions C20_unaligned_sp800_90a_refuted.

(** * The counter *)
Theorem C21_inc : forall b, bytes b -> length b = 16%nat ->
  be_dec (inc b) = (be_dec b + 1) mod 2 ^ 128 /\ length (inc b) = 16%nat /\ bytes (inc b).
Proof.
  intros b B L. rewrite inc_ok by (split; auto). unfold incV. rewrite be_dec_enc.
  change (256 ^ Z.of_nat 16) with (2 ^ 128). rewrite Z.mod_mod by lia.
  split; [reflexivity|]. split; [apply be_enc_length | apply be_enc_bytes].
Qed.
Print Assumptions C21_inc.

Theorem C21_no_repeat : forall b i j, bytes b -> length b = 16%nat ->
  Z.of_nat i < Z.of_nat j < 2 ^ 128 -> Nat.iter i inc b <> Nat.iter j inc b.
Proof.
  assert (G : forall b n, bytes b -> length b = 16%nat ->
     be_dec (Nat.iter n inc b) = (be_dec b + Z.of_nat n) mod 2 ^ 128 /\ length (Nat.iter n inc b) = 16%nat /\ bytes (Nat.iter n inc b)).
  { intros b n B L. induction n.
    - change (Nat.iter 0 inc b) with b. rewrite Z.add_0_r, Z.mod_small; auto.
      pose proof (be_dec_bound b B) as H. rewrite L in H. exact H.
    - change (Nat.iter (S n) inc b) with (inc (Nat.iter n inc b)). destruct IHn as (I1 & I2 & I3).
      destruct (C21_inc _ I3 I2) as (J1 & J2). split; [|exact J2]. rewrite J1, I1.
      rewrite Zplus_mod_idemp_l. f_equal. lia. }
  intros b i j B L H E. destruct (G b i B L) as [Gi _], (G b j B L) as [Gj _]. rewrite E, Gj in Gi.
  pose proof (be_dec_bound b B) as Hb. rewrite L in Hb. change (256 ^ Z.of_nat 16) with (2 ^ 128) in Hb.
  set (x := be_dec b) in *. clearbody x.
  assert (D : (Z.of_nat j - Z.of_nat i) mod 2 ^ 128 = 0).
  { replace (Z.of_nat j - Z.of_nat i) with ((x + Z.of_nat j) - (x + Z.of_nat i)) by lia.
    rewrite Zminus_mod, Gi, Z.sub_diag. reflexivity. }
  rewrite Z.mod_small in D by lia. lia.
Qed.
Print Assumptions C21_no_repeat.

(** * Instantiation *)
Theorem C22_first_init_accepts_anything : forall e p, bytes e -> bytes p ->
  exists c, Init NewCtrDrbg e p = Some (c, true).
Proof.
  intros e p Be Bp. destruct (init_ok NewCtrDrbg _ e p new_DR Be Bp) as (c1 & E & _). { cbn. lia. }
  exists c1. exact E.
Qed.
Print Assumptions C22_first_init_accepts_anything.

Theorem C22_reinit : forall c e p, Reached c -> bytes e -> bytes p ->
  ((length e < 32)%nat -> Init c e p = Some (c, false)) /\
  ((32 <= length e)%nat -> exists c', Init c e p = Some (c', true) /\
      key c' = Key (ReseedS (mkW (key c) (v c)) e p) /\ v c' = V (ReseedS (mkW (key c) (v c)) e p)).
Proof.
  intros c e p HR Be Bp. destruct (Reached_Inv c HR) as [i (HD & HK & HS)]. split; intros L.
  - unfold Init. rewrite HS. change (256 / 8) with 32.
    replace (Z.of_nat (length e) <? 32) with true by (symmetry; apply Z.ltb_lt; lia). reflexivity.
  - destruct (init_ok c (ws i) e p HD Be Bp) as (c1 & E & D & _). { rewrite HS. change (256 / 8) with 32. lia. }
    exists c1. split; [exact E|]. destruct HD as (Hv & Hk & _). rewrite Hv, Hk.
    destruct (ws i) as [K V']. cbn [Key V] in *. destruct D as (D1 & D2 & _). auto.
Qed.
Print Assumptions C22_reinit.

(* re-instantiating does not give the generator a fresh Init would give *)
Theorem C22_reinit_is_fresh_refuted : exists c e p c1 c2, Reached c /\ bytes e /\ bytes p /\
  Init c e p = Some (c1, true) /\ Init NewCtrDrbg e p = Some (c2, true) /\ key c1 <> key c2.
Proof.
  pose (e := zbuf 32).
  destruct (Init NewCtrDrbg e []) as [[c0 b0]|] eqn:E0; [|vm_compute in E0; discriminate].
  assert (HR : Reached c0).
  { exists e, [], [], [Accepted true]. split; [apply zeros_bytes|]. split; [constructor|]. split; [constructor|].
    cbn [mcalls mcall]. rewrite E0. destruct (C22_first_init_accepts_anything e []) as [c3 E3]; [apply zeros_bytes|constructor|].
    rewrite E0 in E3. injection E3 as _ ->. reflexivity. }
  destruct (C22_reinit c0 e [] HR) as [_ H]; [apply zeros_bytes|constructor|].
  destruct H as (c1 & E1 & _). { unfold e. apply Nat.leb_le. reflexivity. }
  destruct (C22_first_init_accepts_anything e []) as [c2 E2]; [apply zeros_bytes|constructor|].
  exists c0, e, [], c1, c2. split; [exact HR|]. split; [apply zeros_bytes|]. split; [constructor|].
  split; [exact E1|]. split; [exact E2|].
  assert (K2 : key c2 = keyof (Init NewCtrDrbg e [])) by (rewrite E2; reflexivity).
  assert (K1 : key c1 = keyof (match Init NewCtrDrbg e [] with Some (c, _) => Init c e [] | None => None end)).
  { rewrite E0, E1. reflexivity. }
  rewrite K1, K2. apply zlist_neq. vm_compute. reflexivity.
Qed.
Print Assumptions C22_reinit_is_fresh_refuted.

(** * Totality and padding *)
Definition shape (c : CtrDrbg) : Prop := length (v c) = 16%nat /\ length (key c) = 32%nat /\ length (tmpBlk c) = 48%nat.

Lemma enc_v_total : forall a dst vv, length vv = 16%nat -> (16 <= length dst)%nat ->
  exists b, enc_v a dst vv = Some (b ++ skipn 16 dst) /\ length b = 16%nat.
Proof.
  intros a dst vv L Ld. unfold enc_v.
  destruct (C17_block_bounds a (mkSlice 1024 dst) (mkSlice 0 vv) Encrypt (or_introl eq_refl)) as (_ & _ & H).
  destruct H as [_ H]; cbn [cont addr] in *; auto; try lia.
  destruct H as (b & Lb & _ & E). { intros [_ [i Hi]]. lia. }
  rewrite E. eauto.
Qed.
Lemma inc_length : forall b, length (inc b) = length b.
Proof.
  intros b. unfold inc. generalize 16%nat. intros n. revert b.
  induction n; intros b; cbn [inc_loop]; auto. destruct (nth n b 0 =? 0xff); [rewrite IHn|]; apply upd_length.
Qed.
Lemma update_loop_total : forall n i c, shape c -> (i + 16 * n <= 48)%nat -> exists c', update_loop n i c = Some c' /\ shape c'.
Proof.
  induction n; intros i c HS L; cbn [update_loop]. { eauto. }
  destruct HS as (L1 & L2 & L3).
  destruct (enc_v_total (fst (SetKey (blockEnc c) (key c))) (skipn i (tmpBlk c)) (inc (v c))) as (b & E & Lb).
  { rewrite inc_length; auto. } { rewrite skipn_length. lia. }
  rewrite E. apply IHn; [|lia]. unfold shape. cbn [v key tmpBlk]. rewrite inc_length.
  do 2 (split; [auto|]). rewrite skipn_skipn', !app_length, firstn_length, skipn_length. lia.
Qed.
Lemma blit_len : forall d s, length (blit d 0 s) = length d.
Proof. intros. unfold blit. rewrite firstn_O, app_nil_l, Nat.sub_0_r, app_length, firstn_length, skipn_length. lia. Qed.
Lemma update_total : forall c d, shape c -> length d = 48%nat -> exists c', update c d = Some c' /\ shape c'.
Proof.
  intros c d HS L. unfold update. rewrite L. cbn [Nat.eqb negb].
  destruct (update_loop_total 3 0 c HS) as (c1 & E & (L1 & L2 & L3)); [lia|]. rewrite E.
  eexists. split; [reflexivity|]. unfold shape. cbn [v key tmpBlk].
  rewrite !blit_len. do 2 (split; [auto|]).
  rewrite app_length, xor_list_length, firstn_length, skipn_length. lia.
Qed.
Lemma gen_loop_total : forall n i c out, shape c -> ((i + n) * 16 <= length out)%nat ->
  exists c' o, gen_loop n i c out = Some (c', o) /\ shape c' /\ length o = length out.
Proof.
  induction n; intros i c out HS L; cbn [gen_loop]. { eauto. }
  destruct HS as (L1 & L2 & L3).
  destruct (enc_v_total (fst (SetKey (blockEnc c) (key c))) (skipn (i * 16) out) (inc (v c))) as (b & E & Lb).
  { rewrite inc_length; auto. } { rewrite skipn_length. lia. }
  rewrite E. set (o1 := firstn (i * 16) out ++ b ++ skipn 16 (skipn (i * 16) out)).
  assert (Lo : length o1 = length out).
  { unfold o1. rewrite skipn_skipn', !app_length, firstn_length, skipn_length. lia. }
  match goal with |- context [gen_loop n (i + 1) ?c1 _] => destruct (IHn (i + 1)%nat c1 o1) as (c' & o & E' & S' & L') end.
  - unfold shape. cbn [v key tmpBlk]. rewrite inc_length. auto.
  - lia.
  - exists c', o. split; [exact E'|]. split; [exact S'|]. lia.
Qed.

(* for every object, initialised or not, and every length: no panic, (len(out), nil), len(out) bytes *)
Theorem C23_read_total : forall c out ad, shape c ->
  exists c' o, ReadWithAdditionalData c out ad = Some (c', o, Z.of_nat (length out)) /\
               length o = length out /\ shape c'.
Proof.
  intros c out ad HS. unfold ReadWithAdditionalData.
  set (pre := match ad with [] => Some (c, repeat 0 48) | _ => _ end).
  assert (P : exists c1 sb, pre = Some (c1, sb) /\ shape c1 /\ length sb = 48%nat).
  { unfold pre. destruct ad as [|x ad].
    - exists c, (repeat 0 48). split; [reflexivity|]. split; [auto | apply repeat_length].
    - destruct (update_total c (blit (repeat 0 48) 0 (x :: ad)) HS) as (c1 & E & S1). { rewrite blit_len. apply repeat_length. }
      rewrite E. do 2 eexists. split; [reflexivity|]. split; auto. rewrite blit_len. apply repeat_length. }
  destruct P as (c1 & sb & -> & S1 & Lsb).
  assert (Hdiv : length out = (16 * (length out / 16) + length out mod 16)%nat) by (apply Nat.div_mod; discriminate).
  assert (Hm : (length out mod 16 < 16)%nat) by (apply Nat.mod_upper_bound; discriminate).
  destruct (gen_loop_total (length out / 16) 0 c1 out S1) as (c2 & o & E2 & (L1 & L2 & L3) & Lo); [lia|]. rewrite E2.
  destruct (enc_v_total (blockEnc c2) (tmpBlk c2) (v c2) L1) as (b & E3 & Lb); [lia|]. rewrite E3.
  match goal with |- context [update ?c3 sb] => destruct (update_total c3 sb) as (c4 & E4 & S4); auto end.
  { unfold shape. cbn [v key tmpBlk]. do 2 (split; [auto|]). rewrite app_length, skipn_length. lia. }
  rewrite E4. do 2 eexists. split; [reflexivity|]. split; [|exact S4].
  unfold blit. rewrite !app_length, !firstn_length, skipn_length, Lo, app_length, skipn_length. lia.
Qed.
Print Assumptions C23_read_total.

Lemma pad48_id : forall x, length x = 48%nat -> pad48 x = x.
Proof. intros x L. unfold pad48. rewrite firstn_app, L, Nat.sub_diag, firstn_O, app_nil_r. apply firstn_all2. lia. Qed.
Theorem C23_inputs_padded : forall c e d out ad,
  Reseed c e d = Reseed c (pad48 e) (pad48 d) /\
  (ad <> [] -> ReadWithAdditionalData c out ad = ReadWithAdditionalData c out (pad48 ad)) /\
  (strength c / 8 <= Z.of_nat (length e) -> strength c / 8 <= 48 -> Init c e d = Init c (pad48 e) (pad48 d)).
Proof.
  intros c e d out ad. repeat split.
  - unfold Reseed. rewrite !seed_buf_ok. rewrite !(pad48_id (pad48 _)) by apply pad48_length. reflexivity.
  - intros Hn. unfold ReadWithAdditionalData. rewrite !copy48.
    rewrite !(pad48_id (pad48 ad)) by apply pad48_length.
    destruct ad as [|x ad]; [congruence|].
    destruct (pad48 (x :: ad)) as [|y l] eqn:E.
    + pose proof (pad48_length (x :: ad)) as H. rewrite E in H. discriminate.
    + reflexivity.
  - intros H1 H2. unfold Init. rewrite pad48_length.
    replace (Z.of_nat (length e) <? strength c / 8) with false by (symmetry; apply Z.ltb_ge; lia).
    replace (Z.of_nat 48 <? strength c / 8) with false by (symmetry; apply Z.ltb_ge; lia).
    rewrite !seed_buf_ok. rewrite !(pad48_id (pad48 _)) by apply pad48_length. reflexivity.
Qed.
Print Assumptions C23_inputs_padded.

(** * Concrete cases *)
(* ctr_drbg_test.go: TestNominal *)
Example ex_c19_nominal : out_of (mcalls NewCtrDrbg [CInit (zbuf 16) []; CRead (zbuf 16) (zbuf 48)]) =
  [0x16; 0xBA; 0x36; 0x1F; 0xA1; 0x45; 0x63; 0xFB; 0x1E; 0x8B; 0xCF; 0x88; 0x93; 0x2F; 0x9F; 0xA7].
Proof. vm_compute. reflexivity. Qed.
Example ex_c20_tail : let o := out_of (mcalls NewCtrDrbg [CInit (zbuf 16) []; CRead (zbuf 20) []]) in
  (slice o 16 4, slice o 0 4, zlist_eqb (slice o 0 4) (slice o 4 4)) = (slice o 0 4, slice o 16 4, false).
Proof. vm_compute. reflexivity. Qed.
Example ex_c21 : inc (repeat 3 13 ++ [4; 0xff; 0xff]) = repeat 3 13 ++ [5; 0; 0].
Proof. reflexivity. Qed.
Example ex_c21_wrap : inc (repeat 0xff 16) = repeat 0 16.
Proof. reflexivity. Qed.
(* no entropy at all is accepted the first time *)
Example ex_c22 : option_map snd (Init NewCtrDrbg [] []) = Some true.
Proof. vm_compute. reflexivity. Qed.
(* Read on an object that was never initialised *)
Example ex_c23 : option_map snd (Read NewCtrDrbg (zbuf 5)) = Some 5.
Proof. vm_compute. reflexivity. Qed.
