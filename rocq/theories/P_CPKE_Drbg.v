(* C89: CSIDH and the encryption built on it with the CTR_DRBG as random source. *)
From Coq Require Import ZArith List Lia Bool.
From Verif Require Import Lib AES_Model AES_Proofs P_AES DRBG_Model DRBG_Spec DRBG_Proofs P_DRBG Sha3_Iface Sha3_Model CSIDH_Field CSIDH_Curve CSIDH_Model CPKE_Spec CPKE_Model CPKE_Drbg.
Import ListNotations.
Open Scope Z_scope.

(* Small spec: the call consumes a whole number of 64-byte reads, and its result is a function of exactly those bytes. *)
Definition reads64 {X : Type} (f : list Z -> option (X * list Z)) : Prop := forall rng x rest, f rng = Some (x, rest) ->
  exists j pre, length pre = (64 * j)%nat /\ rng = pre ++ rest /\ forall more, f (pre ++ more) = Some (x, more).

Lemma read_chunk rng b rest : readFull64 rng = Some (b, rest) -> length b = 64%nat /\ rng = b ++ rest /\ forall more, readFull64 (b ++ more) = Some (b, more).
Proof.
  unfold readFull64. generalize 64%nat. intro n. destruct (_ <? _)%nat eqn:E; [discriminate|]. apply Nat.ltb_ge in E. intro X. injection X as <- <-.
  assert (L : length (firstn n rng) = n) by (apply firstn_length_le; exact E). split; [exact L|]. split; [symmetry; apply firstn_skipn|].
  intro more. rewrite app_length, L. replace (n + length more <? n)%nat with false by (symmetry; apply Nat.ltb_ge; lia).
  rewrite firstn_app, skipn_app, L, Nat.sub_diag, firstn_O, app_nil_r, (firstn_all2 (firstn n rng)), skipn_all2 by lia. reflexivity.
Qed.
Lemma randFp_reads : reads64 randFp /\ forall rng x rest, randFp rng = Some (x, rest) -> exists j pre, length pre = (64 * S j)%nat /\ rng = pre ++ rest /\ forall more, randFp (pre ++ more) = Some (x, more).
Proof.
  assert (G : forall n rng x rest, randFp_loop n rng = Some (x, rest) -> exists j pre, length pre = (64 * S j)%nat /\ rng = pre ++ rest /\ forall m more, (j < m)%nat -> randFp_loop m (pre ++ more) = Some (x, more)).
  { induction n as [|n IH]; intros rng x rest H; [discriminate|]. cbn [randFp_loop] in H. destruct (readFull64 rng) as [[b r]|] eqn:E; [|discriminate].
    destruct (read_chunk rng b r E) as (L & -> & R). cbv zeta in H. destruct (isLess (randFp_cand b) p) eqn:EL.
    - injection H as <- <-. exists 0%nat, b. split; [exact L|]. split; [reflexivity|]. intros m more Hm. destruct m; [lia|]. cbn [randFp_loop]. rewrite R. cbv zeta. rewrite EL. reflexivity.
    - destruct (IH r x rest H) as (j & pre & Lp & -> & Hp). exists (S j), (b ++ pre). split; [rewrite app_length; lia|]. split; [apply app_assoc|].
      intros m more Hm. destruct m; [lia|]. rewrite <- app_assoc. cbn [randFp_loop]. rewrite R. cbv zeta. rewrite EL. apply Hp. lia. }
  assert (G' : forall rng x rest, randFp rng = Some (x, rest) -> exists j pre, length pre = (64 * S j)%nat /\ rng = pre ++ rest /\ forall more, randFp (pre ++ more) = Some (x, more)).
  { intros rng x rest H. destruct (G _ _ _ _ H) as (j & pre & L & E & R). exists j, pre. split; [exact L|]. split; [exact E|]. intro more. apply R. rewrite app_length. lia. }
  split; [|exact G']. intros rng x rest H. destruct (G' rng x rest H) as (j & pre & R). exists (S j), pre. exact R.
Qed.
Lemma reads_ret {X} (x : X) : reads64 (fun rng => Some (x, rng)).
Proof. intros rng y rest H. injection H as <- <-. exists 0%nat, []. repeat split. Qed.
Lemma reads_bind {X Y} (f : list Z -> option (X * list Z)) (k : X -> list Z -> option (Y * list Z)) : reads64 f -> (forall x, reads64 (k x)) ->
  reads64 (fun rng => match f rng with None => None | Some (x, r) => k x r end).
Proof.
  intros Hf Hk rng y rest H. destruct (f rng) as [[x r]|] eqn:E; [|discriminate]. destruct (Hf rng x r E) as (j & p1 & L1 & -> & R1). destruct (Hk x r y rest H) as (i & p2 & L2 & -> & R2).
  exists (j + i)%nat, (p1 ++ p2). split; [rewrite app_length; lia|]. split; [apply app_assoc|]. intro more. rewrite <- app_assoc, R1. apply R2.
Qed.
Lemma reads_ext {X} (f f' : list Z -> option (X * list Z)) : (forall r, f r = f' r) -> reads64 f -> reads64 f'.
Proof.
  intros E H rng x rest Hx. rewrite <- E in Hx. destruct (H rng x rest Hx) as (j & pre & L & -> & R). exists j, pre. split; [exact L|]. split; [reflexivity|]. intro more. rewrite <- E. apply R.
Qed.
Lemma reads_none {X} : reads64 (fun _ => @None (X * list Z)). Proof. intros rng x rest H. discriminate. Qed.

(* a search loop that draws once per round *)
Section Loop.
Variables (S' X : Type) (body : S' -> list Z -> (S' + X)).
Fixpoint search (n : nat) (s : S') (rng : list Z) : option (X * list Z) :=
  match n with O => None | S n => match randFp rng with None => None | Some (x, r) => match body s x with inl s => search n s r | inr y => Some (y, r) end end end.
Lemma search_reads s : reads64 (fun rng => search (S (length rng)) s rng).
Proof.
  assert (G : forall n s rng y rest, search n s rng = Some (y, rest) -> exists j pre, length pre = (64 * S j)%nat /\ rng = pre ++ rest /\ forall m more, (j < m)%nat -> search m s (pre ++ more) = Some (y, more)).
  { induction n as [|n IH]; intros t rng y rest H; [discriminate|]. cbn [search] in H. destruct (randFp rng) as [[x r]|] eqn:E; [|discriminate].
    destruct (proj2 randFp_reads rng x r E) as (i & b & L & -> & R). destruct (body t x) as [t'|y'] eqn:EB.
    - destruct (IH t' r y rest H) as (j & pre & Lp & -> & Hp). exists (S (i + j)), (b ++ pre). split; [rewrite app_length; lia|]. split; [apply app_assoc|].
      intros m more Hm. destruct m; [lia|]. rewrite <- app_assoc. cbn [search]. rewrite R, EB. apply Hp. lia.
    - injection H as <- <-. exists i, b. split; [exact L|]. split; [reflexivity|]. intros m more Hm. destruct m; [lia|]. cbn [search]. rewrite R, EB. reflexivity. }
  intros rng y rest H. destruct (G _ _ _ _ _ H) as (j & pre & L & E & R). exists (S j), pre. split; [exact L|]. split; [exact E|]. intro more. apply R. rewrite app_length. lia.
Qed.
End Loop.

Definition gaFp := gaLoop fpOps fpZero one four isZero isNonQuadRes (fun x => x).
Definition gaBody (st : gaState fpOps) (x : list Z) : gaState fpOps + gaState fpOps :=
  let sign := negb (isNonQuadRes (montEval fpOps fpZero one four (gA fpOps st) x) =? 0) in
  if gDone fpOps st sign then inl st
  else let st' := gaRound fpOps fpZero one four isZero isNonQuadRes st x in
       if andb (gDone fpOps st' false) (gDone fpOps st' true) then inr st' else inl st'.
Lemma ga_search n : forall st rng, gaFp n st rng = search _ _ gaBody n st rng.
Proof.
  induction n as [|n IH]; intros st rng; [reflexivity|]. unfold gaFp. cbn [gaLoop search]. destruct (randFp rng) as [[x r]|]; [|reflexivity]. unfold gaBody. cbv zeta.
  destruct (gDone fpOps st _); [apply IH|]. destruct (andb _ _); [reflexivity|apply IH].
Qed.
Lemma ga_reads a e : reads64 (groupActionFp a e).
Proof.
  apply (reads_ext (fun rng => match search _ _ gaBody (S (length rng)) (gaInit fpOps a e) rng with None => None | Some (st, r) => Some (gA fpOps st, r) end)).
  - intro rng. rewrite <- ga_search. reflexivity.
  - apply (reads_bind (fun rng => search _ _ gaBody (S (length rng)) (gaInit fpOps a e) rng) (fun st r => Some (gA fpOps st, r))); [apply search_reads | intro; apply reads_ret].
Qed.
Definition vPick (t : bool * bool * list Z) : unit + bool := match t with (done, res, _) => if done then inr res else inl tt end.
Section Valid.
Variables (Fo : Instr.fops) (z o f : Instr.car Fo) (isz : Instr.car Fo -> bool) (inj : list Z -> Instr.car Fo).
Definition vTry (a : Instr.car Fo) (x : list Z) : bool * bool * list Z :=
  cofactorMul Fo z o f isz 75 (xDbl Fo z o f (xDbl Fo z o f (inj x, o) (a, o)) (a, o)) (a, o) 0 primeCount (small 1).
Lemma valid_search n : forall a rng, validLoop Fo z o f isz inj n a rng = search _ _ (fun _ x => vPick (vTry a x)) n tt rng.
Proof.
  induction n as [|n IH]; intros a rng; [reflexivity|]. cbn [validLoop search]. destruct (randFp rng) as [[x r]|]; [|reflexivity]. unfold vTry at 1.
  destruct (cofactorMul _ _ _ _ _ _ _ _ _ _ _) as [[done res] ?]. cbn [vPick]. destruct done; [reflexivity|apply IH].
Qed.
End Valid.
Definition vBody (a : list Z) (_ : unit) (x : list Z) : unit + bool := vPick (vTry fpOps fpZero one four isZero (fun x => x) a x).
Lemma valid_searchFp n a rng : validLoopFp n a rng = search _ _ (vBody a) n tt rng.
Proof. exact (valid_search fpOps fpZero one four isZero (fun x => x) n a rng). Qed.
Lemma valid_reads a : reads64 (srcValid a).
Proof.
  apply (reads_ext (fun rng => if negb (isLess a p) then Some (false, rng) else if orb (equal a two) (equal a twoNeg) then Some (false, rng) else search _ _ (vBody a) (S (length rng)) tt rng)).
  - intro rng. unfold srcValid, validate. destruct (negb _); [reflexivity|]. destruct (orb _ _); [reflexivity|]. rewrite valid_searchFp. destruct (search _ _ _ _ _ _); reflexivity.
  - destruct (negb _); [apply reads_ret|]. destruct (orb _ _); [apply reads_ret|]. apply search_reads.
Qed.
Lemma pub_reads e : reads64 (srcPub e).
Proof. apply (reads_ext (groupActionFp (repeat 0 numWords) e)); [|apply ga_reads]. intro r. unfold srcPub, generatePublicKey. destruct (groupActionFp _ _ _); reflexivity. Qed.
Lemma secret_reads out a e : reads64 (srcSecret out a e).
Proof.
  apply (reads_ext (fun rng => match srcValid a rng with None => None | Some (ok, r) => (fun (ok : bool) r => if ok then match groupActionFp a e r with None => None | Some (s, r) => Some ((true, snd (pubExport s out)), r) end else Some ((false, out), r)) ok r end)).
  - intro rng. unfold srcValid, srcSecret, deriveSecret. destruct (validate a rng) as [[[|] r]|]; [|reflexivity|reflexivity]. destruct (groupActionFp a e r) as [[s r']|]; reflexivity.
  - apply reads_bind; [apply valid_reads|]. intros [|]; [|apply reads_ret]. apply (reads_bind (groupActionFp a e) (fun s r => Some ((true, snd (pubExport s out)), r))); [apply ga_reads|intro; apply reads_ret].
Qed.
Lemma priv_reads : reads64 srcPriv.
Proof.
  assert (G : forall n i e rng x rest, genLoop n i e rng = (false, x, rest) -> exists j pre, length pre = (64 * j)%nat /\ rng = pre ++ rest /\ forall m more, (j < m)%nat -> genLoop m i e (pre ++ more) = (false, x, more)).
  { induction n as [|n IH]; intros i e rng x rest H; [discriminate|]. cbn [genLoop] in H. destruct (i <? primeCount)%nat eqn:Ei.
    - destruct (readFull64 rng) as [[b r]|] eqn:E; [|discriminate]. destruct (read_chunk rng b r E) as (L & -> & R). destruct (genBuf b i e) as [i' e'] eqn:Eb.
      destruct (IH i' e' r x rest H) as (j & pre & Lp & -> & Hp). exists (S j), (b ++ pre). split; [rewrite app_length; lia|]. split; [apply app_assoc|].
      intros m more Hm. destruct m; [lia|]. rewrite <- app_assoc. cbn [genLoop]. rewrite Ei, R, Eb. apply Hp. lia.
    - injection H as <- <-. exists 0%nat, []. split; [reflexivity|]. split; [reflexivity|]. intros m more Hm. destruct m; [lia|]. cbn [genLoop]. rewrite Ei. reflexivity. }
  intros rng x rest H. unfold srcPriv in H. destruct (generatePrivateKey rng) as [[err e] r] eqn:E. destruct err; [discriminate|]. injection H as <- <-.
  destruct (G _ _ _ _ _ _ E) as (j & pre & L & -> & R). exists j, pre. split; [exact L|]. split; [reflexivity|]. intro more. unfold srcPriv, generatePrivateKey. rewrite R by (rewrite app_length; lia). reflexivity.
Qed.
Lemma priv_err rng e r : generatePrivateKey rng = (true, e, r) -> r = [].
Proof.
  assert (G : forall n i e rng x rest, (length rng < n)%nat -> genLoop n i e rng = (true, x, rest) -> rest = []).
  { induction n as [|n IH]; intros i e0 rng0 x rest Hn H; [lia|]. cbn [genLoop] in H. destruct (i <? primeCount)%nat; [|discriminate].
    destruct (readFull64 rng0) as [[b r0]|] eqn:E; [|congruence]. destruct (read_chunk rng0 b r0 E) as (L & -> & R). destruct (genBuf b i e0) as [i' e'].
    eapply IH; [|exact H]. rewrite app_length in Hn. lia. }
  intro H. eapply G; [|exact H]. lia.
Qed.
Lemma pub_nil e : generatePublicKey e [] = Panic. Proof. reflexivity. Qed.
Lemma reads_nil {X} (f : list Z -> option (X * list Z)) x r : reads64 f -> f [] = Some (x, r) -> r = [].
Proof. intros H E. destruct (H _ _ _ E) as (j & pre & _ & E' & _). symmetry in E'. apply app_eq_nil in E'. tauto. Qed.

Lemma enc_reads g h pk pt : reads64 (srcEnc g h pk pt).
Proof.
  apply (reads_ext (fun rng => match srcPriv rng with None => None | Some (sk, r) => (fun sk r =>
    match srcSecret (repeat 0 64) pk sk r with None => None | Some (os, r) => (fun os r => let '(h', ss) := hashSs g (Reset h) (snd os) in
    match srcPub sk r with None => None | Some (a, r) => Some ((h', (snd (pubExport a (repeat 0 64)), xor16 (repeat 0 64) pt ss)), r) end) os r end) sk r end)).
  - intro rng. unfold srcEnc, pkeEnc, srcPriv, srcSecret, srcPub. cbn [pRng pH]. destruct (generatePrivateKey rng) as [[err sk] r] eqn:E. destruct err.
    + apply priv_err in E. subst r. pose proof (secret_reads (repeat 0 64) pk sk) as SR. unfold srcSecret in SR.
      destruct (deriveSecret _ _ _ _) as [[[ok ss] r]|] eqn:ED; [|reflexivity]. assert (r = []) as -> by (eapply (reads_nil _ _ _ SR); cbv beta; rewrite ED; reflexivity).
      destruct (hashSs _ _ _) as [h' s']. rewrite pub_nil. reflexivity.
    + destruct (deriveSecret _ _ _ _) as [[[ok ss] r']|]; [|reflexivity]. cbn [snd]. destruct (hashSs _ _ _) as [h' s']. cbv zeta. destruct (generatePublicKey sk r') as [[a r'']|]; reflexivity.
  - apply reads_bind; [apply priv_reads|]. intro sk. apply reads_bind; [apply secret_reads|]. intro os. destruct (hashSs _ _ _) as [h' ss].
    apply (reads_bind (srcPub sk) (fun a r => Some ((h', (snd (pubExport a (repeat 0 64)), xor16 (repeat 0 64) pt ss)), r))); [apply pub_reads|intro; apply reads_ret].
Qed.
Lemma dec_reads g h sk U V : reads64 (srcDec g h sk U V).
Proof.
  apply (reads_ext (fun rng => match srcSecret (repeat 0 64) (snd (pubImport (repeat 0 8) U)) sk rng with None => None | Some (os, r) => (fun os r => let '(h', ss) := hashSs g (Reset h) (snd os) in Some ((h', xor16 (repeat 0 16) V ss), r)) os r end)).
  - intro rng. unfold srcDec, pkeDec, srcSecret. cbn [pRng pH]. destruct (deriveSecret _ _ _ _) as [[[ok ss] r]|]; [|reflexivity]. cbn [snd]. destruct (hashSs _ _ _) as [h' s']. reflexivity.
  - apply reads_bind; [apply secret_reads|]. intro os. destruct (hashSs _ _ _). apply reads_ret.
Qed.
Definition srcLoop g h ss sk pt cts i keys (rng : list Z) : option ((state * list (list Z)) * list Z) :=
  match encryptLoop g h ss sk rng pt cts i keys with Panic => None | Ret (h, r, cts) => Some ((h, cts), r) end.
Lemma loop_reads g sk pt keys : forall h ss cts i, reads64 (srcLoop g h ss sk pt cts i keys).
Proof.
  induction keys as [|pk keys IH]; intros h ss cts i; [apply (reads_ret (h, cts))|].
  apply (reads_ext (fun rng => match srcSecret ss pk sk rng with None => None | Some (os, r) => (fun os r => let '(h', s') := hashSs g h (snd os) in
     match nth_error cts i with None => None | Some ct => srcLoop g (Reset h') s' sk pt (firstn i cts ++ xor16 ct pt s' :: skipn (S i) cts) (S i) keys r end) os r end)).
  - intro rng. unfold srcLoop at 2, srcSecret. cbn [encryptLoop]. destruct (deriveSecret _ _ _ _) as [[[ok s] r]|]; [|reflexivity]. cbn [snd]. destruct (hashSs _ _ _) as [h' s']. cbv zeta. destruct (nth_error cts i); reflexivity.
  - apply reads_bind; [apply secret_reads|]. intro os. destruct (hashSs _ _ _). destruct (nth_error cts i); [apply IH|apply reads_none].
Qed.
Lemma encrypt_reads g h ct0 cts keys pt : reads64 (srcEncrypt g h ct0 cts keys pt).
Proof.
  apply (reads_ext (fun rng => match srcPriv rng with None => None | Some (sk, r) => (fun sk r =>
    match srcLoop g h (repeat 0 64) sk pt cts 0 keys r with None => None | Some (hc, r) => (fun hc r =>
    match srcPub sk r with None => None | Some (a, r) => Some ((fst hc, snd (pubExport a ct0), snd hc), r) end) hc r end) sk r end)).
  - intro rng. unfold srcEncrypt, mpkeEncrypt, srcPriv, srcPub. cbn [pRng pH mP mCt0 mCts]. destruct (generatePrivateKey rng) as [[err sk] r] eqn:E. pose proof (loop_reads g sk pt keys h (repeat 0 64) cts 0) as SR. unfold srcLoop in *. destruct err.
    + apply priv_err in E. subst r.
      destruct (encryptLoop _ _ _ _ _ _ _ _ _) as [[[h' r] cts']|] eqn:ED; [|reflexivity]. assert (r = []) as -> by (eapply (reads_nil _ _ _ SR); cbv beta; rewrite ED; reflexivity).
      rewrite pub_nil. reflexivity.
    + destruct (encryptLoop _ _ _ _ _ _ _ _ _) as [[[h' r'] cts']|]; [|reflexivity]. cbn [fst snd]. destruct (generatePublicKey sk r') as [[a r'']|]; reflexivity.
  - apply reads_bind; [apply priv_reads|]. intro sk. apply reads_bind; [apply loop_reads|]. intro hc.
    apply (reads_bind (srcPub sk) (fun a r => Some ((fst hc, snd (pubExport a ct0), snd hc), r))); [apply pub_reads|intro; apply reads_ret].
Qed.

Theorem C89_reads : reads64 srcPriv /\ (forall e, reads64 (srcPub e)) /\ (forall a, reads64 (srcValid a)) /\ (forall out a e, reads64 (srcSecret out a e)) /\
  (forall g h pk pt, reads64 (srcEnc g h pk pt)) /\ (forall g h sk U V, reads64 (srcDec g h sk U V)) /\ (forall g h ct0 cts keys pt, reads64 (srcEncrypt g h ct0 cts keys pt)).
Proof. exact (conj priv_reads (conj pub_reads (conj valid_reads (conj secret_reads (conj enc_reads (conj dec_reads encrypt_reads)))))). Qed.
Print Assumptions C89_reads.

Lemma draw_total k : forall d, shape d -> exists d' l, draw k d = Some (d', l) /\ length l = (64 * k)%nat /\ shape d'.
Proof.
  induction k as [|k IH]; intros d H; [exists d, []; auto|]. cbn [draw]. unfold DRBG_Model.Read. destruct (C23_read_total d (repeat 0 64) [] H) as (d1 & o & E & L & H1). rewrite E.
  destruct (IH d1 H1) as (d' & l & E' & L' & H'). rewrite E'. exists d', (o ++ l). split; [reflexivity|]. split; [rewrite app_length, L, L', repeat_length; lia|exact H'].
Qed.
Lemma draw_split j : forall i d, draw (j + i) d = match draw j d with None => None | Some (d1, l1) => match draw i d1 with None => None | Some (d2, l2) => Some (d2, l1 ++ l2) end end.
Proof.
  induction j as [|j IH]; intros i d; [cbn [draw plus]; destruct (draw i d) as [[? ?]|]; reflexivity|]. cbn [draw plus]. destruct (DRBG_Model.Read d (repeat 0 64)) as [[[d1 o] n]|]; [|reflexivity].
  rewrite IH. destruct (draw j d1) as [[d2 l1]|]; [|reflexivity]. destruct (draw i d2) as [[d3 l2]|]; [|reflexivity]. rewrite app_assoc. reflexivity.
Qed.
Lemma app_cut {X} (a b c e : list X) : length a = length c -> a ++ b = c ++ e -> a = c /\ b = e.
Proof. revert c. induction a as [|x a IH]; destruct c as [|y c]; cbn; intros L E; try discriminate; [auto|]. injection E as -> E. injection L as L. destruct (IH c L E) as [-> ->]. auto. Qed.
(* the generator never runs out; *)
Theorem C89_supply : forall d k, shape d -> exists d' l, draw k d = Some (d', l) /\ length l = (64 * k)%nat /\ shape d'.
Proof. intros d k. apply draw_total. Qed.
(* a run on any long enough supply is the run on the generator, and what is left of the supply is what the generator delivers next; *)
Theorem C89_run : forall (X : Type) (f : list Z -> option (X * list Z)) d k dk l x rest, reads64 f -> shape d -> draw k d = Some (dk, l) -> f l = Some (x, rest) ->
  exists d' j, (j <= k)%nat /\ onDrbg f d d' x /\ shape d' /\ draw (k - j) d' = Some (dk, rest).
Proof.
  intros X f d k dk l x rest R H D E. destruct (R l x rest E) as (j & pre & L & El & P). destruct (draw_total k d H) as (dk' & l' & D' & L' & _). rewrite D in D'. injection D' as <- <-.
  assert (Hj : (j <= k)%nat) by (rewrite El, app_length in L'; lia). replace k with (j + (k - j))%nat in D by lia. rewrite draw_split in D.
  destruct (draw_total j d H) as (d1 & l1 & D1 & L1 & H1). rewrite D1 in D. destruct (draw_total (k - j) d1 H1) as (d2 & l2 & D2 & L2 & H2). rewrite D2 in D. injection D as <- D.
  rewrite El in D. destruct (app_cut l1 l2 pre rest) as [-> ->]; [lia|exact D|]. exists d1, j. split; [exact Hj|]. split; [|split; [exact H1|exact D2]].
  exists j, pre. split; [exact D1|]. rewrite <- (app_nil_r pre). apply P.
Qed.
(* conversely the run on the generator is the run on every supply from some length on; *)
Theorem C89_enough : forall (X : Type) (f : list Z -> option (X * list Z)) d d' x, reads64 f -> shape d -> onDrbg f d d' x ->
  exists j, forall k, (j <= k)%nat -> exists dk l rest, draw k d = Some (dk, l) /\ f l = Some (x, rest) /\ draw (k - j) d' = Some (dk, rest).
Proof.
  intros X f d d' x R H (j & l & D & E). exists j. intros k Hk. destruct (draw_total j d H) as (d1 & l1 & D1 & _ & H1). rewrite D in D1. injection D1 as <- <-.
  destruct (draw_total (k - j) d' H1) as (dk & r & D2 & _). exists dk, (l ++ r), r. split; [replace k with (j + (k - j))%nat by lia; rewrite draw_split, D, D2; reflexivity|]. split; [|exact D2].
  destruct (R l x [] E) as (i & pre & _ & -> & P). rewrite app_nil_r. apply P.
Qed.
(* and it determines both the result and the generator it leaves. *)
Theorem C89_determined : forall (X : Type) (f : list Z -> option (X * list Z)) d d1 d2 x1 x2, reads64 f -> shape d -> onDrbg f d d1 x1 -> onDrbg f d d2 x2 -> d1 = d2 /\ x1 = x2.
Proof.
  assert (G : forall (X : Type) (f : list Z -> option (X * list Z)) d d1 d2 x1 x2 k1 k2 l1 l2, reads64 f -> shape d -> (k1 <= k2)%nat -> draw k1 d = Some (d1, l1) -> f l1 = Some (x1, []) ->
              draw k2 d = Some (d2, l2) -> f l2 = Some (x2, []) -> d1 = d2 /\ x1 = x2).
  { intros X f d d1 d2 x1 x2 k1 k2 l1 l2 R H Hk D1 E1 D2 E2. replace k2 with (k1 + (k2 - k1))%nat in D2 by lia. rewrite draw_split, D1 in D2.
    destruct (draw (k2 - k1) d1) as [[d3 t]|] eqn:D3; [|discriminate]. injection D2 as <- <-. destruct (R l1 x1 [] E1) as (i & pre & _ & -> & P). rewrite app_nil_r, P in E2. injection E2 as <- ->.
    destruct (draw_total k1 d H) as (d1' & l' & D1' & _ & H1). rewrite D1 in D1'. injection D1' as <- _. destruct (draw_total (k2 - k1) d1 H1) as (d3' & t' & D3' & L & _). rewrite D3 in D3'. injection D3' as <- <-.
    cbn in L. replace (k2 - k1)%nat with 0%nat in D3 by lia. injection D3 as ->. auto. }
  intros X f d d1 d2 x1 x2 R H (k1 & l1 & D1 & E1) (k2 & l2 & D2 & E2). destruct (Nat.le_ge_cases k1 k2) as [Hk|Hk].
  - exact (G X f d d1 d2 x1 x2 k1 k2 l1 l2 R H Hk D1 E1 D2 E2).
  - destruct (G X f d d2 d1 x2 x1 k2 k1 l2 l1 R H Hk D2 E2 D1 E1). auto.
Qed.
(* The key and the point generator reuse one buffer for all their reads (csidh.go:48, 225): its contents do not matter. *)
Lemma enc_v_uniform a vv : length vv = 16%nat -> exists b, length b = 16%nat /\ forall dst, (16 <= length dst)%nat -> enc_v a dst vv = Some (b ++ skipn 16 dst).
Proof.
  intro L. exists (encryptBlockGo (firstn (keyLen a + 28) (enc a)) vv).
  assert (Lb : length (encryptBlockGo (firstn (keyLen a + 28) (enc a)) vv) = 16%nat).
  { rewrite encryptBlockGo_unfold. match goal with |- context [enc_rounds ?a ?b ?c ?d ?e] => destruct (enc_rounds a b c d e) as [[[[t0 t1] t2] t3] k] end. unfold last_step. rewrite !app_length, !be_enc_length. reflexivity. }
  split; [exact Lb|]. intros dst Ld. destruct (enc_v_total a dst vv L Ld) as (b & E & _). unfold enc_v, Encrypt, block_op in *. cbn [cont] in *.
  destruct (_ <? _)%nat; [discriminate|]. destruct (_ <? _)%nat; [discriminate|]. destruct (InexactOverlap _ _); [discriminate|]. rewrite (blit_first16 dst _ Ld Lb). reflexivity.
Qed.
Lemma gen_buffer n : forall i c out out', length (v c) = 16%nat -> length out = (i * 16 + n * 16)%nat -> length out' = (i * 16 + n * 16)%nat -> firstn (i * 16) out = firstn (i * 16) out' ->
  gen_loop n i c out = gen_loop n i c out'.
Proof.
  induction n as [|n IH]; intros i c out out' Lv L L' F; [rewrite !firstn_all2 in F by lia; subst; reflexivity|]. cbn [gen_loop].
  destruct (enc_v_uniform (fst (SetKey (blockEnc c) (key c))) (inc (v c))) as (b & Lb & E). { rewrite inc_length. exact Lv. }
  rewrite !E by (rewrite skipn_length; lia). apply IH; cbn [v].
  - rewrite inc_length. exact Lv.
  - rewrite !app_length, !skipn_length, firstn_length, Lb. lia.
  - rewrite !app_length, !skipn_length, firstn_length, Lb. lia.
  - replace ((i + 1) * 16)%nat with (length (firstn (i * 16) out ++ b)) by (rewrite app_length, firstn_length, Lb; lia). rewrite F, !app_assoc, !firstn_app, Nat.sub_diag, !firstn_O. reflexivity.
Qed.
Theorem C89_buffer : forall d out, shape d -> length out = 64%nat -> DRBG_Model.Read d out = DRBG_Model.Read d (repeat 0 64).
Proof.
  intros d out (Lv & _) L. unfold DRBG_Model.Read, ReadWithAdditionalData. rewrite L, repeat_length. change (64 / 16)%nat with 4%nat.
  rewrite (gen_buffer 4 0 d out (repeat 0 64)); [reflexivity|exact Lv|exact L|apply repeat_length|reflexivity].
Qed.
Print Assumptions C89_supply. Print Assumptions C89_run. Print Assumptions C89_enough. Print Assumptions C89_determined. Print Assumptions C89_buffer.

(* a call that takes one read, and one that takes two *)
Example ex_C89 : forall d, shape d -> exists d' b, onDrbg readFull64 d d' b /\ length b = 64%nat.
Proof.
  intros d H. destruct (C89_supply d 1 H) as (d' & l & D & L & _). exists d', l. split; [|exact L]. exists 1%nat, l. split; [exact D|].
  unfold readFull64. rewrite L. cbn [Nat.ltb Nat.leb Nat.mul Nat.add]. rewrite firstn_all2, skipn_all2 by (rewrite L; apply le_n). reflexivity.
Qed.
Example ex_C89_shape : shape NewCtrDrbg. Proof. repeat split. Qed.
Example ex_C89_two : reads64 (fun rng => match readFull64 rng with None => None | Some (a, r) => match readFull64 r with None => None | Some (b, r) => Some ((b, a), r) end end).
Proof.
  assert (R : reads64 readFull64). { intros rng b r E. destruct (read_chunk rng b r E) as (L & E' & P). exists 1%nat, b. auto. }
  apply (reads_bind readFull64 (fun a r => match readFull64 r with None => None | Some (b, r) => Some ((b, a), r) end) R). intro a. apply (reads_bind readFull64 (fun b r => Some ((b, a), r)) R). intro. apply reads_ret.
Qed.
(* a call that looks one byte ahead is not of this kind *)
Example ex_C89_peek : ~ reads64 (fun rng => match rng with [] => None | b :: _ => Some (b, rng) end).
Proof. intro H. destruct (H [7] 7 [7] eq_refl) as (j & pre & _ & E & P). destruct pre as [|x pre]; [specialize (P [])|destruct pre]; discriminate. Qed.

(* Spec: SP 800-90A, k requests of 64 bytes one after the other, without additional input *)
Fixpoint requests (k : nat) (s : wstate) : list Z := match k with O => [] | S k => let '(o, s) := Generate s 64 [] in o ++ requests k s end.
(* The supply of an initialised object is that stream. *)
Theorem C89_stream : forall entropy pers k, bytes entropy -> bytes pers ->
  exists c c', Init NewCtrDrbg entropy pers = Some (c, true) /\ shape c /\ draw k c = Some (c', requests k (Instantiate entropy pers)).
Proof.
  intros e p k Be Bp. destruct (init_ok NewCtrDrbg _ e p new_DR Be Bp) as (c & E & D & K & _). { cbn. lia. }
  assert (G : forall k c s Kp, DR c s -> keyed Kp (blockEnc c) -> exists c', draw k c = Some (c', requests k s)).
  { clear. induction k as [|k IH]; intros c s Kp HD HK; [exists c; reflexivity|]. cbn [draw requests]. unfold DRBG_Model.Read.
    destruct (read_ok c s Kp (repeat 0 64) [] HD HK ltac:(constructor)) as (c1 & E & D & K & _). rewrite E. rewrite repeat_length in *.
    assert (GA : fst (GenImpl Kp s 64 []) = Generate s 64 []) by (apply GenImpl_aligned; [apply HD|apply HD|constructor|reflexivity]).
    rewrite GA in *. destruct (Generate s 64 []) as [o s']. cbn [fst snd] in *. destruct (IH c1 _ _ D K) as [c' E']. rewrite E'. exists c'. reflexivity. }
  destruct (G k c _ _ D K) as [c' E']. exists c, c'. split; [exact E|]. split; [|exact E']. destruct D as (Ev & Ek & Bv & Bk & Lt). unfold shape. rewrite Ev, Ek. split; [apply Bv|]. split; [apply Bk|exact Lt].
Qed.
Print Assumptions C89_stream.

(* Two calls one after the other on one generator: the second one starts on the generator the first one left. *)
Definition andThen {X Y : Type} (f : list Z -> option (X * list Z)) (k : X -> list Z -> option (Y * list Z)) (rng : list Z) : option (Y * list Z) :=
  match f rng with None => None | Some (x, r) => k x r end.
Theorem C89_sequence : forall (X Y : Type) (f : list Z -> option (X * list Z)) (k : X -> list Z -> option (Y * list Z)) d d' y, reads64 f -> (forall x, reads64 (k x)) -> shape d ->
  reads64 (andThen f k) /\ (onDrbg (andThen f k) d d' y <-> exists x d1, onDrbg f d d1 x /\ onDrbg (k x) d1 d' y).
Proof.
  intros X Y f k d d' y Rf Rk H. split; [apply (reads_bind f k Rf Rk)|]. split.
  - intros (n & l & D & E). unfold andThen in E. destruct (f l) as [[x r]|] eqn:Ef; [|discriminate]. destruct (C89_run X f d n d' l x r Rf H D Ef) as (d1 & j & _ & O & _ & D1).
    exists x, d1. split; [exact O|]. exists (n - j)%nat, r. split; [exact D1|exact E].
  - intros (x & d1 & (n & l & D & E) & (m & r & D1 & E1)). exists (n + m)%nat, (l ++ r). split; [rewrite draw_split, D, D1; reflexivity|]. unfold andThen.
    destruct (Rf l x [] E) as (j & pre & _ & -> & P). rewrite app_nil_r, P. exact E1.
Qed.
Print Assumptions C89_sequence.
Example ex_C89_sequence : forall d, shape d -> exists d' a b, onDrbg (andThen readFull64 (fun a => andThen readFull64 (fun b r => Some ((a, b), r)))) d d' (a, b) /\ draw 2 d = Some (d', a ++ b) /\ length a = 64%nat.
Proof.
  intros d H. destruct (C89_supply d 2 H) as (d' & l & D & L & _). exists d', (firstn 64 l), (skipn 64 l). assert (La : length (firstn 64 l) = 64%nat) by (apply firstn_length_le; rewrite L; repeat constructor).
  split; [|split; [rewrite firstn_skipn; exact D|exact La]]. exists 2%nat, l. split; [exact D|]. unfold andThen, readFull64.
  assert (Ls : length (skipn 64 l) = 64%nat) by (rewrite skipn_length, L; reflexivity). rewrite L. change (64 * 2 <? 64)%nat with false. cbv iota. rewrite Ls. change (64 <? 64)%nat with false. cbv iota. rewrite (firstn_all2 (skipn 64 l)), (skipn_all2 (skipn 64 l)) by (rewrite Ls; apply le_n). reflexivity.
Qed.
