(* What is checked of a symbolic run of each assembly kernel of dh/sidh, and what the check means for all inputs. *)
From Coq Require Import ZArith List Lia Bool.
From Verif Require Import Lib MP SIDH_Consts X86 X86_Sym X86_Call X86_Lin X86_Mul SIDH_AsmModel.
Import ListNotations.
Open Scope Z_scope.

Definition pvOf (naw : nat) (lens : list nat) (j : nat) : poly := pvalue (pblock naw lens j).
Definition cstP (z : Z) : poly := if z =? 0 then [] else [([], z)].
Lemma peval_cst e z : peval e (cstP z) = z.
Proof. unfold cstP. destruct (Z.eqb_spec z 0); cbn [peval meval]; lia. Qed.

(* ---------- subtract, then add w back if there was a borrow ---------- *)
Definition cond (N U V w : Z) : Z := if U <? V then (U - V + w) mod N else U - V.
Definition condChk (lens : list nat) (a k : nat) (u v : poly) (w : Z) (zs : list poly) (outs : list (list poly)) : bool :=
  outAt 0 lens a outs && (length (nth a outs []) =? k)%nat && (length zs =? k)%nat &&
  match psub (pvalue zs) (psub u v) with
  | [] => pz k (psub (pvalue (nth a outs [])) (pvalue zs))
  | [([xO b], c)] => (c =? B ^ Z.of_nat k) && pz k (psub (pvalue (nth a outs [])) (padd (pvalue zs) [([xO b], w)]))
  | _ => false
  end.
Lemma condChk_ok lens a k u v w zs outs e : condChk lens a k u v w zs outs = true -> bits e ->
  Forall words (map (map (peval e)) outs) -> (forall p, In p zs -> 0 <= peval e p < B) ->
  outAt 0 lens a outs = true /\ words (map (peval e) (nth a outs [])) /\ length (map (peval e) (nth a outs [])) = k /\
  val (map (peval e) (nth a outs [])) = cond (B ^ Z.of_nat k) (peval e u) (peval e v) w.
Proof.
  unfold condChk. intros H He Ho Hz. apply andb_prop in H as [H E4]. apply andb_prop in H as [H E3]. apply andb_prop in H as [E1 E2].
  apply Nat.eqb_eq in E2, E3. split; [exact E1|]. pose proof (outAt_words e outs a Ho) as Wo. split; [exact Wo|]. rewrite map_length. split; [exact E2|].
  assert (Wz : words (map (peval e) zs)) by (unfold words; apply Forall_map, Forall_forall; exact Hz).
  pose proof (val_bound _ Wz) as Bz. pose proof (val_bound _ Wo) as Bo. rewrite map_length in Bz, Bo. rewrite E3 in Bz. rewrite E2 in Bo.
  destruct (psub (pvalue zs) (psub u v)) as [|[m c] l] eqn:Ed.
  { assert (Ez : peval e (psub (pvalue zs) (psub u v)) = 0) by (rewrite Ed; reflexivity).
    apply (pz_ok k _ e) in E4. rewrite !peval_sub in *. rewrite !peval_value in *. unfold cond.
    destruct (Z.ltb_spec (peval e u) (peval e v)) as [L|L]; [lia|]. apply (cong_eq (B ^ Z.of_nat k)); [exact Bo|lia|].
    replace (peval e u - peval e v) with (val (map (peval e) zs)) by lia. exact E4. }
  destruct l; destruct m as [|[b|b|] [|]]; try discriminate.
  apply andb_prop in E4 as [E4 E5]. apply Z.eqb_eq in E4. apply (pz_ok k _ e) in E5.
  assert (Ez : peval e (psub (pvalue zs) (psub u v)) = peval e [([xO b], c)]) by (rewrite Ed; reflexivity).
  rewrite !peval_sub in Ez. rewrite peval_sub, peval_add in E5. cbn [peval meval] in Ez, E5.
  rewrite !peval_value in *. set (N := B ^ Z.of_nat k) in *. set (z := val (map (peval e) zs)) in *. set (o := val (map (peval e) (nth a outs []))) in *.
  subst c. specialize (He b). assert (Hb : e (xO b) = 0 \/ e (xO b) = 1) by lia. unfold cond. destruct Hb as [Hb|Hb]; rewrite Hb in *.
  - destruct (Z.ltb_spec (peval e u) (peval e v)) as [L|L]; [lia|]. replace (peval e u - peval e v) with z by lia.
    apply (cong_eq N); [lia|lia|]. replace (o - z) with (o - (z + (w * (0 * 1) + 0))) by ring. exact E5.
  - destruct (Z.ltb_spec (peval e u) (peval e v)) as [L|L]; [|lia].
    destruct E5 as [q Hq]. apply Z.mod_unique with (q := - q - 1); [left; lia|]. lia.
Qed.

Section Runs.
Variable gl : list (list Z).
Hypothesis Hg : Forall words gl.

Definition subChk (lens : list nat) (a : nat) (k : nat) (u v : poly) (w : Z) (outs : list (list poly)) (facts : list poly) : bool :=
  condChk lens a k u v w (firstn k (rev facts)) outs.
Definition addChk (lens : list nat) (a b c k : nat) (v w : Z) (outs : list (list poly)) (facts : list poly) : bool :=
  let u := pvalue (firstn k (rev facts)) in
  (length (firstn k (rev facts)) =? k)%nat && pz k (psub u (padd (pvOf 0 lens b) (pvOf 0 lens c))) &&
  condChk lens a k u (cstP v) w (firstn k (skipn k (rev facts))) outs.
Definition sumChk (lens : list nat) (a b c k : nat) (outs : list (list poly)) (facts : list poly) : bool :=
  outAt 0 lens a outs && (length (nth a outs []) =? k)%nat && pz k (psub (pvalue (nth a outs [])) (padd (pvOf 0 lens b) (pvOf 0 lens c))).

Lemma in_rev_first (facts : list poly) k m p : In p (firstn k (skipn m (rev facts))) -> In p facts.
Proof.
  intro H. apply in_rev. rewrite <- (firstn_skipn m (rev facts)). apply in_or_app. right.
  rewrite <- (firstn_skipn k (skipn m (rev facts))). apply in_or_app. left. exact H.
Qed.

Section Blocks.
Variables (blocks : list (list Z)) (lens : list nat) (bp : Z).
Hypothesis Hb : Forall words blocks.
Hypothesis El : map (@length Z) blocks = lens.
Hypothesis Hbp : is_w64 bp.

Lemma sub_run code spec a b c k w : symOk 0 code spec 0 lens gl (subChk lens a k (pvOf 0 lens b) (pvOf 0 lens c) w) = true ->
  specOk 0 spec -> (b < length blocks)%nat -> (c < length blocks)%nat ->
  exists r, call 0 code (map (zarg []) spec) blocks gl bp = Some (setl blocks a r, bp) /\ words r /\ length r = k /\
    val r = cond (B ^ Z.of_nat k) (val (nth b blocks [])) (val (nth c blocks [])) w.
Proof.
  intros H Hs Lb Lc. destruct (sym_out _ _ _ _ _ _ _ H bp [] blocks Hbp) as (e & outs & facts & E1 & E2 & E3 & E4 & E5 & E6); auto; [constructor|].
  destruct (condChk_ok _ _ _ _ _ _ _ _ e E6 E1 E4) as (A1 & A2 & A3 & A4).
  { intros p Hp. apply E5, (in_rev_first facts k 0), Hp. }
  rewrite (outAt_ok e bp [] blocks lens a outs E2 El A1) in E3. eexists. split; [exact E3|]. split; [exact A2|]. split; [exact A3|]. rewrite A4.
  unfold pvOf. rewrite !peval_value. pose proof (fun j => peval_block e bp [] blocks E2 lens j (eq_sym El)) as Eb. cbn [length] in Eb.
  rewrite !Eb by assumption. reflexivity.
Qed.
Lemma subc_run code spec a b k v w : symOk 0 code spec 0 lens gl (subChk lens a k (pvOf 0 lens b) (cstP v) w) = true ->
  specOk 0 spec -> (b < length blocks)%nat ->
  exists r, call 0 code (map (zarg []) spec) blocks gl bp = Some (setl blocks a r, bp) /\ words r /\ length r = k /\
    val r = cond (B ^ Z.of_nat k) (val (nth b blocks [])) v w.
Proof.
  intros H Hs Lb. destruct (sym_out _ _ _ _ _ _ _ H bp [] blocks Hbp) as (e & outs & facts & E1 & E2 & E3 & E4 & E5 & E6); auto; [constructor|].
  destruct (condChk_ok _ _ _ _ _ _ _ _ e E6 E1 E4) as (A1 & A2 & A3 & A4).
  { intros p Hp. apply E5, (in_rev_first facts k 0), Hp. }
  rewrite (outAt_ok e bp [] blocks lens a outs E2 El A1) in E3. eexists. split; [exact E3|]. split; [exact A2|]. split; [exact A3|]. rewrite A4.
  unfold pvOf. rewrite !peval_value, peval_cst. pose proof (fun j => peval_block e bp [] blocks E2 lens j (eq_sym El)) as Eb. cbn [length] in Eb.
  rewrite !Eb by assumption. reflexivity.
Qed.
Lemma add_run code spec a b c k v w : symOk 0 code spec 0 lens gl (addChk lens a b c k v w) = true ->
  specOk 0 spec -> (b < length blocks)%nat -> (c < length blocks)%nat ->
  exists r, call 0 code (map (zarg []) spec) blocks gl bp = Some (setl blocks a r, bp) /\ words r /\ length r = k /\
    val r = cond (B ^ Z.of_nat k) ((val (nth b blocks []) + val (nth c blocks [])) mod B ^ Z.of_nat k) v w.
Proof.
  intros H Hs Lb Lc. destruct (sym_out _ _ _ _ _ _ _ H bp [] blocks Hbp) as (e & outs & facts & E1 & E2 & E3 & E4 & E5 & E6); auto; [constructor|].
  unfold addChk in E6. apply andb_prop in E6 as [E6 E8]. apply andb_prop in E6 as [E6 E7]. apply Nat.eqb_eq in E6. apply (pz_ok k _ e) in E7.
  destruct (condChk_ok _ _ _ _ _ _ _ _ e E8 E1 E4) as (A1 & A2 & A3 & A4).
  { intros p Hp. apply E5, (in_rev_first facts k k), Hp. }
  rewrite (outAt_ok e bp [] blocks lens a outs E2 El A1) in E3. eexists. split; [exact E3|]. split; [exact A2|]. split; [exact A3|]. rewrite A4, peval_cst.
  f_equal. rewrite peval_sub, peval_add in E7. unfold pvOf in E7. rewrite !peval_value in E7. rewrite peval_value.
  pose proof (fun j => peval_block e bp [] blocks E2 lens j (eq_sym El)) as Eb. cbn [length] in Eb. rewrite !Eb in E7 by assumption.
  assert (Wu : words (map (peval e) (firstn k (rev facts)))).
  { unfold words. apply Forall_map, Forall_forall. intros p Hp. apply E5, (in_rev_first facts k 0), Hp. }
  pose proof (val_bound _ Wu) as Bu. rewrite map_length, E6 in Bu. destruct E7 as [q Hq].
  apply Z.mod_unique with (q := - q); [left; lia|]. lia.
Qed.
Lemma sum_run code spec a b c k : symOk 0 code spec 0 lens gl (sumChk lens a b c k) = true ->
  specOk 0 spec -> (b < length blocks)%nat -> (c < length blocks)%nat ->
  exists r, call 0 code (map (zarg []) spec) blocks gl bp = Some (setl blocks a r, bp) /\ words r /\ length r = k /\
    val r = (val (nth b blocks []) + val (nth c blocks [])) mod B ^ Z.of_nat k.
Proof.
  intros H Hs Lb Lc. destruct (sym_out _ _ _ _ _ _ _ H bp [] blocks Hbp) as (e & outs & facts & E1 & E2 & E3 & E4 & E5 & E6); auto; [constructor|].
  unfold sumChk in E6. apply andb_prop in E6 as [E6 E8]. apply andb_prop in E6 as [E6 E7]. apply Nat.eqb_eq in E7. apply (pz_ok k _ e) in E8.
  rewrite (outAt_ok e bp [] blocks lens a outs E2 El E6) in E3. eexists. split; [exact E3|].
  pose proof (outAt_words e outs a E4) as Wo. split; [exact Wo|]. split; [rewrite map_length; exact E7|].
  rewrite peval_sub, peval_add in E8. unfold pvOf in E8. rewrite !peval_value in E8.
  pose proof (fun j => peval_block e bp [] blocks E2 lens j (eq_sym El)) as Eb. cbn [length] in Eb. rewrite !Eb in E8 by assumption.
  pose proof (val_bound _ Wo) as Bo. rewrite map_length, E7 in Bo. destruct E8 as [q Hq].
  apply Z.mod_unique with (q := - q); [left; lia|]. lia.
Qed.
End Blocks.

(* ---------- Montgomery reduction: z is array a, x is array b and may be destroyed; iq selects the words of the factor q ---------- *)
Definition rdcChk (pp1 : Z) (lens : list nat) (a b n : nat) (keep : bool) (iq : list nat) (outs : list (list poly)) (bpp : poly) (facts : list poly) : bool :=
  let fs := seen 0 lens facts in
  let q := pvalue (sel fs iq) in
  (if keep then peqb bpp (wordA (tn 0)) else true) &&
  (length outs =? 2)%nat && (length (nth a outs []) =? n)%nat && (length (nth b outs []) =? 2 * n)%nat && (length iq =? n)%nat && below (length fs) iq &&
  pz (2 * n) (psub (padd (pscale (B ^ Z.of_nat n) (pvalue (nth a outs []))) q) (padd (pvOf 0 lens b) (pmul q (cstP pp1)))).
Lemma rdc_run pp1 code n keep iq us z x bp :
  symOkB 0 code [AP 1; AP 2] 0 us gl (rdcChk pp1 [n; 2 * n]%nat 0 1 n keep iq) = true ->
  is_w64 bp -> under us [z; x] -> length z = n -> length x = (2 * n)%nat ->
  exists r x' bp' q, call 0 code [Pt 1 0; Pt 2 0] [z; x] gl bp = Some ([r; x'], bp') /\ is_w64 bp' /\ (keep = true -> bp' = bp) /\
    words r /\ length r = n /\ words x' /\ length x' = (2 * n)%nat /\ 0 <= q < B ^ Z.of_nat n /\
    (B ^ Z.of_nat (2 * n) | B ^ Z.of_nat n * val r + q - (val x + q * pp1)).
Proof.
  intros H Hbp Hu Lz Lx.
  destruct (sym_outB _ _ _ _ _ _ _ H bp [] [z; x] Hbp (Forall_nil _) Hu Hg eq_refl ltac:(repeat constructor)) as (e & outs & bpp & facts & E1 & E2 & E3 & Eb & E4 & E5).
  unfold rdcChk in E5. repeat (apply andb_prop in E5 as [E5 ?]).
  repeat match goal with h : (_ =? _)%nat = true |- _ => apply Nat.eqb_eq in h end.
  destruct outs as [|o0 [|o1 [|]]]; try discriminate. cbn [map nth] in *.
  assert (Elens : map (@length Z) [z; x] = [n; 2 * n]%nat) by (cbn [map]; rewrite Lz, Lx; reflexivity).
  assert (Hfs : forall p, In p (seen 0 [n; 2 * n]%nat facts) -> 0 <= peval e p < B).
  { rewrite <- Elens. apply (seen_words e bp [] [z; x] facts E1 (under_words _ _ Hu) E4). }
  pose proof (sel_bound e _ Hfs iq ltac:(assumption)) as Bq.
  pose proof (Forall_inv E3) as W0. pose proof (Forall_inv (Forall_inv_tail E3)) as W1.
  exists (map (peval e) o0), (map (peval e) o1), (peval e bpp), (peval e (pvalue (sel (seen 0 [n; 2 * n]%nat facts) iq))).
  split; [exact E2|]. split; [exact Eb|]. clear Eb. split.
  { intros ->. apply peqb_eq in E5. subst bpp. apply (peval_bp e bp [] [z; x] (proj2 E1)). }
  split; [exact W0|]. split; [rewrite map_length; congruence|]. split; [exact W1|]. split; [rewrite map_length; congruence|].
  split; [congruence|].
  match goal with h : pz _ _ = true |- _ => apply (pz_ok _ _ e) in h; rename h into Hp end.
  rewrite peval_sub, !peval_add, peval_scale, peval_mul, peval_cst in Hp. unfold pvOf in Hp.
  rewrite (peval_value e o0), (peval_value e (pblock _ _ _)) in Hp.
  pose proof (peval_block e bp [] [z; x] (proj2 E1) _ 1 (eq_sym Elens) ltac:(cbn; lia)) as Eb. cbn [length nth] in Eb. rewrite Eb in Hp. exact Hp.
Qed.

Lemma prod_bound N a b : 0 <= a < N -> 0 <= b < N -> 0 <= a * b < N * N.
Proof. intros. nia. Qed.
(* ---------- Karatsuba multiplication with h low words ---------- *)
Definition mulCert : Type := (list (list nat * list nat * list nat) * list nat * list nat * list nat)%type.
Definition mulChk (lens : list nat) (b c n h : nat) (bpo : poly) (cert : mulCert) (outs : list (list poly)) (bpp : poly) (facts : list poly) : bool :=
  let '(steps, il, ih, im) := cert in
  let fs := seen 1 lens facts in
  let xl := pvalue (firstn h (pblock 1 lens b)) in let xh := pvalue (skipn h (pblock 1 lens b)) in
  let yl := pvalue (firstn h (pblock 1 lens c)) in let yh := pvalue (skipn h (pblock 1 lens c)) in
  let cl := pvalue (sel fs il) in let ch := pvalue (sel fs ih) in let cm := pvalue (sel fs im) in
  peqb bpp bpo && outAt 1 lens 0 outs && (length (nth 0 outs []) =? 2 * n)%nat &&
  (length il =? 2 * h)%nat && (length ih =? 2 * (n - h))%nat && (length im =? 2 * h)%nat &&
  below (length fs) il && below (length fs) ih && below (length fs) im &&
  match prodSteps fs [] steps with
  | None => false
  | Some zs =>
      pz (2 * h) (drop zs (psub cl (pmul xl yl))) && pz (2 * (n - h)) (drop zs (psub ch (pmul xh yh))) &&
      pz (2 * h) (drop zs (psub (padd cm (padd cl ch)) (pmul (padd xl xh) (padd yl yh)))) &&
      pz (2 * n) (drop zs (psub (pvalue (nth 0 outs [])) (padd cl (padd (pscale (B ^ Z.of_nat h) cm) (pscale (B ^ Z.of_nat (2 * h)) ch)))))
  end.
Lemma mul_run N code spec b c n h bpo cert us lens blocks bp fp :
  symOkB N code spec 1 us gl (mulChk lens b c n h bpo cert) = true -> specOk 1 spec ->
  is_w64 bp -> is_w64 fp -> under us blocks -> map (@length Z) blocks = lens -> (b < length blocks)%nat -> (c < length blocks)%nat ->
  length (nth b blocks []) = n -> length (nth c blocks []) = n -> (h <= n)%nat ->
  (let x := nth b blocks [] in let y := nth c blocks [] in
   val (firstn h x) * val (skipn h y) + val (skipn h x) * val (firstn h y) < B ^ Z.of_nat (2 * h)) ->
  exists r e, call N code (map (zarg [fp]) spec) blocks gl bp = Some (setl blocks 0 r, peval e bpo) /\ env_ok e bp [fp] blocks /\
    words r /\ length r = (2 * n)%nat /\ val r = val (nth b blocks []) * val (nth c blocks []).
Proof.
  intros H Hs Hbp Hfp Hu El Lb Lc Lx Ly Hh Hm. cbv zeta in Hm.
  destruct (sym_outB _ _ _ _ _ _ _ H bp [fp] blocks Hbp ltac:(constructor; [exact Hfp|constructor]) Hu Hg eq_refl Hs)
    as (e & outs & bpp & facts & E1 & E2 & E3 & Eb & E4 & E5).
  clear Eb. unfold mulChk in E5. destruct cert as [[[steps il] ih] im]. apply andb_prop in E5 as [E5 E6]. repeat (apply andb_prop in E5 as [E5 ?]).
  repeat match goal with h : (_ =? _)%nat = true |- _ => apply Nat.eqb_eq in h end.
  apply peqb_eq in E5. subst bpp.
  pose proof (outAt_ok e bp [fp] blocks lens 0 outs (proj2 E1) El ltac:(assumption)) as Eo. rewrite Eo in E2.
  exists (map (peval e) (nth 0 outs [])), e. split; [exact E2|]. split; [exact E1|].
  pose proof (outAt_words e outs 0 E3) as Wo. split; [exact Wo|].
  assert (Lo : length (map (peval e) (nth 0 outs [])) = (2 * n)%nat) by (rewrite map_length; assumption). split; [exact Lo|].
  assert (Hfs : forall p, In p (seen 1 lens facts) -> 0 <= peval e p < B).
  { rewrite <- El. apply (seen_words e bp [fp] blocks facts E1 (under_words _ _ Hu) E4). }
  pose proof (sel_bound e _ Hfs il ltac:(assumption)) as Bl. pose proof (sel_bound e _ Hfs ih ltac:(assumption)) as Bh.
  pose proof (sel_bound e _ Hfs im ltac:(assumption)) as Bm.
  repeat match goal with h : length _ = (2 * _)%nat |- _ => try rewrite h in Bl; try rewrite h in Bh; try rewrite h in Bm; revert h end. intros.
  destruct (prodSteps _ [] steps) as [zs|] eqn:Ep; [|discriminate].
  destruct (prodSteps_ok e _ (proj1 E1) Hfs steps [] zs ltac:(intros a []) Ep) as [Hz _].
  repeat (apply andb_prop in E6 as [E6 ?]). 
  repeat match goal with h : pz _ _ = true |- _ => apply (pz_ok _ _ e) in h end.
  repeat match goal with h : (_ | peval e (drop _ _)) |- _ => rewrite (peval_drop e zs _ Hz) in h end.
  repeat match goal with h : (_ | peval e _) |- _ => repeat first [rewrite peval_sub in h | rewrite peval_add in h | rewrite peval_mul in h | rewrite peval_scale in h] end.
  pose proof (fun j => peval_block e bp [fp] blocks (proj2 E1) lens j (eq_sym El)) as Eb. cbn [length] in Eb.
  assert (Fx : forall j, (j < length blocks)%nat -> peval e (pvalue (firstn h (pblock 1 lens j))) = val (firstn h (nth j blocks []))).
  { intros j Hj. rewrite peval_value, <- (Eb j Hj), firstn_map. reflexivity. }
  assert (Sx : forall j, (j < length blocks)%nat -> peval e (pvalue (skipn h (pblock 1 lens j))) = val (skipn h (nth j blocks []))).
  { intros j Hj. rewrite peval_value, <- (Eb j Hj), skipn_map. reflexivity. }
  rewrite !Fx, !Sx in * by assumption. rewrite (peval_value e (nth 0 outs [])) in *.
  pose proof (under_words _ _ Hu) as Hw. rewrite Forall_forall in Hw.
  assert (Wx : words (nth b blocks [])) by (apply Hw, nth_In, Lb). assert (Wy : words (nth c blocks [])) by (apply Hw, nth_In, Lc).
  set (x := nth b blocks []) in *. set (y := nth c blocks []) in *.
  assert (Vx : val x = val (firstn h x) + B ^ Z.of_nat h * val (skipn h x)).
  { rewrite <- (firstn_skipn h x) at 1. rewrite val_app, firstn_length, Nat.min_l by lia. reflexivity. }
  assert (Vy : val y = val (firstn h y) + B ^ Z.of_nat h * val (skipn h y)).
  { rewrite <- (firstn_skipn h y) at 1. rewrite val_app, firstn_length, Nat.min_l by lia. reflexivity. }
  assert (Bxl : 0 <= val (firstn h x) < B ^ Z.of_nat h).
  { pose proof (val_bound _ (Forall_firstn _ _ h x Wx)) as V. rewrite firstn_length, Nat.min_l in V by lia. exact V. }
  assert (Byl : 0 <= val (firstn h y) < B ^ Z.of_nat h).
  { pose proof (val_bound _ (Forall_firstn _ _ h y Wy)) as V. rewrite firstn_length, Nat.min_l in V by lia. exact V. }
  assert (Bxh : 0 <= val (skipn h x) < B ^ Z.of_nat (n - h)).
  { pose proof (val_bound _ (Forall_skipn _ _ h x Wx)) as V. rewrite skipn_length, Lx in V. exact V. }
  assert (Byh : 0 <= val (skipn h y) < B ^ Z.of_nat (n - h)).
  { pose proof (val_bound _ (Forall_skipn _ _ h y Wy)) as V. rewrite skipn_length, Ly in V. exact V. }
  pose proof (val_bound _ Wx) as Bx. pose proof (val_bound _ Wy) as By. rewrite Lx in Bx. rewrite Ly in By.
  pose proof (val_bound _ Wo) as Bo. rewrite Lo in Bo.
  set (o := val (map (peval e) (nth 0 outs []))) in *.
  set (cl := peval e (pvalue (sel (seen 1 lens facts) il))) in *. set (ch := peval e (pvalue (sel (seen 1 lens facts) ih))) in *.
  set (cm := peval e (pvalue (sel (seen 1 lens facts) im))) in *.
  set (xl := val (firstn h x)) in *. set (yl := val (firstn h y)) in *. set (xh := val (skipn h x)) in *. set (yh := val (skipn h y)) in *.
  assert (D2 : forall m, B ^ Z.of_nat (2 * m) = B ^ Z.of_nat m * B ^ Z.of_nat m) by (intro m; rewrite <- Z.pow_add_r by lia; f_equal; lia).
  assert (Ecl : cl = xl * yl).
  { apply (cong_eq (B ^ Z.of_nat (2 * h))); [assumption| |assumption]. rewrite D2. apply prod_bound; assumption. }
  assert (Ech : ch = xh * yh).
  { apply (cong_eq (B ^ Z.of_nat (2 * (n - h)))); [assumption| |assumption]. rewrite D2. apply prod_bound; assumption. }
  assert (Ecm : cm = xl * yh + xh * yl).
  { apply (cong_eq (B ^ Z.of_nat (2 * h))); [assumption| |].
    - split; [|exact Hm]. apply Z.add_nonneg_nonneg; apply Z.mul_nonneg_nonneg; lia.
    - replace (cm - (xl * yh + xh * yl)) with (cm + (cl + ch) - (xl + xh) * (yl + yh)) by (rewrite Ecl, Ech; ring). assumption. }
  apply (cong_eq (B ^ Z.of_nat (2 * n))); [exact Bo| |].
  - rewrite D2. apply prod_bound; assumption.
  - replace (val x * val y) with (cl + (B ^ Z.of_nat h * cm + B ^ Z.of_nat (2 * h) * ch)); [assumption|].
    rewrite Vx, Vy, Ecl, Ech, Ecm, D2. ring.
Qed.
End Runs.
