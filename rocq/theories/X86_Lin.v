(* Reading facts off a computed symbolic run: congruences of polynomials, and the form of a result. *)
From Coq Require Import ZArith List Lia Bool.
From Verif Require Import Lib MP X86 X86_Sym X86_Call.
Import ListNotations.
Open Scope Z_scope.

Definition coefsDiv (N : Z) (p : poly) : bool := forallb (fun t => snd t mod N =? 0) p.
Lemma coefsDiv_ok N p e : 0 < N -> coefsDiv N p = true -> peval e p mod N = 0.
Proof.
  intros HN. induction p as [|[m c] p IH]; cbn [coefsDiv forallb snd peval]; intro H; [apply Z.mod_0_l; lia|].
  apply andb_prop in H as [H1 H2]. apply Z.eqb_eq in H1. specialize (IH H2).
  apply Z.mod_divide in H1; [|lia]. apply Z.mod_divide in IH; [|lia]. apply Z.mod_divide; [lia|].
  apply Z.divide_add_r; [|exact IH]. apply Z.divide_mul_l, H1.
Qed.
Definition psub (p q : poly) : poly := padd p (pscale (-1) q).
Lemma peval_sub e p q : peval e (psub p q) = peval e p - peval e q.
Proof. unfold psub. rewrite peval_add, peval_scale. ring. Qed.
Definition pcong (N : Z) (p q : poly) : bool := coefsDiv N (psub p q).
Lemma pcong_ok N p q e : 0 < N -> pcong N p q = true -> peval e p mod N = peval e q mod N.
Proof.
  intros HN H. apply (coefsDiv_ok N _ e HN) in H. rewrite peval_sub in H.
  replace (peval e p) with (peval e q + (peval e p - peval e q)) by ring.
  rewrite Z.add_mod, H, Z.add_0_r, Z.mod_mod by lia. reflexivity.
Qed.
Lemma pcong_eq N p q e : 0 < N -> pcong N p q = true -> 0 <= peval e p < N -> 0 <= peval e q < N -> peval e p = peval e q.
Proof. intros HN H Hp Hq. apply (pcong_ok N p q e HN) in H. rewrite !Z.mod_small in H by assumption. exact H. Qed.
Definition peq (p q : poly) : bool := match psub p q with [] => true | _ => false end.
Lemma peq_ok p q e : peq p q = true -> peval e p = peval e q.
Proof. unfold peq. destruct (psub p q) eqn:E; [|discriminate]. intros _. pose proof (peval_sub e p q) as H. rewrite E in H. cbn [peval] in H. lia. Qed.

Fixpoint peqbs (l m : list poly) : bool :=
  match l, m with [], [] => true | p :: l', q :: m' => peqb p q && peqbs l' m' | _, _ => false end.
Lemma peqbs_eq l : forall m, peqbs l m = true -> l = m.
Proof. induction l as [|p l IH]; intros [|q m]; simpl; try discriminate; try reflexivity. intro H. apply andb_prop in H as [H1 H2]. apply peqb_eq in H1. f_equal; auto. Qed.
Fixpoint peqbss (l m : list (list poly)) : bool :=
  match l, m with [], [] => true | p :: l', q :: m' => peqbs p q && peqbss l' m' | _, _ => false end.
Lemma peqbss_eq l : forall m, peqbss l m = true -> l = m.
Proof. induction l as [|p l IH]; intros [|q m]; simpl; try discriminate; try reflexivity. intro H. apply andb_prop in H as [H1 H2]. apply peqbs_eq in H1. f_equal; auto. Qed.

(* the symbolic words of array number j (from 0) when all word arguments and arrays have been numbered *)
Definition boff (naw : nat) (lens : list nat) (j : nat) : nat := (S naw + fold_right Nat.add 0%nat (firstn j lens))%nat.
Definition pblock (naw : nat) (lens : list nat) (j : nat) : list poly := pin (boff naw lens j) (nth j lens 0%nat).
Definition parg (i : nat) : poly := wordA (tn (S i)).
Lemma firstn_app_exact {X} (a b : list X) : firstn (length a) (a ++ b) = a.
Proof. rewrite firstn_app, Nat.sub_diag, firstn_O, app_nil_r. apply firstn_all. Qed.
Lemma block_words blocks : forall j, (j < length blocks)%nat ->
  firstn (length (nth j blocks [])) (skipn (fold_right Nat.add 0%nat (firstn j (map (@length Z) blocks))) (concat blocks)) = nth j blocks [].
Proof.
  induction blocks as [|b bs IH]; intros j Hj; cbn in Hj; [lia|]. destruct j as [|j].
  - cbn [nth firstn fold_right skipn concat]. apply firstn_app_exact.
  - cbn [nth map firstn fold_right concat]. rewrite skipn_app, skipn_all2 by lia. cbn [app].
    replace (length b + fold_right Nat.add 0 (firstn j (map (@length Z) bs)) - length b)%nat
      with (fold_right Nat.add 0%nat (firstn j (map (@length Z) bs))) by lia.
    apply IH. lia.
Qed.
Lemma block_fits (blocks : list (list Z)) : forall j, (j < length blocks)%nat ->
  (fold_right Nat.add 0 (firstn j (map (@length Z) blocks)) + length (nth j blocks []) <= length (concat blocks))%nat.
Proof.
  induction blocks as [|b bs IH]; intros j Hj; cbn in Hj; [lia|]. cbn [concat]. rewrite app_length. destruct j as [|j]; cbn [nth map firstn fold_right]; [lia|].
  specialize (IH j ltac:(lia)). lia.
Qed.
Section Inputs.
Variables (e : positive -> Z) (bp : Z) (aw : list Z) (blocks : list (list Z)).
Hypothesis He : forall i, (i < length (inputs bp aw blocks))%nat -> e (xI (tn i)) = nth i (inputs bp aw blocks) 0.
Lemma peval_block lens j : lens = map (@length Z) blocks -> (j < length blocks)%nat -> map (peval e) (pblock (length aw) lens j) = nth j blocks [].
Proof.
  intros -> Hj. unfold pblock, boff.
  assert (El : nth j (map (@length Z) blocks) 0%nat = length (nth j blocks [])) by (change 0%nat with (@length Z []); apply map_nth).
  rewrite El. rewrite (peval_pin e (inputs bp aw blocks) _ _ He).
  - unfold inputs. cbn [Nat.add]. change (skipn (S ?n) (bp :: ?l)) with (skipn n l).
    rewrite skipn_app, skipn_all2 by lia. cbn [app]. pose proof (block_words blocks j Hj) as Hb.
    set (k := fold_right Nat.add 0%nat (firstn j (map (@length Z) blocks))) in *.
    replace (length aw + k - length aw)%nat with k by lia. exact Hb.
  - unfold inputs. cbn [length]. rewrite app_length. pose proof (block_fits blocks j Hj). lia.
Qed.
Lemma peval_arg i : (i < length aw)%nat -> peval e (parg i) = nth i aw 0.
Proof.
  intro Hi. unfold parg. rewrite peval_word, He.
  - unfold inputs. cbn [nth]. apply app_nth1, Hi.
  - unfold inputs. cbn [length]. rewrite app_length. lia.
Qed.
Lemma peval_bp : peval e (wordA (tn 0)) = bp.
Proof. rewrite peval_word, He; [reflexivity|]. unfold inputs. cbn. lia. Qed.
End Inputs.
Lemma setl_len {X} (l : list X) i x : (i < length l)%nat -> length (setl l i x) = length l.
Proof. intro. unfold setl. rewrite app_length, firstn_length. cbn [length]. rewrite skipn_length. lia. Qed.

(* a call whose symbolic run satisfies a check that keeps BP *)
Definition symOk (n : nat) (code : list instr) (spec : list argS) (naw : nat) (lens : list nat) (globs : list (list Z))
    (chk : list (list poly) -> list poly -> bool) : bool :=
  match symCall n code spec naw lens globs with
  | Some (outs, bpp, facts) => peqb bpp (wordA (tn 0)) && chk outs facts
  | None => false
  end.
Lemma sym_out n code spec naw lens globs chk : symOk n code spec naw lens globs chk = true ->
  forall bp aw blocks, is_w64 bp -> words aw -> Forall words blocks -> Forall words globs -> length aw = naw -> specOk naw spec -> map (@length Z) blocks = lens ->
  exists e outs facts, bits e /\ (forall i, (i < length (inputs bp aw blocks))%nat -> e (xI (tn i)) = nth i (inputs bp aw blocks) 0) /\
    call n code (map (zarg aw) spec) blocks globs bp = Some (map (map (peval e)) outs, bp) /\
    Forall words (map (map (peval e)) outs) /\ (forall p, In p facts -> 0 <= peval e p < B) /\ chk outs facts = true.
Proof.
  unfold symOk. intros H bp aw blocks Hbp Haw Hb Hg El Hs Eb. subst naw lens.
  destruct (symCall n code spec _ _ globs) as [[[outs bpp] facts]|] eqn:E; [|discriminate]. apply andb_prop in H as [H1 H2].
  assert (Hw : words (inputs bp aw blocks)).
  { unfold inputs. constructor; [exact Hbp|]. apply Forall_app. split; [exact Haw|]. clear - Hb. induction Hb; cbn [concat]; [constructor|]. apply Forall_app. auto. }
  destruct (call_sym n code spec aw blocks globs bp outs bpp facts Hw Hg Hs E) as (e & E1 & E2 & E3 & E4 & E5).
  exists e, outs, facts. rewrite E3. apply peqb_eq in H1. subst bpp. rewrite (peval_bp e bp aw blocks E2). auto 10.
Qed.
Lemma map_setl {X Y} (g : X -> Y) l i x : map g (setl l i x) = setl (map g l) i (g x).
Proof. unfold setl. rewrite map_app. cbn [map]. rewrite firstn_map, skipn_map. reflexivity. Qed.
(* only array a changes *)
Definition outAt (naw : nat) (lens : list nat) (a : nat) (outs : list (list poly)) : bool :=
  (a <? length lens)%nat && peqbss outs (setl (map (pblock naw lens) (seq 0 (length lens))) a (nth a outs [])).
Lemma outAt_ok e bp aw blocks lens a outs :
  (forall i, (i < length (inputs bp aw blocks))%nat -> e (xI (tn i)) = nth i (inputs bp aw blocks) 0) ->
  map (@length Z) blocks = lens -> outAt (length aw) lens a outs = true ->
  map (map (peval e)) outs = setl blocks a (map (peval e) (nth a outs [])).
Proof.
  intros He El H. apply andb_prop in H as [Ha H]. apply peqbss_eq in H. rewrite H at 1.
  rewrite map_setl.
  assert (Eb : map (map (peval e)) (map (pblock (length aw) lens) (seq 0 (length lens))) = blocks).
  { rewrite map_map. apply nth_ext with (d := []) (d' := []).
    - rewrite map_length, seq_length, <- El, map_length. reflexivity.
    - rewrite map_length, seq_length. intros k Hk. rewrite nth_indep with (d' := map (peval e) (pblock (length aw) lens 0)) by (rewrite map_length, seq_length; exact Hk).
      rewrite (map_nth (fun x => map (peval e) (pblock (length aw) lens x))). rewrite seq_nth by exact Hk. cbn [Nat.add].
      apply (peval_block e bp aw blocks He); [symmetry; exact El|]. rewrite <- El, map_length in Hk. exact Hk. }
  rewrite Eb. reflexivity.
Qed.
Lemma outAt_words e outs a : Forall words (map (map (peval e)) outs) -> words (map (peval e) (nth a outs [])).
Proof.
  intro H. destruct (Nat.lt_ge_cases a (length outs)) as [L|L].
  - rewrite Forall_forall in H. apply H. apply in_map, nth_In, L.
  - rewrite nth_overflow by exact L. constructor.
Qed.
