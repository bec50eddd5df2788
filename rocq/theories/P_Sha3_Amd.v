(* C82: the hashes of hash/sha3 over the machine code of the permutation.  A program sees FIPS 202 and SP 800-185 on amd64 as well. *)
From Coq Require Import ZArith List Bool Lia.
From Verif Require Import Lib Keccak_Spec Sha3_Iface Sha3_Spec Sha3_Ideal Keccak_Model Sha3_Model Sha3_Client Keccak_Asm Sha3_Amd.
From Verif Require Keccak_Proofs Sha3_Proofs Sha3_Proofs2 P_Keccak_Asm P_SHA3.
Import ListNotations.
Open Scope Z_scope.

(* what every object satisfies: 25 words, bytes in the buffer *)
Definition Good (l : list Z) : Prop := length l = 25%nat /\ Forall is_w64 l.
Definition sane (c : state) : Prop := Good (a c) /\ bytes (data c) /\ is_byte (sfx c).
Definition saneO (o : obj) : Prop := sane (st o) /\ match initBlock o with Some ib => bytes ib | None => True end.

(* ---------- ranges ---------- *)
Lemma upd_all (P : Z -> Prop) l : forall i v, Forall P l -> P v -> Forall P (upd l i v).
Proof. induction l as [|x l IH]; intros i v H Hv; cbn [upd]; [constructor|]. inversion H; subst. destruct i; constructor; auto. Qed.
Lemma firstn_all' (P : Z -> Prop) l n : Forall P l -> Forall P (firstn n l).
Proof. revert n. induction l; intros [|n] H; cbn; auto. inversion H; subst. constructor; auto. Qed.
Lemma skipn_all' (P : Z -> Prop) l n : Forall P l -> Forall P (skipn n l).
Proof. revert n. induction l; intros [|n] H; cbn; auto. inversion H; subst. auto. Qed.
Lemma nth_all (P : Z -> Prop) l i d : Forall P l -> P d -> P (nth i l d).
Proof. intros H Hd. destruct (Nat.lt_ge_cases i (length l)); [apply Forall_forall with (x := nth i l d) in H; [exact H|apply nth_In; lia]|rewrite nth_overflow by lia; exact Hd]. Qed.
Lemma word_w64 buf i : bytes buf -> is_w64 (Sha3_Model.word buf i).
Proof.
  intro H. unfold Sha3_Model.word. pose proof (le_dec_bound _ (bytes_slice buf (8 * i) 8 H)) as B.
  assert (L : (length (slice buf (8 * i) 8) <= 8)%nat) by (unfold slice; rewrite firstn_length; lia).
  unfold is_w64. change (2 ^ 64) with (256 ^ 8). assert (256 ^ Z.of_nat (length (slice buf (8 * i) 8)) <= 256 ^ 8) by (apply Z.pow_le_mono_r; lia). lia.
Qed.
Lemma xor_word_good buf l i : bytes buf -> Good l -> Good (xor_word buf l i).
Proof.
  intros Hb [H1 H2]. unfold xor_word. split; [rewrite upd_length; exact H1|]. apply upd_all; [exact H2|].
  apply lxor_bound; [lia| |apply word_w64; exact Hb]. change (is_w64 (nth i l 0)); apply nth_all; [exact H2|]. split; [lia|reflexivity].
Qed.
Lemma fold_good buf is : forall l, bytes buf -> Good l -> Good (fold_left (xor_word buf) is l).
Proof. induction is as [|i is IH]; intros l Hb H; [exact H|]. cbn [fold_left]. apply IH; [exact Hb|]. apply xor_word_good; assumption. Qed.
Lemma xorIn_good g l buf : bytes buf -> Good l -> Good (xorIn g l buf).
Proof.
  intros Hb H. destruct g; cbn [xorIn]; [apply fold_good; assumption|]. unfold xorInUnaligned. cbv zeta.
  repeat match goal with |- context [if ?c then _ else _] => destruct c end; repeat apply fold_good; assumption.
Qed.
Lemma copyG_bytes l : forall b, bytes b -> bytes (copyOutGeneric l b).
Proof.
  induction l as [|x l IH]; intros b Hb; cbn [copyOutGeneric]; destruct (8 <=? length b)%nat; try exact Hb.
  apply bytes_app; [apply le_enc_bytes|]. apply IH. apply skipn_all'. exact Hb.
Qed.
Lemma lanes_bytes l : bytes (lane_bytes l).
Proof. unfold lane_bytes. induction l; [constructor|]. cbn [map concat]. apply bytes_app; [apply le_enc_bytes|exact IHl]. Qed.
Lemma copyOut_bytes g l b : bytes b -> bytes (copyOut g l b).
Proof.
  intro Hb. destruct g; cbn [copyOut]; [apply copyG_bytes; exact Hb|]. unfold copyOutUnaligned. apply bytes_blit; [exact Hb|]. apply firstn_all'. apply lanes_bytes.
Qed.
Lemma perm_good l : Good l -> Good (keccakF1600 l).
Proof. intro H. exact (proj1 (Sha3_Proofs.perm_ok l H)). Qed.
Lemma zeros_bytes n : bytes (repeat 0 n). Proof. exact (Sha3_Proofs.repeat_bytes n). Qed.

Section Bp.
Variables (g : bool) (bp : Z).
Hypothesis Hbp : is_w64 bp.
Lemma permA_ok l : Good l -> permA bp l = Some (keccakF1600 l).
Proof. intros [H1 H2]. unfold permA. rewrite P_Keccak_Asm.C75_same_build by assumption. reflexivity. Qed.
Lemma write_loopA_ok r : forall f l inp, Good l -> bytes inp -> write_loopA g bp r f l inp = Some (write_loop g r f l inp) /\
  Good (fst (write_loop g r f l inp)) /\ bytes (snd (write_loop g r f l inp)).
Proof.
  induction f as [|f IH]; intros l inp Hl Hi; cbn [write_loopA write_loop]; [auto|]. destruct (r <=? length inp)%nat; [|auto].
  assert (X : Good (xorIn g l (firstn r inp))) by (apply xorIn_good; [apply firstn_all'; exact Hi|exact Hl]).
  rewrite permA_ok by exact X. cbn [ob]. apply IH; [apply perm_good; exact X|apply skipn_all'; exact Hi].
Qed.
Lemma WriteA_ok c inp : sane c -> bytes inp -> WriteA g bp c inp = Some (Write g c inp) /\ sane (fst (Write g c inp)).
Proof.
  intros (H1 & H2 & H3) Hi. unfold WriteA, Write. destruct (isSquezing c); [split; [reflexivity|split; auto]|]. cbv zeta.
  destruct (_ <? rate c)%nat.
  { split; [reflexivity|]. split; [exact H1|split; [|exact H3]]. apply bytes_blit; assumption. }
  set (buf1 := blit (data c) (idx c) (firstn (rate c - idx c) inp)).
  assert (Hb : bytes buf1) by (apply bytes_blit; [exact H2|apply firstn_all'; exact Hi]).
  assert (X : Good (xorIn g (a c) buf1)) by (apply xorIn_good; assumption).
  rewrite permA_ok by exact X. cbn [ob].
  set (in1 := skipn (rate c - idx c) inp). assert (Hn : bytes in1) by (apply skipn_all'; exact Hi).
  destruct (write_loopA_ok (rate c) (length in1) _ in1 (perm_good _ X) Hn) as (E & G & Bn). rewrite E. cbn [ob].
  destruct (write_loop g (rate c) (length in1) (keccakF1600 (xorIn g (a c) buf1)) in1) as [a2 in2]. cbn [fst snd] in *.
  split; [reflexivity|]. split; [exact G|split; [|exact H3]]. apply bytes_blit; assumption.
Qed.
Lemma finalizeA_ok c : sane c -> finalizeA g bp c = Some (finalize_sha3 g c) /\ sane (finalize_sha3 g c).
Proof.
  intros (H1 & H2 & H3). unfold finalizeA, finalize_sha3. cbv zeta.
  set (buf2 := upd _ (idx c) (sfx c)). assert (B2 : bytes buf2).
  { apply upd_all; [|exact H3]. apply bytes_app; [apply firstn_all'; exact H2|]. apply bytes_app; [apply zeros_bytes|apply skipn_all'; exact H2]. }
  set (buf3 := upd buf2 _ _). assert (B3 : bytes buf3).
  { apply upd_all; [exact B2|]. apply (lor_bound _ _ 8); [lia| |split; [lia|reflexivity]]. apply (nth_all is_byte); [exact B2|split; [lia|reflexivity]]. }
  assert (X : Good (xorIn g (a c) (firstn (rate c) buf3))) by (apply xorIn_good; [apply firstn_all'; exact B3|exact H1]).
  rewrite permA_ok by exact X. cbn [ob]. split; [reflexivity|]. split; [apply perm_good; exact X|split; [|exact H3]]. cbn [data].
  apply bytes_blit; [exact B3|]. apply copyOut_bytes. apply firstn_all'. exact B3.
Qed.
Lemma read_loopA_ok r : forall n l out, Good l -> read_loopA g bp r n l out = Some (read_loop g r n l out) /\ Good (fst (fst (read_loop g r n l out))).
Proof.
  induction n as [|n IH]; intros l out Hl; cbn [read_loopA read_loop]; [auto|]. rewrite permA_ok by exact Hl. cbn [ob]. cbv zeta.
  destruct (IH (keccakF1600 l) (skipn r out) (perm_good _ Hl)) as [E G]. rewrite E. cbn [ob].
  destruct (read_loop g r n (keccakF1600 l) (skipn r out)) as [[a2 blks] rest]. auto.
Qed.
Lemma ReadA_ok c0 out : sane c0 -> ReadA g bp c0 out = Some (Read g c0 out) /\ sane (fst (Read g c0 out)).
Proof.
  intros H. unfold ReadA, Read.
  assert (F : (if isSquezing c0 then Some c0 else finalizeA g bp c0) = Some (if isSquezing c0 then c0 else finalize_sha3 g c0) /\
    sane (if isSquezing c0 then c0 else finalize_sha3 g c0)) by (destruct (isSquezing c0); [auto|apply finalizeA_ok; exact H]).
  destruct F as [-> S]. cbn [ob]. cbv zeta. set (c := if isSquezing c0 then c0 else finalize_sha3 g c0) in *. destruct S as (H1 & H2 & H3).
  destruct (length _ =? 0)%nat; [split; [reflexivity|split; auto]|].
  match goal with |- context [read_loopA g bp ?r ?n ?l ?o] => destruct (read_loopA_ok r n l o H1) as [E G]; rewrite E; destruct (read_loop g r n l o) as [[a2 blks] out2] end.
  cbn [fst snd ob] in *. rewrite permA_ok by exact G. cbn [ob]. split; [reflexivity|]. split; [apply perm_good; exact G|split; [apply copyOut_bytes; exact H2|exact H3]].
Qed.
Lemma SumA_ok c isnil inp spare : sane c -> SumA g bp c isnil inp spare = Some (Sum g c isnil inp spare) /\ sane (fst (Sum g c isnil inp spare)).
Proof.
  intro H. unfold SumA, Sum. cbv zeta. match goal with |- context [ReadA g bp c ?o] => destruct (ReadA_ok c o H) as [E S]; rewrite E; destruct (Read g c o) as [c' out] end.
  auto.
Qed.
Lemma new_sane r d s : is_byte s -> sane (new r d s).
Proof. intro H. split; [exact Sha3_Proofs.zeros_Good|split; [apply zeros_bytes|exact H]]. Qed.
Lemma reset_sane c : sane c -> sane (Reset c).
Proof. intros (_ & _ & H). split; [exact Sha3_Proofs.zeros_Good|split; [apply zeros_bytes|exact H]]. Qed.
Lemma ResetObjA_ok o : saneO o -> ResetObjA g bp o = Some (ResetObj g o) /\ saneO (ResetObj g o).
Proof.
  intros [H1 H2]. unfold ResetObjA, ResetObj. destruct (initBlock o) as [ib|].
  - destruct (WriteA_ok (Reset (st o)) ib (reset_sane _ H1) H2) as [E S]. rewrite E. cbn [ob]. destruct (Write g (Reset (st o)) ib) as [c e]. split; [reflexivity|split; [exact S|exact H2]].
  - split; [reflexivity|split; [apply reset_sane; exact H1|exact I]].
Qed.
Lemma newCShakeA_ok N S s r : is_byte s -> bytes (initBlock_of N S r) -> newCShakeA g bp N S s r = Some (newCShake g N S s r) /\ saneO (newCShake g N S s r).
Proof.
  intros Hs Hb. unfold newCShakeA, newCShake. cbv zeta. destruct (WriteA_ok (new r 0 s) _ (new_sane r 0 s Hs) Hb) as [E X]. rewrite E. cbn [ob].
  destruct (Write g (new r 0 s) (initBlock_of N S r)) as [c e]. split; [reflexivity|split; [exact X|exact Hb]].
Qed.
Lemma block_bytes N S r : bytes N -> bytes S -> small N -> small S -> (0 < r <= 168)%nat -> bytes (initBlock_of N S r).
Proof. intros. rewrite Sha3_Proofs2.initBlock_ok by assumption. apply Sha3_Proofs2.cshake_block_bytes; assumption. Qed.
Lemma plain_sane r d s : is_byte s -> saneO (mkObj (new r d s) None).
Proof. intro H. split; [apply new_sane; exact H|exact I]. Qed.

Lemma set_sane os : forall h o, Forall saneO os -> saneO o -> Forall saneO (set_obj os h o).
Proof. induction os as [|x os IH]; intros h o H Ho; [constructor|]. inversion H; subst. destruct h; cbn [set_obj]; constructor; auto. Qed.
Lemma stepA_ok os p : Forall saneO os -> op_ok p -> stepA g bp os p = Some (step g os p) /\ Forall saneO (fst (step g os p)).
Proof.
  intros H Hp. destruct p as [h b|h out|h isnil inp spare|h|h]; cbn [stepA step op_ok] in *; destruct (nth_error os h) as [o|] eqn:E; try (split; [reflexivity|exact H]);
    assert (S : saneO o) by (apply nth_error_In in E; rewrite Forall_forall in H; exact (H o E)); destruct S as [S1 S2].
  - destruct (WriteA_ok (st o) b S1 Hp) as [-> S]. cbn [ob]. destruct (Write g (st o) b) as [s' [n e]]. split; [reflexivity|]. apply set_sane; [exact H|split; assumption].
  - destruct (ReadA_ok (st o) out S1) as [-> S]. cbn [ob]. destruct (Read g (st o) out) as [s' b]. split; [reflexivity|]. apply set_sane; [exact H|split; assumption].
  - destruct (SumA_ok (st o) isnil inp spare S1) as [-> S]. cbn [ob]. destruct (Sum g (st o) isnil inp spare) as [s' b]. split; [reflexivity|]. apply set_sane; [exact H|split; assumption].
  - destruct (ResetObjA_ok o (conj S1 S2)) as [-> S]. cbn [ob]. split; [reflexivity|]. apply set_sane; assumption.
  - split; [reflexivity|]. cbn [fst]. apply Forall_app. split; [exact H|]. constructor; [split; assumption|constructor].
Qed.
End Bp.
Lemma creates_sane g o i : creates g o i -> saneO o.
Proof.
  assert (B : is_byte 6 /\ is_byte 31 /\ is_byte 4) by (unfold is_byte; lia). destruct B as (B1 & B2 & B3). assert (Z0 : is_w64 0) by (unfold is_w64; lia).
  intros [ | | | | | |N S BN BS SN SS|N S BN BS SN SS]; try (apply plain_sane; assumption).
  - unfold NewCShake128. destruct (_ && _); [apply plain_sane; assumption|]. apply (newCShakeA_ok g 0 Z0); [exact B3|apply block_bytes; auto; lia].
  - unfold NewCShake256. destruct (_ && _); [apply plain_sane; assumption|]. apply (newCShakeA_ok g 0 Z0); [exact B3|apply block_bytes; auto; lia].
Qed.
Lemma runA_ok g : forall ops os, Forall saneO os -> Forall (fun '(bp, p) => is_w64 bp /\ op_ok p) ops -> runA g os ops = Some (run g os (map snd ops)).
Proof.
  induction ops as [|[bp p] t IH]; intros os H Ho; [reflexivity|]. inversion Ho as [|x l Hx Ht]; subst. destruct Hx as [Hb Hp]. cbn [runA run map snd].
  destruct (stepA_ok g bp Hb os p H Hp) as [-> S]. cbn [ob]. destruct (step g os p) as [os' r]. rewrite IH by assumption. reflexivity.
Qed.

(* ---------- the theorems ---------- *)
(* the constructors that already hash *)
Theorem C82_new : forall g bp N S, is_w64 bp -> bytes N -> bytes S -> small N -> small S ->
  NewCShake128A g bp N S = Some (NewCShake128 g N S) /\ NewCShake256A g bp N S = Some (NewCShake256 g N S).
Proof.
  intros g bp N S Hb BN BS SN SS. assert (B3 : is_byte 4) by (unfold is_byte; lia). unfold NewCShake128A, NewCShake128, NewCShake256A, NewCShake256.
  destruct (_ && _); [auto|]. split; apply (newCShakeA_ok g bp Hb); try exact B3; apply block_bytes; auto; lia.
Qed.
Print Assumptions C82_new.

(* any program on any objects, with anything in BP at each call: no call gets stuck, and the results are those of the ideal
   objects, which absorb a message and give the output of the sponge function of FIPS 202 *)
Theorem C82_history : forall g os is ops, Forall2 (creates g) os is -> Forall (fun '(bp, p) => is_w64 bp /\ op_ok p) ops ->
  runA g os ops = Some (irun is (map snd ops)).
Proof.
  intros g os is ops H Ho. rewrite runA_ok; [|clear -H; induction H; constructor; auto; eapply creates_sane; eassumption|exact Ho].
  f_equal. apply Sha3_Proofs2.history_ok; [exact H|]. clear -Ho. induction Ho as [|[bp p] l Hx _ IH]; cbn [map snd]; constructor; [apply Hx|exact IH].
Qed.
Print Assumptions C82_history.

(* and they are those of the portable build, whichever xor implementation either uses *)
Theorem C82_same_build : forall g os is ops, Forall2 (creates g) os is -> Forall (fun '(bp, p) => is_w64 bp /\ op_ok p) ops ->
  runA g os ops = Some (run g os (map snd ops)).
Proof. intros g os is ops H Ho. apply runA_ok; [clear -H; induction H; constructor; auto; eapply creates_sane; eassumption|exact Ho]. Qed.
Print Assumptions C82_same_build.

(* one-shot SHAKE *)
Theorem C82_shakesum : forall g bp hash data, is_w64 bp -> bytes data ->
  ShakeSum128A g bp hash data = Some (shake128 data (length hash)) /\ ShakeSum256A g bp hash data = Some (shake256 data (length hash)).
Proof.
  intros g bp hash data Hb Hd. destruct (P_SHA3.C06_shakesum g hash data Hd) as [<- <-]. assert (B2 : is_byte 31) by (unfold is_byte; lia).
  unfold ShakeSum128A, ShakeSum256A, ShakeSum128, ShakeSum256, NewShake128, NewShake256. split.
  - destruct (WriteA_ok g bp Hb (new 168 0 0x1f) data (new_sane 168 0 0x1f B2) Hd) as [-> S]. cbn [ob]. destruct (Write g (new 168 0 0x1f) data) as [c e]. cbn [fst] in *.
    destruct (ReadA_ok g bp Hb c hash S) as [-> _]. cbn [ob]. destruct (Read g c hash). reflexivity.
  - destruct (WriteA_ok g bp Hb (new 136 0 0x1f) data (new_sane 136 0 0x1f B2) Hd) as [-> S]. cbn [ob]. destruct (Write g (new 136 0 0x1f) data) as [c e]. cbn [fst] in *.
    destruct (ReadA_ok g bp Hb c hash S) as [-> _]. cbn [ob]. destruct (Read g c hash). reflexivity.
Qed.
Print Assumptions C82_shakesum.

(* a program on a SHA3-256 and a cSHAKE128 object with different contents of BP *)
Example ex_C82 : let N := [1; 2] in let S := [3] in exists o c, Forall2 (creates false) [o; c] [fresh 136 32 suffix_sha3 []; fresh 168 0 suffix_cshake (cshake_block 168 N S)] /\
  let ops := [(5, OWrite 0 [97; 98]); (2 ^ 64 - 1, OWrite 1 [7]); (0, OWrite 0 [99]); (9, OClone 0); (1, OSum 2 true [] []); (3, ORead 1 (repeat 0 200)); (4, OReset 1)] in
  Forall (fun '(bp, p) => is_w64 bp /\ op_ok p) ops /\ exists x y, runA false [o; c] ops = Some [RWrite 2 None; RWrite 1 None; RWrite 1 None; RUnit; RBytes x; RBytes y; RUnit] /\
  x = sha3_256 [97; 98; 99] /\ y = sponge 168 (bits_of_bytes (cshake_block 168 N S ++ [7]) ++ suffix_cshake) 200.
Proof.
  cbv zeta. exists (mkObj New256 None), (NewCShake128 false [1; 2] [3]).
  assert (F : Forall2 (creates false) [mkObj New256 None; NewCShake128 false [1; 2] [3]] [fresh 136 32 suffix_sha3 []; fresh 168 0 suffix_cshake (cshake_block 168 [1; 2] [3])]).
  { constructor; [constructor|]. constructor; [|constructor]. apply (crC128 false [1; 2] [3]); try (repeat constructor; unfold is_byte; lia); unfold small; cbn; lia. }
  split; [exact F|]. set (ops := [(5, OWrite 0 [97; 98]); (2 ^ 64 - 1, OWrite 1 [7]); (0, OWrite 0 [99]); (9, OClone 0); (1, OSum 2 true [] []); (3, ORead 1 (repeat 0 200)); (4, OReset 1)]).
  assert (O : Forall (fun '(bp, p) => is_w64 bp /\ op_ok p) ops).
  { unfold ops, is_w64. repeat (apply Forall_cons || apply Forall_nil); (split; [lia|]); cbn; auto; repeat constructor; unfold is_byte; lia. }
  split; [exact O|]. eexists. eexists. split; [rewrite (C82_history false _ _ ops F O); reflexivity|]. split; reflexivity.
Qed.
