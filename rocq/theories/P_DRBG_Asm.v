(* C68: the generator does not depend on the cipher that was picked, once it is initialised. *)
From Coq Require Import ZArith List Bool Lia.
From Verif Require Import Lib AES_Spec AES_Model AES_Proofs AES_Proofs2 P_AES DRBG_Spec DRBG_Model DRBG_Proofs P_DRBG.
From Verif Require Import AESNI_Model P_AESNI DRBG_AsmModel.
Import ListNotations.
Open Scope Z_scope.

(* the calls of P_DRBG.v on the other object *)
Definition acall (c : CtrDrbgA) (x : call) : option (CtrDrbgA * obs) :=
  match x with
  | CInit e p => match InitA c e p with Some (c', b) => Some (c', Accepted b) | None => None end
  | CReseed e d => match ReseedA c e d with Some c' => Some (c', Done) | None => None end
  | CRead out ad => match ReadWithAdditionalDataA c out ad with Some (c', o, n) => Some (c', Bytes o n) | None => None end
  end.
Fixpoint acalls (c : CtrDrbgA) (l : list call) : option (CtrDrbgA * list obs) :=
  match l with
  | [] => Some (c, [])
  | x :: l' => match acall c x with
               | None => None
               | Some (c', o) => match acalls c' l' with None => None | Some (c'', os) => Some (c'', o :: os) end
               end
  end.

(* the ciphers encrypt alike *)
Definition same (b : AESAsm) (a : AES) : Prop := forall dst vv, bytes vv -> enc_vA b dst vv = enc_v a dst vv.
(* equal objects but for the cipher *)
Definition A0 (b : AESAsm) (c : CtrDrbg) : CtrDrbgA := mkDrbgA (v c) (key c) (counter c) (strength c) b (tmpBlk c).

Lemma setkey_same b a K : asm_ok b -> key32 K -> exists b', setkeyA b K = Some b' /\ asm_ok b' /\ same b' (fst (SetKey a K)).
Proof.
  intros A [B L]. pose proof (fun dst src => C18_agrees_with_portable_32 b a K dst src A B L) as H.
  destruct (H (mkSlice 0 []) (mkSlice 0 [])) as (b' & E & A' & _); [constructor|]. exists b'. unfold setkeyA. rewrite E. split; [reflexivity|]. split; [exact A'|].
  intros dst vv Bv. destruct (H (mkSlice 1024 dst) (mkSlice 0 vv) Bv) as (b2 & E2 & _ & R & _). assert (b2 = b') by congruence. subst b2.
  unfold enc_vA, enc_v. rewrite R. destruct (Encrypt _ _ _); reflexivity.
Qed.

Lemma update_loop_sim n : forall i c b, asm_ok b -> key32 (key c) -> block_ok (v c) ->
  exists b', update_loopA n i (A0 b c) = option_map (A0 b') (update_loop n i c) /\ asm_ok b' /\
    forall c', update_loop n i c = Some c' -> (n <> 0%nat \/ same b (blockEnc c)) -> same b' (blockEnc c').
Proof.
  induction n as [|n IH]; intros i c b A HK Hv.
  - exists b. split; [reflexivity|]. split; [exact A|]. cbn [update_loop]. intros c' E [N | S]; [congruence|]. inversion E. subst c'. exact S.
  - cbn [update_loop update_loopA]. cbv zeta. destruct (setkey_same b (blockEnc c) (key c) A HK) as (b1 & E & A1 & S1).
    unfold A0 at 1 2 3 4 5 6 7 8 9. cbn [vA keyA blockEncA tmpBlkA counterA strengthA]. rewrite E.
    assert (Bi : block_ok (inc (v c))) by (rewrite inc_ok by exact Hv; apply incV_ok). rewrite (S1 _ _ (proj1 Bi)).
    destruct (enc_v _ _ _) as [d|]; [|exists b1; split; [reflexivity|]; split; [exact A1|discriminate]].
    destruct (IH (i + 16)%nat (mkDrbg (inc (v c)) (key c) (counter c) (strength c) (fst (SetKey (blockEnc c) (key c))) (firstn i (tmpBlk c) ++ d)) b1 A1 HK Bi) as (b2 & E2 & A2 & S2).
    exists b2. split; [exact E2|]. split; [exact A2|]. intros c' Ec _. apply (S2 c' Ec). right. exact S1.
Qed.
Lemma update_sim c s d b : asm_ok b -> DR c s ->
  exists b', updateA (A0 b c) d = option_map (A0 b') (update c d) /\ asm_ok b' /\ forall c', update c d = Some c' -> same b' (blockEnc c').
Proof.
  intros A (E1 & E2 & Hv & HK & _). unfold updateA, update. destruct (negb _); [exists b; split; [reflexivity|]; split; [exact A|discriminate]|].
  rewrite <- E1 in Hv. rewrite <- E2 in HK. destruct (update_loop_sim 3 0 c b A HK Hv) as (b' & E & A' & S). rewrite E. exists b'.
  destruct (update_loop 3 0 c) as [c1|]; cbn [option_map]; [|split; [reflexivity|]; split; [exact A'|discriminate]].
  split; [reflexivity|]. split; [exact A'|]. intros c' H. inversion H. cbn [blockEnc]. apply S; [reflexivity|]. left. discriminate.
Qed.
Lemma gen_loop_sim n : forall i c b out, asm_ok b -> key32 (key c) -> block_ok (v c) ->
  exists b', gen_loopA n i (A0 b c) out = option_map (fun '(c', o) => (A0 b' c', o)) (gen_loop n i c out) /\ asm_ok b' /\
    forall c' o, gen_loop n i c out = Some (c', o) -> block_ok (v c') /\ key c' = key c /\ (same b (blockEnc c) -> same b' (blockEnc c')).
Proof.
  induction n as [|n IH]; intros i c b out A HK Hv.
  - exists b. split; [reflexivity|]. split; [exact A|]. cbn [gen_loop]. intros c' o E. inversion E. subst c'. auto.
  - cbn [gen_loop gen_loopA]. cbv zeta. destruct (setkey_same b (blockEnc c) (key c) A HK) as (b1 & E & A1 & S1).
    unfold A0 at 1 2 3 4 5 6 7. cbn [vA keyA blockEncA tmpBlkA counterA strengthA]. rewrite E.
    assert (Bi : block_ok (inc (v c))) by (rewrite inc_ok by exact Hv; apply incV_ok). rewrite (S1 _ _ (proj1 Bi)).
    destruct (enc_v _ _ _) as [d|]; [|exists b1; split; [reflexivity|]; split; [exact A1|discriminate]].
    destruct (IH (i + 1)%nat (mkDrbg (inc (v c)) (key c) (counter c) (strength c) (fst (SetKey (blockEnc c) (key c))) (tmpBlk c)) b1 (firstn (i * 16) out ++ d) A1 HK Bi) as (b2 & E2 & A2 & S2).
    exists b2. split; [exact E2|]. split; [exact A2|]. intros c' o Ec. destruct (S2 c' o Ec) as (V & Ky & S). split; [exact V|]. split; [exact Ky|]. intros _. apply S, S1.
Qed.
Lemma init_sim c s e p b : asm_ok b -> DR c s -> bytes e -> bytes p ->
  exists b', InitA (A0 b c) e p = option_map (fun '(c', r) => (A0 b' c', r)) (Init c e p) /\ asm_ok b' /\
    forall c' r, Init c e p = Some (c', r) -> r = true \/ same b (blockEnc c) -> same b' (blockEnc c').
Proof.
  intros A D Be Bp. unfold InitA, Init. cbn [A0 strengthA]. destruct (_ <? _).
  - exists b. split; [reflexivity|]. split; [exact A|]. intros c' r E [-> | S]; [discriminate|]. inversion E. subst c'. exact S.
  - cbv zeta. assert (HK : key32 (key c)) by (destruct D as (_ & E2 & _ & HK & _); rewrite E2; exact HK).
    destruct (setkey_same b (blockEnc c) (key c) A HK) as (b1 & E & A1 & _). cbn [A0 blockEncA keyA vA counterA tmpBlkA]. rewrite E.
    set (c1 := mkDrbg (v c) (key c) (counter c) 256 (fst (SetKey (blockEnc c) (key c))) (tmpBlk c)).
    assert (D1 : DR c1 s) by exact D. destruct (update_sim c1 s (seed_buf e p) b1 A1 D1) as (b2 & E2 & A2 & S2).
    change (mkDrbgA (v c) (key c) (counter c) 256 b1 (tmpBlk c)) with (A0 b1 c1). rewrite E2. exists b2.
    destruct (update c1 (seed_buf e p)) as [c2|]; cbn [option_map]; [|split; [reflexivity|]; split; [exact A2|discriminate]].
    split; [reflexivity|]. split; [exact A2|]. intros c' r H _. inversion H. cbn [blockEnc]. apply S2. reflexivity.
Qed.
Lemma reseed_sim c s e d b : asm_ok b -> DR c s ->
  exists b', ReseedA (A0 b c) e d = option_map (A0 b') (Reseed c e d) /\ asm_ok b' /\ forall c', Reseed c e d = Some c' -> same b' (blockEnc c').
Proof.
  intros A D. unfold ReseedA, Reseed. destruct (update_sim c s (seed_buf e d) b A D) as (b' & E & A' & S). rewrite E. exists b'.
  destruct (update c (seed_buf e d)) as [c1|]; cbn [option_map]; [|split; [reflexivity|]; split; [exact A'|discriminate]].
  split; [reflexivity|]. split; [exact A'|]. intros c' H. inversion H. cbn [blockEnc]. apply S. reflexivity.
Qed.
Lemma read_sim c s out ad b : asm_ok b -> DR c s -> same b (blockEnc c) -> bytes ad ->
  exists b', ReadWithAdditionalDataA (A0 b c) out ad = option_map (fun '(c', o, n) => (A0 b' c', o, n)) (ReadWithAdditionalData c out ad) /\ asm_ok b' /\
    forall c' o n, ReadWithAdditionalData c out ad = Some (c', o, n) -> same b' (blockEnc c').
Proof.
  intros A D S Ba. unfold ReadWithAdditionalDataA, ReadWithAdditionalData. cbv zeta.
  set (pa := match ad with [] => Some (A0 b c, repeat 0 48) | _ => _ end). set (pp := match ad with [] => Some (c, repeat 0 48) | _ => _ end).
  assert (P : exists b1, pa = option_map (fun '(c', sb) => (A0 b1 c', sb)) pp /\ asm_ok b1 /\
     forall c' sb, pp = Some (c', sb) -> same b1 (blockEnc c') /\ exists s', DR c' s').
  { unfold pa, pp. destruct ad as [|x ad].
    - exists b. split; [reflexivity|]. split; [exact A|]. intros c' sb H. inversion H. subst c'. eauto.
    - destruct (update_sim c s (blit (repeat 0 48) 0 (x :: ad)) b A D) as (b1 & E & A1 & S1). rewrite E. exists b1.
      destruct (update c _) as [c1|] eqn:Ec; cbn [option_map]; [|split; [reflexivity|]; split; [exact A1|discriminate]].
      split; [reflexivity|]. split; [exact A1|]. intros c' sb H. inversion H. subst c'. split; [apply S1; reflexivity|].
      rewrite copy48 in Ec. destruct (update_ok c s (pad48 (x :: ad)) D (pad48_bytes _ Ba) (pad48_length _)) as (c2 & Ec2 & D2 & _). rewrite Ec in Ec2. inversion Ec2. subst c2. eauto. }
  destruct P as (b1 & E1 & A1 & P). rewrite E1. clearbody pa pp. clear E1 pa. destruct pp as [[c1 sb]|]; cbn [option_map]; [|exists b1; split; [reflexivity|]; split; [exact A1|discriminate]].
  destruct (P c1 sb eq_refl) as (S1 & s1 & D1). clear P. assert (HK : key32 (key c1)) by (destruct D1 as (_ & E2 & _ & HK & _); rewrite E2; exact HK).
  assert (Hv : block_ok (v c1)) by (destruct D1 as (E2 & _ & Hv & _); rewrite E2; exact Hv).
  destruct (gen_loop_sim (length out / 16) 0 c1 b1 out A1 HK Hv) as (b2 & E2 & A2 & S2). rewrite E2.
  destruct (gen_loop _ 0 c1 out) as [[c2 o]|]; cbn [option_map]; [|exists b2; split; [reflexivity|]; split; [exact A2|discriminate]].
  destruct (S2 c2 o eq_refl) as (V2 & K2 & S3). clear S2. specialize (S3 S1). cbn [A0 blockEncA tmpBlkA vA keyA counterA strengthA]. rewrite (S3 _ _ (proj1 V2)).
  destruct (enc_v _ _ _) as [t|] eqn:Et; [|exists b2; split; [reflexivity|]; split; [exact A2|discriminate]].
  set (c3 := mkDrbg (v c2) (key c2) (counter c2) (strength c2) (blockEnc c2) t).
  change (mkDrbgA (v c2) (key c2) (counter c2) (strength c2) b2 t) with (A0 b2 c3).
  assert (U : exists b3, updateA (A0 b2 c3) sb = option_map (A0 b3) (update c3 sb) /\ asm_ok b3 /\ forall c', update c3 sb = Some c' -> same b3 (blockEnc c')).
  { unfold updateA, update. destruct (negb _); [exists b2; split; [reflexivity|]; split; [exact A2|discriminate]|].
    assert (HK3 : key32 (key c3)) by (cbn [c3 key]; rewrite K2; exact HK).
    destruct (update_loop_sim 3 0 c3 b2 A2 HK3 V2) as (b3 & E3 & A3 & S4). rewrite E3. exists b3.
    destruct (update_loop 3 0 c3) as [c4|]; cbn [option_map]; [|split; [reflexivity|]; split; [exact A3|discriminate]].
    split; [reflexivity|]. split; [exact A3|]. intros c' H. inversion H. cbn [blockEnc]. apply S4; [reflexivity|]. left. discriminate. }
  destruct U as (b3 & E3 & A3 & S4). rewrite E3. exists b3. destruct (update c3 sb) as [c4|]; cbn [option_map]; [|split; [reflexivity|]; split; [exact A3|discriminate]].
  split; [reflexivity|]. split; [exact A3|]. intros c' o' n H. inversion H. cbn [blockEnc]. apply S4. reflexivity.
Qed.
Lemma calls_sim l : forall c i b, Inv c i -> asm_ok b -> same b (blockEnc c) -> Forall call_ok l ->
  exists b', acalls (A0 b c) l = option_map (fun '(c', os) => (A0 b' c', os)) (mcalls c l) /\ asm_ok b' /\ forall c' os, mcalls c l = Some (c', os) -> same b' (blockEnc c').
Proof.
  induction l as [|x l IH]; intros c i b HI A S HO.
  - exists b. split; [reflexivity|]. split; [exact A|]. cbn [mcalls]. intros c' os H. inversion H. subst c'. exact S.
  - inversion HO as [|? ? Hx Hl]; subst. cbn [acalls mcalls]. destruct (icall_ok c i x HI Hx) as (c1 & E1 & HI1). destruct (icall i x) as [i1 ob]. cbn [fst snd] in E1, HI1.
    assert (X : exists b1, acall (A0 b c) x = Some (A0 b1 c1, ob) /\ asm_ok b1 /\ same b1 (blockEnc c1)).
    { destruct HI as (D & _). destruct x as [e p|e d|out ad]; cbn [call_ok] in Hx; unfold mcall in E1; unfold acall.
      - destruct (init_sim c (ws i) e p b A D) as (b1 & E & A1 & S1); try tauto. rewrite E. destruct (Init c e p) as [[c2 r]|]; [|discriminate].
        inversion E1. subst c2. exists b1. split; [reflexivity|]. split; [exact A1|]. apply (S1 c1 r); auto.
      - destruct (reseed_sim c (ws i) e d b A D) as (b1 & E & A1 & S1). rewrite E. destruct (Reseed c e d) as [c2|]; [|discriminate].
        inversion E1. subst c2. exists b1. split; [reflexivity|]. split; [exact A1|]. apply (S1 c1); auto.
      - destruct (read_sim c (ws i) out ad b A D S Hx) as (b1 & E & A1 & S1). rewrite E. destruct (ReadWithAdditionalData c out ad) as [[[c2 o] n]|]; [|discriminate].
        inversion E1. subst c2. exists b1. split; [reflexivity|]. split; [exact A1|]. apply (S1 c1 o n); auto. }
    destruct X as (b1 & Ea & A1 & S1). rewrite E1, Ea. destruct (IH c1 _ b1 HI1 A1 S1 Hl) as (b2 & E2 & A2 & S2). rewrite E2. exists b2.
    destruct (mcalls c1 l) as [[c2 os]|]; cbn [option_map]; (split; [reflexivity|]); (split; [exact A2|]); [|discriminate].
    intros c' os' H. inversion H. subst c'. apply (S2 c2 os). reflexivity.
Qed.

(* Any history that starts with a successful Init gives, call by call, the same results with either cipher, and leaves equal objects. *)
Theorem C68_cipher_choice_is_invisible : forall entropy pers l,
  bytes entropy -> bytes pers -> Forall call_ok l ->
  exists c a os, mcalls NewCtrDrbg (CInit entropy pers :: l) = Some (c, os) /\ acalls NewCtrDrbgA (CInit entropy pers :: l) = Some (a, os) /\
    vA a = v c /\ keyA a = key c /\ counterA a = counter c /\ strengthA a = strength c /\ tmpBlkA a = tmpBlk c.
Proof.
  intros e p l Be Bp HO. cbn [mcalls acalls mcall acall].
  destruct (init_ok NewCtrDrbg _ e p new_DR Be Bp) as (c1 & E & D & K & S1). { cbn. lia. }
  assert (A : asm_ok NewAsm) by (split; apply repeat_length). destruct (init_sim NewCtrDrbg _ e p NewAsm A new_DR Be Bp) as (b1 & E1 & A1 & Sm).
  change NewCtrDrbgA with (A0 NewAsm NewCtrDrbg). rewrite E1, E. cbn [option_map].
  assert (HI : Inv c1 (mkI (repeat 0 32) (Instantiate e p))) by (split; auto).
  destruct (icalls_ok l c1 _ HI HO) as [c' E']. destruct (calls_sim l c1 _ b1 HI A1 (Sm c1 true E (or_introl eq_refl)) HO) as (b2 & E2 & _). rewrite E2, E'. cbn [option_map].
  exists c', (A0 b2 c'). eexists. split; [reflexivity|]. split; [reflexivity|]. repeat split.
Qed.
Print Assumptions C68_cipher_choice_is_invisible.

(* Before Init it is visible: the first bytes read from a new object differ. *)
Lemma first_read t t' : enc_v NewCipher (repeat 0 48) (repeat 0 16) = Some t' -> enc_vA NewAsm (repeat 0 48) (repeat 0 16) = Some t ->
  length t = 48%nat -> length t' = 48%nat -> blit (repeat 0 5) 0 (firstn 5 t') <> blit (repeat 0 5) 0 (firstn 5 t) ->
  exists c o n a o' n', ReadWithAdditionalData NewCtrDrbg (repeat 0 5) [] = Some (c, o, n) /\
    ReadWithAdditionalDataA NewCtrDrbgA (repeat 0 5) [] = Some (a, o', n') /\ o <> o'.
Proof.
  intros E' E L L' N. assert (A : asm_ok NewAsm) by (split; apply repeat_length).
  assert (D : forall t, length t = 48%nat -> DR (mkDrbg (repeat 0 16) (repeat 0 32) 0 0 NewCipher t) (mkW (repeat 0 32) (repeat 0 16))).
  { intros t0 L0. destruct new_DR as (_ & _ & H1 & H2 & _). split; [reflexivity|]. split; [reflexivity|]. split; [exact H1|]. split; [exact H2|exact L0]. }
  destruct (update_ok _ _ (repeat 0 48) (D t' L') (zeros_bytes 48) eq_refl) as (c1' & U1 & _). destruct (update_ok _ _ (repeat 0 48) (D t L) (zeros_bytes 48) eq_refl) as (c2' & U2 & _).
  destruct (update_sim _ _ (repeat 0 48) NewAsm A (D t L)) as (b & U3 & _). rewrite U2 in U3. unfold A0 at 1 in U3. cbn [option_map v key counter strength tmpBlk] in U3.
  unfold ReadWithAdditionalData, ReadWithAdditionalDataA. cbv zeta. rewrite repeat_length. change (5 / 16)%nat with 0%nat. cbn [gen_loop gen_loopA].
  unfold NewCtrDrbg, NewCtrDrbgA. cbn [blockEnc tmpBlk v key counter strength blockEncA tmpBlkA vA keyA counterA strengthA].
  rewrite E, E', U1, U3. do 6 eexists. split; [reflexivity|]. split; [reflexivity|exact N].
Qed.
Theorem C68_uninitialised_refuted : exists out c o n a o' n', ReadWithAdditionalData NewCtrDrbg out [] = Some (c, o, n) /\
  ReadWithAdditionalDataA NewCtrDrbgA out [] = Some (a, o', n') /\ o <> o'.
Proof.
  exists (repeat 0 5). apply (first_read (encryptBlockGo (repeat 0 60) (repeat 0 16) ++ repeat 0 32) (encryptBlockGo (repeat 0 28) (repeat 0 16) ++ repeat 0 32)).
  - vm_compute. reflexivity.
  - unfold enc_vA. destruct (C18_always_14_rounds NewAsm _ _ (mkSlice 1024 (repeat 0 48)) (mkSlice 0 (repeat 0 16)) (zero_words _ eq_refl) (zero_words _ eq_refl)) as [R _];
      try (cbn [cont]; rewrite ?repeat_length; lia); [apply zeros_bytes|intros (_ & i & H); cbn [addr] in H; lia|]. rewrite R. cbn [cont].
    change (firstn 16 (repeat 0 16)) with (repeat 0 16).
    rewrite <- (proj1 (encryptBlockGo_ok 14 _ _ (proj2 (proj2 (zero_words _ eq_refl))) ltac:(reflexivity) ltac:(lia) (conj (zeros_bytes 16) eq_refl))). reflexivity.
  - vm_compute. reflexivity.
  - vm_compute. reflexivity.
  - vm_compute. discriminate.
Qed.
Print Assumptions C68_uninitialised_refuted.

Example ex_C68 : bytes [1; 2] /\ Forall call_ok [CRead (repeat 0 37) [1; 2; 3]; CReseed [5] []; CInit (repeat 7 32) [9]; CRead (repeat 0 3) []].
Proof. split; repeat constructor; unfold is_byte; lia. Qed.
(* two bytes, from the portable object *)
Example ex_C68_value : option_map (fun r => snd r) (mcalls NewCtrDrbg [CInit [1; 2] [3]; CRead [0; 0] []]) = Some [Accepted true; Bytes [237; 84] 2].
Proof. vm_compute. reflexivity. Qed.
