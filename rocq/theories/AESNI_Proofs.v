(* The AES-NI routines against FIPS-197. *)
From Coq Require Import ZArith List Bool Lia.
From Verif Require Import Lib AES_Spec AES_Model AES_Proofs AES_Proofs2 AESNI AESNI_Code AESNI_Model.
Import ListNotations.
Open Scope Z_scope.

Lemma run_add code args n : forall m s, run code args (n + m) s = match run code args n s with Running s' => run code args m s' | o => o end.
Proof.
  induction n as [|n IH]; intros m s; [reflexivity|]. cbn [run Nat.add]. destruct (nth_error code (pc s)) as [i|]; [|reflexivity].
  destruct (exec args i s); auto.
Qed.

(* ---------- lists ---------- *)
Lemma blit_grow c r v : (length v <= length r)%nat -> blit (c ++ r) (length c) v = (c ++ v) ++ skipn (length v) r.
Proof.
  intro L. unfold blit. rewrite firstn_app, Nat.sub_diag, firstn_O, firstn_all, app_nil_r, app_length, <- app_assoc. f_equal. f_equal.
  - apply firstn_all2. lia.
  - rewrite skipn_app, skipn_all2 by lia. cbn [app]. f_equal. lia.
Qed.
Lemma blit_at c r v k : length c = k -> (length v <= length r)%nat -> blit (c ++ r) k v = (c ++ v) ++ skipn (length v) r.
Proof. intros <-. apply blit_grow. Qed.
Lemma concat4 (w : list (list Z)) : Forall (fun c => length c = 4%nat) w -> length (concat w) = (4 * length w)%nat.
Proof. induction 1 as [|c w Hc _ IH]; [reflexivity|]. cbn [concat length]. rewrite app_length, IH, Hc. lia. Qed.
Lemma skipn_concat (w : list (list Z)) : Forall (fun c => length c = 4%nat) w -> forall k, skipn (4 * k) (concat w) = concat (skipn k w).
Proof.
  induction 1 as [|c w Hc _ IH]; intros [|k]; try reflexivity.
  cbn [concat skipn]. rewrite <- IH. replace (4 * S k)%nat with (length c + 4 * k)%nat by lia.
  rewrite skipn_app, skipn_all2 by lia. cbn [app]. f_equal. lia.
Qed.
Lemma firstn_concat (w : list (list Z)) : Forall (fun c => length c = 4%nat) w -> forall k, firstn (4 * k) (concat w) = concat (firstn k w).
Proof.
  induction 1 as [|c w Hc _ IH]; intros [|k]; try reflexivity.
  cbn [concat firstn]. rewrite <- IH. replace (4 * S k)%nat with (length c + 4 * k)%nat by lia.
  rewrite firstn_app, firstn_all2 by lia. f_equal. f_equal. lia.
Qed.
Lemma wok4 w : wok w -> Forall (fun c => length c = 4%nat) w.
Proof. apply Forall_impl. intros a H. apply H. Qed.
Lemma slice_app_l a b k n : (k + n <= length a)%nat -> slice (a ++ b) k n = slice a k n.
Proof. intro L. unfold slice. rewrite skipn_app, firstn_app, skipn_length. replace (n - (length a - k))%nat with 0%nat by lia. rewrite firstn_O, app_nil_r. reflexivity. Qed.
(* a round key is 16 consecutive bytes of the schedule *)
Lemma slice_round_key w r : wok w -> slice (concat w) (16 * r) 16 = round_key w r.
Proof.
  intro Hw. apply wok4 in Hw. unfold slice, round_key. replace (16 * r)%nat with (4 * (4 * r))%nat by lia.
  rewrite skipn_concat by exact Hw. apply (firstn_concat _ (Forall_skipn _ _ _ _ Hw) 4).
Qed.

(* ---------- the two block routines ---------- *)
Lemma sub_shift s : length s = 16%nat -> SubBytes (ShiftRows s) = ShiftRows (SubBytes s).
Proof. intro L. destruct (list16 s L) as (a0 & a1 & a2 & a3 & b0 & b1 & b2 & b3 & c0 & c1 & c2 & c3 & d0 & d1 & d2 & d3 & ->). reflexivity. Qed.

Definition rk (X : list Z) (r : nat) : list Z := slice X (16 * r) 16.
Definition encChain (X s : list Z) : list Z :=
  aesenclast (rk X 14) (fold_left (fun s r => aesenc (rk X r) s) (seq 1 13) (xor_list s (rk X 0))).
Definition decChain (X s : list Z) : list Z :=
  aesdeclast (rk X 14) (fold_left (fun s r => aesdec (rk X r) s) (seq 1 13) (xor_list s (rk X 0))).

Definition memOf (o : outcome) : option (list arr) := match o with Halted s => Some (mem s) | _ => None end.
Lemma enc_run X d s :
  memOf (run encryptBlockAsm [Num nrAsm; Ptr 0 0; Ptr 1 0; Ptr 2 0] fuel (entry [(240%nat, X); (16%nat, d); (16%nat, s)])) =
    Some [(240%nat, X); (16%nat, blit d 0 (encChain X (slice s 0 16))); (16%nat, s)] /\
  memOf (run encryptBlockAsm [Num nrAsm; Ptr 0 0; Ptr 1 0; Ptr 1 0] fuel (entry [(240%nat, X); (16%nat, s)])) =
    Some [(240%nat, X); (16%nat, blit s 0 (encChain X (slice s 0 16)))].
Proof. split; unfold fuel; lazy -[slice blit aesenc aesenclast xor_list]; reflexivity. Qed.
Lemma dec_run X d s :
  memOf (run decryptBlockAsm [Num nrAsm; Ptr 0 0; Ptr 1 0; Ptr 2 0] fuel (entry [(240%nat, X); (16%nat, d); (16%nat, s)])) =
    Some [(240%nat, X); (16%nat, blit d 0 (decChain X (slice s 0 16))); (16%nat, s)] /\
  memOf (run decryptBlockAsm [Num nrAsm; Ptr 0 0; Ptr 1 0; Ptr 1 0] fuel (entry [(240%nat, X); (16%nat, s)])) =
    Some [(240%nat, X); (16%nat, blit s 0 (decChain X (slice s 0 16)))].
Proof. split; unfold fuel; lazy -[slice blit aesdec aesdeclast xor_list]; reflexivity. Qed.

Lemma enc_fold w l : wok w -> (forall r, In r l -> (4 * r + 4 <= length w)%nat) -> forall s, block_ok s ->
  fold_left (fun s r => aesenc (rk (concat w) r) s) l s = fold_left (eround w) l s /\ block_ok (fold_left (eround w) l s).
Proof.
  intro Hw. induction l as [|r l IH]; intros Hl s Hs; [split; [reflexivity|exact Hs]|]. cbn [fold_left].
  assert (E : aesenc (rk (concat w) r) s = eround w s r).
  { unfold aesenc, eround, AddRoundKey, rk. rewrite sub_shift by apply Hs. rewrite slice_round_key by exact Hw. reflexivity. }
  rewrite E. apply IH; [intros q Hq; apply Hl; right; exact Hq|]. apply eround_ok; auto. apply Hl. left. reflexivity.
Qed.
Lemma encChain_ok w s : wok w -> length w = 60%nat -> block_ok s -> encChain (concat w) s = Cipher 14 w s.
Proof.
  intros Hw L Hs. unfold encChain, Cipher.
  change (fun s r => AddRoundKey w r (MixColumns (ShiftRows (SubBytes s)))) with (eround w). cbv zeta.
  assert (E0 : xor_list s (rk (concat w) 0) = AddRoundKey w 0 s) by (unfold rk, AddRoundKey; rewrite slice_round_key by exact Hw; reflexivity).
  rewrite E0. destruct (enc_fold w (seq 1 13) Hw ltac:(intros r Hr; apply in_seq in Hr; lia) (AddRoundKey w 0 s) ltac:(apply AddRoundKey_ok; auto; lia)) as [E B].
  rewrite E. change (14 - 1)%nat with 13%nat. unfold aesenclast, AddRoundKey at 1, rk. rewrite sub_shift by apply B. rewrite slice_round_key by exact Hw. reflexivity.
Qed.

Lemma dec_fold w l : wok w -> length w = 60%nat -> (forall r, In r l -> (1 <= r <= 13)%nat) -> forall s, block_ok s ->
  fold_left (fun s r => aesdec (rk (concat (dec_sched w)) r) s) l s = fold_left (iround w) (map (fun r => 14 - r)%nat l) s /\
  block_ok (fold_left (iround w) (map (fun r => 14 - r)%nat l) s).
Proof.
  intros Hw L. assert (Hd : wok (dec_sched w)) by (apply (dec_sched_wok 14); auto).
  induction l as [|r l IH]; intros Hl s Hs; [split; [reflexivity|exact Hs]|]. cbn [fold_left map].
  assert (Hr : (1 <= r <= 13)%nat) by (apply Hl; left; reflexivity).
  assert (E : aesdec (rk (concat (dec_sched w)) r) s = iround w s (14 - r)).
  { unfold aesdec, rk. rewrite slice_round_key by exact Hd. rewrite (dec_sched_round 14) by (auto; lia).
    replace ((0 <? r) && (r <? 14))%nat with true by (symmetry; apply andb_true_iff; split; apply Nat.ltb_lt; lia).
    fold (V s). rewrite <- inv_mix_xor by (try (apply V_ok; auto); apply round_key_ok; auto; lia). reflexivity. }
  rewrite E. apply IH; [intros q Hq; apply Hl; right; exact Hq|]. apply iround_ok; auto. lia.
Qed.
Lemma decChain_ok w s : wok w -> length w = 60%nat -> block_ok s -> decChain (concat (dec_sched w)) s = InvCipher 14 w s.
Proof.
  intros Hw L Hs. unfold decChain, InvCipher. assert (Hd : wok (dec_sched w)) by (apply (dec_sched_wok 14); auto).
  change (fun s r => InvMixColumns (AddRoundKey w r (InvSubBytes (InvShiftRows s)))) with (iround w). cbv zeta.
  assert (E0 : xor_list s (rk (concat (dec_sched w)) 0) = AddRoundKey w 14 s).
  { unfold rk, AddRoundKey. rewrite slice_round_key by exact Hd. rewrite (dec_sched_round 14) by (auto; lia). reflexivity. }
  rewrite E0. destruct (dec_fold w (seq 1 13) Hw L ltac:(intros r Hr; apply in_seq in Hr; lia) (AddRoundKey w 14 s) ltac:(apply AddRoundKey_ok; auto; lia)) as [E B].
  rewrite E. change (map (fun r => 14 - r)%nat (seq 1 13)) with (rev (seq 1 (14 - 1))).
  unfold aesdeclast, AddRoundKey at 1, rk. rewrite slice_round_key by exact Hd. rewrite (dec_sched_round 14) by (auto; lia). reflexivity.
Qed.

(* ---------- key expansion ---------- *)
(* four more words: the first gets t, each other the one before it *)
Definition xp (a : list Z) (t : list Z) : list Z :=
  let n0 := xor_list (dword a 0) t in let n1 := xor_list (dword a 1) n0 in let n2 := xor_list (dword a 2) n1 in let n3 := xor_list (dword a 3) n2 in
  n0 ++ n1 ++ n2 ++ n3.
(* the shuffles of _expand_key_128 and _expand_key_256b: a is the register extended, y is X4, t the broadcast word *)
Definition shX4 (a y : list Z) : list Z := let y1 := shufps 16 a y in shufps 140 (xor_list a y1) y1.
Definition shX (a y t : list Z) : list Z := let y1 := shufps 16 a y in let a1 := xor_list a y1 in xor_list (xor_list a1 (shufps 140 a1 y1)) t.

Lemma lx3 a b t : Z.lxor (Z.lxor a b) t = Z.lxor a (Z.lxor b t). Proof. apply Z.lxor_assoc. Qed.
Lemma sh_ok a y t0 t1 t2 t3 : length a = 16%nat -> length y = 16%nat -> dword y 0 = [0; 0; 0; 0] ->
  shX a y ([t0; t1; t2; t3] ++ [t0; t1; t2; t3] ++ [t0; t1; t2; t3] ++ [t0; t1; t2; t3]) = xp a [t0; t1; t2; t3] /\
  dword (shX4 a y) 0 = [0; 0; 0; 0] /\ length (shX4 a y) = 16%nat.
Proof.
  intros La Ly Hy.
  destruct (list16 a La) as (a0 & a1 & a2 & a3 & b0 & b1 & b2 & b3 & c0 & c1 & c2 & c3 & d0 & d1 & d2 & d3 & ->).
  destruct (list16 y Ly) as (y0 & y1 & y2 & y3 & y4 & y5 & y6 & y7 & y8 & y9 & y10 & y11 & y12 & y13 & y14 & y15 & ->).
  cbn in Hy. injection Hy as -> -> -> ->. clear.
  split; [|split; reflexivity].
  unfold shX, xp, shufps. cbv zeta.
  change (sel 16 0) with 0%nat. change (sel 16 1) with 0%nat. change (sel 16 2) with 1%nat. change (sel 16 3) with 0%nat.
  change (sel 140 0) with 0%nat. change (sel 140 1) with 3%nat. change (sel 140 2) with 0%nat. change (sel 140 3) with 2%nat.
  cbn [dword slice firstn skipn Nat.mul Nat.add app xor_list].
  rewrite !Z.lxor_0_r.
  assert (E2 : forall c b a t, Z.lxor (Z.lxor (Z.lxor c b) a) t = Z.lxor c (Z.lxor b (Z.lxor a t))) by (intros; rewrite !Z.lxor_assoc; reflexivity).
  assert (E3 : forall d c b a t, Z.lxor (Z.lxor (Z.lxor d a) (Z.lxor c b)) t = Z.lxor d (Z.lxor c (Z.lxor b (Z.lxor a t)))).
  { intros. rewrite (Z.lxor_assoc d a), (Z.lxor_comm a), !Z.lxor_assoc. reflexivity. }
  rewrite !E3, !E2, !lx3. reflexivity.
Qed.

Lemma firstn4w (w : list (list Z)) k : (k + 4 <= length w)%nat -> firstn 4 (skipn k w) = [nth k w []; nth (k + 1) w []; nth (k + 2) w []; nth (k + 3) w []].
Proof.
  revert w. induction k as [|k IH]; intros w L.
  - destruct w as [|a [|b [|c [|d w]]]]; cbn [length] in L; try lia. reflexivity.
  - destruct w as [|a w]; [cbn [length] in L; lia|]. cbn [length] in L. cbn [skipn Nat.add nth]. apply IH. lia.
Qed.
Lemma dword_rk w r k : wok w -> (4 * r + 4 <= length w)%nat -> (k < 4)%nat -> dword (round_key w r) k = nth (4 * r + k) w [].
Proof.
  intros Hw L Hk. unfold round_key. rewrite firstn4w by lia.
  assert (G : forall i, (i < length w)%nat -> length (nth i w []) = 4%nat) by (intros i Hi; apply (wok_nth w i Hw Hi)).
  pose proof (G (4 * r)%nat ltac:(lia)) as G0. pose proof (G (4 * r + 1)%nat ltac:(lia)) as G1. pose proof (G (4 * r + 2)%nat ltac:(lia)) as G2. pose proof (G (4 * r + 3)%nat ltac:(lia)) as G3.
  destruct (list4 _ G0) as (p0 & p1 & p2 & p3 & E0), (list4 _ G1) as (q0 & q1 & q2 & q3 & E1), (list4 _ G2) as (u0 & u1 & u2 & u3 & E2), (list4 _ G3) as (v0 & v1 & v2 & v3 & E3).
  rewrite E0, E1, E2, E3. destruct k as [|[|[|[|k]]]]; [rewrite Nat.add_0_r, E0| rewrite E1|rewrite E2|rewrite E3|lia]; reflexivity.
Qed.

(* the words produced at position i = 4j when the schedule has Nk = 4d words of key *)
Definition tword (d j : nat) (last : list Z) : list Z :=
  if (4 * j mod (4 * d) =? 0)%nat then xor_list (SubWord (RotWord last)) (Rcon (4 * j / (4 * d)))
  else if (6 <? 4 * d)%nat then SubWord last else last.
Definition b4 (c : list Z) : Prop := bytes c /\ length c = 4%nat.
Lemma b4_xor a b : b4 a -> b4 b -> b4 (xor_list a b).
Proof. intros [Ba La] [Bb Lb]. split; [apply bytes_xor; auto|]. rewrite xor_list_length. lia. Qed.
Lemma Rcon_b4 i : b4 (Rcon i).
Proof.
  split; [|reflexivity]. unfold Rcon.
  assert (B : is_byte (xpow (i - 1))) by (generalize (i - 1)%nat; clear; induction n; cbn [xpow]; [unfold is_byte; lia|apply xtime_byte, IHn]).
  assert (Z0 : is_byte 0) by (unfold is_byte; lia). repeat (constructor; [assumption|]). constructor.
Qed.
Lemma tword_b4 d j l : b4 l -> b4 (tword d j l).
Proof.
  intros [B L]. unfold tword. destruct (RotWord_ok l B L) as [RB RL].
  destruct (_ =? 0)%nat; [apply b4_xor; [exact (SubWord_ok _ RB RL)|apply Rcon_b4]|].
  destruct (_ <? _)%nat; [exact (SubWord_ok _ B L)|split; assumption].
Qed.

Lemma next_at Nk (w x : list (list Z)) k : length x = k -> (Nk <= length w + k)%nat -> (0 < k)%nat ->
  ((length w + k) mod Nk <> 0)%nat -> ((length w + k) mod Nk <> 4)%nat \/ (Nk <= 6)%nat -> (k < Nk)%nat ->
  next_word Nk (w ++ x) = xor_list (nth (length w + k - Nk) w []) (nth (k - 1) x []).
Proof.
  intros Lx L1 Hk M0 M4 Hn. unfold next_word. rewrite app_length, Lx. cbv zeta.
  replace ((length w + k) mod Nk =? 0)%nat with false by (symmetry; apply Nat.eqb_neq; exact M0).
  replace ((6 <? Nk) && ((length w + k) mod Nk =? 4))%nat with false.
  2:{ symmetry. apply andb_false_iff. destruct M4 as [M4|M4]; [right; apply Nat.eqb_neq; exact M4|left; apply Nat.ltb_ge; exact M4]. }
  rewrite (app_nth1 w x) by lia. rewrite (app_nth2 w x) by lia. replace (length w + k - 1 - length w)%nat with (k - 1)%nat by lia. reflexivity.
Qed.

Lemma grow d w j : (d = 1 \/ d = 2)%nat -> wok w -> length w = (4 * j)%nat -> (d <= j)%nat ->
  let w' := expand (4 * d) 4 w in
  concat w' = concat w ++ xp (round_key w (j - d)) (tword d j (dword (round_key w (j - 1)) 3)) /\ wok w' /\ length w' = (4 * (j + 1))%nat.
Proof.
  intros Hd Hw L Hj w'.
  assert (M : forall k, (k < 4)%nat -> ((4 * j + k) mod (4 * d) = (4 * j) mod (4 * d) + k)%nat).
  { intros k Hk. destruct Hd as [-> | ->].
    - change (4 * 1)%nat with 4%nat. rewrite (Nat.mul_comm 4 j), Nat.add_comm, Nat.mod_add, Nat.mod_small, Nat.mod_mul by lia. lia.
    - change (4 * 2)%nat with 8%nat. pose proof (Nat.div_mod j 2 ltac:(lia)) as Dj. pose proof (Nat.mod_upper_bound j 2 ltac:(lia)) as Uj.
      set (q := (j / 2)%nat) in *. set (e := (j mod 2)%nat) in *. 
      replace (4 * j + k)%nat with (4 * e + k + q * 8)%nat by lia. replace (4 * j)%nat with (4 * e + q * 8)%nat by lia.
      rewrite !Nat.mod_add by lia. rewrite !Nat.mod_small by lia. reflexivity. }
  assert (M4 : ((4 * j) mod (4 * d) = 0 \/ ((4 * j) mod (4 * d) = 4 /\ d = 2))%nat).
  { destruct Hd as [-> | ->]; [left; rewrite Nat.mul_comm; apply Nat.mod_mul; lia|].
    pose proof (Nat.div_mod j 2 ltac:(lia)) as Dj. pose proof (Nat.mod_upper_bound j 2 ltac:(lia)) as Uj.
    set (q := (j / 2)%nat) in *. set (e := (j mod 2)%nat) in *. change (4 * 2)%nat with 8%nat.
    replace (4 * j)%nat with (4 * e + q * 8)%nat by lia. rewrite Nat.mod_add, Nat.mod_small by lia. lia. }
  assert (Hlast : dword (round_key w (j - 1)) 3 = nth (4 * j - 1) w []) by (rewrite dword_rk by (auto; lia); f_equal; lia).
  assert (Hprev : forall k, (k < 4)%nat -> dword (round_key w (j - d)) k = nth (4 * j + k - 4 * d) w []) by (intros k Hk; rewrite dword_rk by (auto; lia); f_equal; lia).
  set (t := tword d j (dword (round_key w (j - 1)) 3)).
  assert (Bt : b4 t) by (apply tword_b4; rewrite Hlast; apply wok_nth; auto; lia).
  assert (Bp : forall k, (k < 4)%nat -> b4 (dword (round_key w (j - d)) k)) by (intros k Hk; rewrite Hprev by exact Hk; apply wok_nth; auto; lia).
  set (n0 := xor_list (dword (round_key w (j - d)) 0) t). set (n1 := xor_list (dword (round_key w (j - d)) 1) n0).
  set (n2 := xor_list (dword (round_key w (j - d)) 2) n1). set (n3 := xor_list (dword (round_key w (j - d)) 3) n2).
  assert (B0 : b4 n0) by (apply b4_xor; auto with arith). assert (B1 : b4 n1) by (apply b4_xor; auto with arith).
  assert (B2 : b4 n2) by (apply b4_xor; auto with arith). assert (B3 : b4 n3) by (apply b4_xor; auto with arith).
  assert (E0 : next_word (4 * d) w = n0).
  { unfold n0. rewrite Hprev by lia. rewrite Nat.add_0_r. unfold next_word, t, tword. rewrite Hlast, L. cbv zeta.
    destruct M4 as [M4|[M4 Ed]]; rewrite M4; cbn [Nat.eqb]; [reflexivity|]. rewrite Ed. reflexivity. }
  assert (Mk : forall k, (0 < k < 4)%nat -> ((length w + k) mod (4 * d) <> 0 /\ ((length w + k) mod (4 * d) <> 4 \/ 4 * d <= 6))%nat).
  { intros k Hk. rewrite L, M by lia. lia. }
  assert (Ew : w' = w ++ [n0; n1; n2; n3]).
  { unfold w'. cbn [expand]. rewrite E0.
    rewrite (next_at (4 * d) w [n0] 1) by (try reflexivity; try apply Mk; lia). rewrite L, <- Hprev by lia. cbn [nth Nat.sub]. fold n1.
    rewrite <- !app_assoc. cbn [app].
    rewrite (next_at (4 * d) w [n0; n1] 2) by (try reflexivity; try apply Mk; lia). rewrite L, <- Hprev by lia. cbn [nth Nat.sub]. fold n2.
    rewrite (next_at (4 * d) w [n0; n1; n2] 3) by (try reflexivity; try apply Mk; lia). rewrite L, <- Hprev by lia. cbn [nth Nat.sub]. fold n3. reflexivity. }
  rewrite Ew. split; [|split].
  - rewrite concat_app. f_equal. cbn [concat]. rewrite app_nil_r. reflexivity.
  - apply Forall_app. split; [exact Hw|]. repeat (constructor; [assumption|]). constructor.
  - rewrite app_length, L. cbn [length]. lia.
Qed.

(* a machine state of expandKeyAsm between two calls: BX at offset 16 j, registers X0, X2, X4 known, the rest arbitrary *)
Definition KS (p j : nat) (nr : Z) (key : arr) (E D x0 : list Z) (x2 : option (list Z)) (x4 : list Z) (s : st) : Prop :=
  exists x1 x3 x5 x6 x7 z c, s = mkS p [] [Ptr 0 0; Ptr 1 (16 * Z.of_nat j); Num nr; Ptr 2 0] [Some x0; x1; x2; x3; Some x4; x5; x6; x7] z c [key; (240%nat, E); (240%nat, D)].
Definition args (nr : Z) : list gval := [Num nr; Ptr 0 0; Ptr 1 0; Ptr 2 0].

(* the three kinds of call; i numbers the call sites *)
Lemma call_128 i nr key E D x0 x2 x4 s : (i < 10)%nat -> KS (59 + 2 * i) (i + 1) nr key E D x0 x2 x4 s ->
  exists s', run expandKeyAsm (args nr) 11 s = Running s' /\
    let x0' := shX x0 x4 (pshufd 255 (keygenassist (xpow i) x0)) in
    KS (59 + 2 * (i + 1)) (i + 2) nr key (blit E (16 * (i + 1)) x0') D x0' x2 (shX4 x0 x4) s'.
Proof.
  intros Hi (x1 & x3 & x5 & x6 & x7 & z & c & ->).
  do 10 (destruct i as [|i]; [eexists; split; [lazy -[slice blit xor_list keygenassist pshufd shufps]; reflexivity|repeat eexists]|]). lia.
Qed.
Lemma call_256a i nr key E D x0 x2 x4 s : (i < 7)%nat -> KS (14 + 4 * i) (2 * i + 2) nr key E D x0 (Some x2) x4 s ->
  exists s', run expandKeyAsm (args nr) 12 s = Running s' /\
    let x0' := shX x0 x4 (pshufd 255 (keygenassist (xpow i) x2)) in
    KS (16 + 4 * i) (2 * i + 3) nr key (blit E (16 * (2 * i + 2)) x0') D x0' (Some x2) (shX4 x0 x4) s'.
Proof.
  intros Hi (x1 & x3 & x5 & x6 & x7 & z & c & ->).
  do 7 (destruct i as [|i]; [eexists; split; [lazy -[slice blit xor_list keygenassist pshufd shufps]; reflexivity|repeat eexists]|]). lia.
Qed.
Lemma call_256b i nr key E D x0 x2 x4 s : (i < 6)%nat -> KS (16 + 4 * i) (2 * i + 3) nr key E D x0 (Some x2) x4 s ->
  exists s', run expandKeyAsm (args nr) 11 s = Running s' /\
    let x2' := shX x2 x4 (pshufd 170 (keygenassist (xpow i) x0)) in
    KS (18 + 4 * i) (2 * i + 4) nr key (blit E (16 * (2 * i + 3)) x2') D x0 (Some x2') (shX4 x2 x4) s'.
Proof.
  intros Hi (x1 & x3 & x5 & x6 & x7 & z & c & ->).
  do 6 (destruct i as [|i]; [eexists; split; [lazy -[slice blit xor_list keygenassist pshufd shufps]; reflexivity|repeat eexists]|]). lia.
Qed.

Lemma expand_add Nk n : forall m w, expand Nk (n + m) w = expand Nk m (expand Nk n w).
Proof. induction n as [|n IH]; intros m w; [reflexivity|]. cbn [expand Nat.add]. apply IH. Qed.
Lemma rot_sub l : length l = 4%nat -> RotWord (SubWord l) = SubWord (RotWord l).
Proof. intro L. destruct (list4 l L) as (a & b & c & d & ->). reflexivity. Qed.
Lemma sub_len l : length (SubWord l) = length l. Proof. apply map_length. Qed.
Lemma kga_255 rc x : b4 (dword x 3) -> length x = 16%nat -> forall t, t = xor_list (SubWord (RotWord (dword x 3))) [rc; 0; 0; 0] ->
  pshufd 255 (keygenassist rc x) = t ++ t ++ t ++ t.
Proof.
  intros [_ H3] L t ->. rewrite <- rot_sub by exact H3.
  assert (L1 : length (dword x 1) = 4%nat) by (apply slice_length; lia).
  unfold keygenassist, pshufd. cbv zeta. pose proof (sub_len (dword x 1)) as S1. pose proof (sub_len (dword x 3)) as S3. rewrite L1 in S1. rewrite H3 in S3.
  destruct (list4 _ S1) as (a & b & c & d & ->), (list4 _ S3) as (e & f & g & h & ->). reflexivity.
Qed.
Lemma kga_170 rc x : b4 (dword x 3) -> length x = 16%nat -> forall t, t = SubWord (dword x 3) -> pshufd 170 (keygenassist rc x) = t ++ t ++ t ++ t.
Proof.
  intros [_ H3] L t ->.
  assert (L1 : length (dword x 1) = 4%nat) by (apply slice_length; lia).
  unfold keygenassist, pshufd. cbv zeta. pose proof (sub_len (dword x 1)) as S1. pose proof (sub_len (dword x 3)) as S3. rewrite L1 in S1. rewrite H3 in S3.
  destruct (list4 _ S1) as (a & b & c & d & ->), (list4 _ S3) as (e & f & g & h & ->). reflexivity.
Qed.
Lemma sh_okt a y t : length a = 16%nat -> length y = 16%nat -> dword y 0 = [0; 0; 0; 0] -> length t = 4%nat ->
  shX a y (t ++ t ++ t ++ t) = xp a t /\ dword (shX4 a y) 0 = [0; 0; 0; 0] /\ length (shX4 a y) = 16%nat.
Proof. intros La Ly Hy Lt. destruct (list4 t Lt) as (t0 & t1 & t2 & t3 & ->). apply sh_ok; assumption. Qed.
Lemma xp_len a t : length a = 16%nat -> length t = 4%nat -> length (xp a t) = 16%nat.
Proof.
  intros La Lt. destruct (list4 t Lt) as (t0 & t1 & t2 & t3 & ->).
  destruct (list16 a La) as (a0 & a1 & a2 & a3 & b0 & b1 & b2 & b3 & c0 & c1 & c2 & c3 & d0 & d1 & d2 & d3 & ->). reflexivity.
Qed.

(* one block of four words appended, on the schedule and in memory *)
Lemma grow_mem d w j r : (d = 1 \/ d = 2)%nat -> wok w -> length w = (4 * j)%nat -> (d <= j)%nat -> (16 <= length r)%nat ->
  let w' := expand (4 * d) 4 w in let N := xp (round_key w (j - d)) (tword d j (dword (round_key w (j - 1)) 3)) in
  wok w' /\ length w' = (4 * (j + 1))%nat /\ round_key w' j = N /\ (forall i, (i < j)%nat -> round_key w' i = round_key w i) /\
  blit (concat w ++ r) (16 * j) N = concat w' ++ skipn 16 r.
Proof.
  intros Hd Hw L Hj Hr w' N. destruct (grow d w j Hd Hw L Hj) as (E & W & L'). fold w' in E, W, L'. fold N in E.
  assert (Lc : length (concat w) = (16 * j)%nat) by (rewrite concat4 by (apply wok4; exact Hw); lia).
  assert (LN : length N = 16%nat).
  { apply xp_len; [apply round_key_ok; auto; lia|]. apply tword_b4. rewrite dword_rk by (auto; lia). apply wok_nth; auto; lia. }
  split; [exact W|]. split; [exact L'|]. split; [|split].
  - rewrite <- slice_round_key by exact W. rewrite E. unfold slice. rewrite <- Lc, skipn_app, Nat.sub_diag, skipn_all2 by lia. cbn [app skipn].
    apply firstn_all2. lia.
  - intros i Hi. rewrite <- !slice_round_key by assumption. rewrite E. apply slice_app_l. lia.
  - rewrite (blit_at _ _ _ _ Lc) by lia. rewrite E, LN. reflexivity.
Qed.

Lemma rk16 w r : wok w -> (4 * r + 4 <= length w)%nat -> length (round_key w r) = 16%nat.
Proof. intros Hw L. apply round_key_ok; assumption. Qed.
Lemma rk_b4 w r : wok w -> (4 * r + 4 <= length w)%nat -> b4 (dword (round_key w r) 3).
Proof. intros Hw L. rewrite dword_rk by (auto; lia). apply wok_nth; auto; lia. Qed.
Lemma skipn_skipn' {A} a : forall b (l : list A), skipn a (skipn b l) = skipn (b + a) l.
Proof. intros b. induction b as [|b IH]; intro l; [reflexivity|]. destruct l; [rewrite !skipn_nil; reflexivity|]. cbn [skipn Nat.add]. apply IH. Qed.

Definition I256 (key E0 D : list Z) (i : nat) (w : list (list Z)) (s : st) : Prop :=
  wok w /\ length w = (4 * (2 * i + 2))%nat /\
  exists x4, length x4 = 16%nat /\ dword x4 0 = [0; 0; 0; 0] /\
    KS (14 + 4 * i) (2 * i + 2) 14 (32%nat, key) (concat w ++ skipn (16 * (2 * i + 2)) E0) D (round_key w (2 * i)) (Some (round_key w (2 * i + 1))) x4 s.

(* an a-call *)
Lemma step_256a key E0 D i w s : (i < 7)%nat -> length E0 = 240%nat -> I256 key E0 D i w s ->
  let w' := expand 8 4 w in
  wok w' /\ length w' = (4 * (2 * i + 3))%nat /\
  exists s', run expandKeyAsm (args 14) 12 s = Running s' /\ exists x4, length x4 = 16%nat /\ dword x4 0 = [0; 0; 0; 0] /\
    KS (16 + 4 * i) (2 * i + 3) 14 (32%nat, key) (concat w' ++ skipn (16 * (2 * i + 3)) E0) D (round_key w' (2 * i + 2)) (Some (round_key w' (2 * i + 1))) x4 s'.
Proof.
  intros Hi LE (Hw & L & x4 & L4 & Z4 & K) w'.
  destruct (call_256a i _ _ _ _ _ _ _ _ Hi K) as (s' & Hrun & K').
  destruct (grow_mem 2 w (2 * i + 2) (skipn (16 * (2 * i + 2)) E0) ltac:(auto) Hw L ltac:(lia) ltac:(rewrite skipn_length; lia)) as (W & L' & RN & RO & EB).
  change (4 * 2)%nat with 8%nat in *. fold w' in W, L', RN, RO, EB.
  replace (2 * i + 2 - 2)%nat with (2 * i)%nat in * by lia. replace (2 * i + 2 - 1)%nat with (2 * i + 1)%nat in * by lia.
  assert (Ht : tword 2 (2 * i + 2) (dword (round_key w (2 * i + 1)) 3) = xor_list (SubWord (RotWord (dword (round_key w (2 * i + 1)) 3))) [xpow i; 0; 0; 0]).
  { unfold tword. replace (4 * (2 * i + 2))%nat with ((i + 1) * (4 * 2))%nat by lia. rewrite Nat.mod_mul, Nat.div_mul by lia. cbn [Nat.eqb].
    unfold Rcon. replace (i + 1 - 1)%nat with i by lia. reflexivity. }
  rewrite (kga_255 (xpow i) (round_key w (2 * i + 1)) (rk_b4 w (2 * i + 1) Hw ltac:(lia)) (rk16 w (2 * i + 1) Hw ltac:(lia)) _ Ht) in K'.
  destruct (sh_okt (round_key w (2 * i)) x4 _ (rk16 w (2 * i) Hw ltac:(lia)) L4 Z4 (proj2 (tword_b4 2 (2 * i + 2) _ (rk_b4 w (2 * i + 1) Hw ltac:(lia))))) as (S1 & S2 & S3).
  rewrite S1 in K'. cbv zeta in K'. rewrite EB in K'. rewrite <- RN in K'. rewrite skipn_skipn' in K'. rewrite <- (RO (2 * i + 1)%nat) in K' by lia.
  split; [exact W|]. split; [lia|]. exists s'. split; [exact Hrun|]. exists (shX4 (round_key w (2 * i)) x4). split; [exact S3|]. split; [exact S2|].
  replace (16 * (2 * i + 3))%nat with (16 * (2 * i + 2) + 16)%nat by lia. exact K'.
Qed.
(* an a-call and a b-call *)
Lemma step_256 key E0 D i w s : (i < 6)%nat -> length E0 = 240%nat -> I256 key E0 D i w s ->
  exists s', run expandKeyAsm (args 14) 23 s = Running s' /\ I256 key E0 D (i + 1) (expand 8 8 w) s'.
Proof.
  intros Hi LE HI. destruct (step_256a key E0 D i w s ltac:(lia) LE HI) as (Hw & L & s1 & R1 & x4 & L4 & Z4 & K). rewrite (expand_add 8 4 4 w : expand 8 8 w = _).
  set (w1 := expand 8 4 w) in *. clearbody w1. clear HI.
  destruct (call_256b i _ _ _ _ _ _ _ _ Hi K) as (s' & Hrun & K').
  destruct (grow_mem 2 w1 (2 * i + 3) (skipn (16 * (2 * i + 3)) E0) ltac:(auto) Hw L ltac:(lia) ltac:(rewrite skipn_length; lia)) as (W & L' & RN & RO & EB).
  change (4 * 2)%nat with 8%nat in *. set (w' := expand 8 4 w1) in *.
  replace (2 * i + 3 - 2)%nat with (2 * i + 1)%nat in * by lia. replace (2 * i + 3 - 1)%nat with (2 * i + 2)%nat in * by lia.
  assert (Ht : tword 2 (2 * i + 3) (dword (round_key w1 (2 * i + 2)) 3) = SubWord (dword (round_key w1 (2 * i + 2)) 3)).
  { unfold tword. replace (4 * (2 * i + 3))%nat with (4 + (i + 1) * (4 * 2))%nat by lia. rewrite Nat.mod_add by lia. reflexivity. }
  rewrite (kga_170 (xpow i) (round_key w1 (2 * i + 2)) (rk_b4 w1 (2 * i + 2) Hw ltac:(lia)) (rk16 w1 (2 * i + 2) Hw ltac:(lia)) _ Ht) in K'.
  destruct (sh_okt (round_key w1 (2 * i + 1)) x4 _ (rk16 w1 (2 * i + 1) Hw ltac:(lia)) L4 Z4 (proj2 (tword_b4 2 (2 * i + 3) _ (rk_b4 w1 (2 * i + 2) Hw ltac:(lia))))) as (S1 & S2 & S3).
  rewrite S1 in K'. cbv zeta in K'. rewrite EB in K'. rewrite <- RN in K'. rewrite skipn_skipn' in K'. rewrite <- (RO (2 * i + 2)%nat) in K' by lia.
  exists s'. split; [change 23%nat with (12 + 11)%nat; rewrite run_add, R1; exact Hrun|].
  split; [exact W|]. split; [lia|]. exists (shX4 (round_key w1 (2 * i + 1)) x4). split; [exact S3|]. split; [exact S2|].
  replace (14 + 4 * (i + 1))%nat with (18 + 4 * i)%nat by lia. replace (16 * (2 * (i + 1) + 2))%nat with (16 * (2 * i + 3) + 16)%nat by lia.
  replace (2 * (i + 1) + 2)%nat with (2 * i + 4)%nat by lia. replace (2 * (i + 1))%nat with (2 * i + 2)%nat by lia. replace (2 * i + 2 + 1)%nat with (2 * i + 3)%nat by lia. exact K'.
Qed.

(* ---------- the decryption schedule ---------- *)
Definition decBlock (E : list Z) (nr r : nat) : list Z := if ((0 <? r) && (r <? nr))%nat then InvMixColumns (rk E (nr - r)) else rk E (nr - r).
Lemma dec_phase nr key E D x0 x2 x4 s : (nr = 10 \/ nr = 12 \/ nr = 14)%nat -> KS 79 (nr + 1) (Z.of_nat nr) key E D x0 x2 x4 s ->
  memOf (run expandKeyAsm (args (Z.of_nat nr)) 120 s) = Some [key; (240%nat, E); (240%nat, fold_left (fun D r => blit D (16 * r) (decBlock E nr r)) (seq 0 (nr + 1)) D)].
Proof.
  intros Hn (x1 & x3 & x5 & x6 & x7 & z & c & ->). destruct Hn as [-> | [-> | ->]]; lazy -[slice blit InvMixColumns]; reflexivity.
Qed.
Lemma fold_blit X k D : (16 * k <= length X)%nat -> (16 * k <= length D)%nat ->
  fold_left (fun D r => blit D (16 * r) (slice X (16 * r) 16)) (seq 0 k) D = firstn (16 * k) X ++ skipn (16 * k) D.
Proof.
  induction k as [|k IH]; intros LX LD; [reflexivity|]. rewrite seq_S, fold_left_app. cbn [fold_left Nat.add]. rewrite IH by lia.
  assert (Lf : length (firstn (16 * k) X) = (16 * k)%nat) by (rewrite firstn_length; lia).
  assert (Ls : length (slice X (16 * k) 16) = 16%nat) by (apply slice_length; lia).
  rewrite (blit_at _ _ _ _ Lf) by (rewrite Ls, skipn_length; lia). rewrite Ls, skipn_skipn'. replace (16 * S k)%nat with (16 * k + 16)%nat by lia. f_equal.
  unfold slice. rewrite <- (firstn_skipn (16 * k) X) at 3. rewrite (firstn_app (16 * k + 16)), firstn_firstn, Lf.
  replace (Nat.min (16 * k + 16) (16 * k)) with (16 * k)%nat by lia. f_equal. f_equal. lia.
Qed.
Lemma fold_left_ext_in {A C} (f g : A -> C -> A) l : (forall a b, In b l -> f a b = g a b) -> forall a, fold_left f l a = fold_left g l a.
Proof. induction l as [|b l IH]; intros H a; [reflexivity|]. cbn [fold_left]. rewrite H by (left; reflexivity). apply IH. intros c d Hd. apply H. right. exact Hd. Qed.
Lemma dec_fold_ok w tail nr D : wok w -> length w = (4 * (nr + 1))%nat -> (16 * (nr + 1) <= length D)%nat ->
  fold_left (fun D r => blit D (16 * r) (decBlock (concat w ++ tail) nr r)) (seq 0 (nr + 1)) D = concat (dec_sched w) ++ skipn (16 * (nr + 1)) D.
Proof.
  intros Hw L LD. assert (Hd : wok (dec_sched w)) by (apply (dec_sched_wok nr); auto).
  assert (Lc : length (concat (dec_sched w)) = (16 * (nr + 1))%nat) by (rewrite concat4 by (apply wok4; exact Hd); rewrite dec_sched_length, L; lia).
  rewrite (fold_left_ext_in _ (fun D r => blit D (16 * r) (slice (concat (dec_sched w)) (16 * r) 16))).
  - rewrite fold_blit by lia. rewrite firstn_all2 by lia. reflexivity.
  - intros D' r Hr. apply in_seq in Hr. f_equal. rewrite slice_round_key by exact Hd. rewrite (dec_sched_round nr) by (auto; lia).
    unfold decBlock, rk. rewrite slice_app_l by (rewrite concat4 by (apply wok4; exact Hw); lia). rewrite slice_round_key by exact Hw. reflexivity.
Qed.

Lemma run_halt code ar n m s ms : memOf (run code ar n s) = Some ms -> memOf (run code ar (n + m) s) = Some ms.
Proof. rewrite run_add. destruct (run code ar n s); [discriminate|auto|discriminate]. Qed.
Lemma chunks_concat (l : list Z) n : length l = (4 * n)%nat -> concat (chunks 4 l) = l.
Proof.
  revert l. induction n as [|n IH]; intros l L.
  - destruct l; [reflexivity|discriminate].
  - rewrite chunks_cons by lia. cbn [concat]. rewrite IH by (rewrite skipn_length; lia). apply firstn_skipn.
Qed.
Lemma chunks_wok (l : list Z) n : bytes l -> length l = (4 * n)%nat -> wok (chunks 4 l) /\ length (chunks 4 l) = n.
Proof.
  revert l. induction n as [|n IH]; intros l B L.
  - destruct l; [split; [constructor|reflexivity]|discriminate].
  - rewrite chunks_cons by lia. destruct (IH (skipn 4 l) (Forall_skipn _ _ _ _ B) ltac:(rewrite skipn_length; lia)) as [W E].
    split; [constructor; [split; [apply Forall_firstn; exact B|rewrite firstn_length; lia]|exact W]|]. cbn [length]. rewrite E. reflexivity.
Qed.

Lemma start_256 key E0 D : bytes key -> length key = 32%nat -> length E0 = 240%nat ->
  exists s, run expandKeyAsm (args 14) 14 (entry [(32%nat, key); (240%nat, E0); (240%nat, D)]) = Running s /\ I256 key E0 D 0 (chunks 4 key) s.
Proof.
  intros B L LE. destruct (chunks_wok key 8 B L) as [W Lw].
  eexists. split; [lazy -[slice blit]; reflexivity|]. split; [exact W|]. split; [exact Lw|]. exists (repeat 0 16). split; [reflexivity|]. split; [reflexivity|].
  rewrite (chunks_concat key 8 L).
  assert (E1 : slice key 0 16 = round_key (chunks 4 key) 0) by (rewrite <- slice_round_key by exact W; rewrite (chunks_concat key 8 L); reflexivity).
  assert (E2 : slice key 16 16 = round_key (chunks 4 key) 1) by (rewrite <- slice_round_key by exact W; rewrite (chunks_concat key 8 L); reflexivity).
  assert (EE : blit (blit E0 0 (slice key 0 16)) 16 (slice key 16 16) = key ++ skipn (16 * (2 * 0 + 2)) E0).
  { assert (S1 : length (slice key 0 16) = 16%nat) by (apply slice_length; lia). assert (S2 : length (slice key 16 16) = 16%nat) by (apply slice_length; lia).
    change E0 with ([] ++ E0) at 1. rewrite (blit_at [] E0 (slice key 0 16) 0 eq_refl) by lia. rewrite S1. cbn [app].
    rewrite (blit_at _ _ _ 16 S1) by (rewrite S2, skipn_length; lia). rewrite S2, skipn_skipn'. f_equal. unfold slice. change (skipn 0 key) with key.
    rewrite (firstn_all2 (n := 16) (skipn 16 key)) by (rewrite skipn_length; lia). apply firstn_skipn. }
  rewrite <- EE. change (2 * 0 + 1)%nat with 1%nat. change (2 * 0)%nat with 0%nat. rewrite <- E1, <- E2. do 7 eexists. reflexivity.
Qed.

Theorem expand_256 key E0 D : bytes key -> length key = 32%nat -> length E0 = 240%nat -> length D = 240%nat ->
  memOf (run expandKeyAsm (args 14) fuel (entry [(32%nat, key); (240%nat, E0); (240%nat, D)])) =
    Some [(32%nat, key); (240%nat, concat (KeyExpansion key)); (240%nat, concat (dec_sched (KeyExpansion key)))].
Proof.
  intros B L LE LD. destruct (start_256 key E0 D B L LE) as (s0 & R0 & I0).
  destruct (step_256 key E0 D 0 _ _ ltac:(lia) LE I0) as (s1 & R1 & I1). destruct (step_256 key E0 D 1 _ _ ltac:(lia) LE I1) as (s2 & R2 & I2).
  destruct (step_256 key E0 D 2 _ _ ltac:(lia) LE I2) as (s3 & R3 & I3). destruct (step_256 key E0 D 3 _ _ ltac:(lia) LE I3) as (s4 & R4 & I4).
  destruct (step_256 key E0 D 4 _ _ ltac:(lia) LE I4) as (s5 & R5 & I5). destruct (step_256 key E0 D 5 _ _ ltac:(lia) LE I5) as (s6 & R6 & I6).
  destruct (step_256a key E0 D 6 _ _ ltac:(lia) LE I6) as (W & Lw & s7 & R7 & x4 & _ & _ & K).
  clear I0 I1 I2 I3 I4 I5 I6.
  assert (EK : expand 8 4 (expand 8 8 (expand 8 8 (expand 8 8 (expand 8 8 (expand 8 8 (expand 8 8 (chunks 4 key))))))) = KeyExpansion key).
  { unfold KeyExpansion. rewrite L. change (32 / 4)%nat with 8%nat. change (4 * (8 + 7) - 8)%nat with (8 + (8 + (8 + (8 + (8 + (8 + 4))))))%nat. rewrite !expand_add. reflexivity. }
  cbn [Nat.add Nat.mul] in W, Lw, K. rewrite EK in W, Lw, K. clear EK. set (w := KeyExpansion key) in *. clearbody w.
  rewrite (skipn_all2 E0) in K by lia.
  assert (R8 : exists s8, run expandKeyAsm (args 14) 1 s7 = Running s8 /\ KS 79 15 14 (32%nat, key) (concat w ++ []) D (round_key w 14) (Some (round_key w 13)) x4 s8).
  { destruct K as (x1 & x3 & x5 & x6 & x7 & z & c & ->). eexists. split; [reflexivity|]. repeat eexists. }
  destruct R8 as (s8 & R8 & K8). pose proof (dec_phase 14 _ _ _ _ _ _ _ ltac:(auto) K8) as H. rewrite (dec_fold_ok w [] 14 D W Lw ltac:(lia)) in H.
  rewrite (skipn_all2 D) in H by lia. rewrite !app_nil_r in H.
  change fuel with (14 + (23 + (23 + (23 + (23 + (23 + (23 + (12 + (1 + (120 + 715))))))))))%nat.
  rewrite run_add, R0, run_add, R1, run_add, R2, run_add, R3, run_add, R4, run_add, R5, run_add, R6, run_add, R7, run_add, R8. apply run_halt. exact H.
Qed.

(* ---------- 16-byte keys ---------- *)
Definition I128 (key E0 D : list Z) (i : nat) (w : list (list Z)) (s : st) : Prop :=
  wok w /\ length w = (4 * (i + 1))%nat /\
  exists x4, length x4 = 16%nat /\ dword x4 0 = [0; 0; 0; 0] /\
    KS (59 + 2 * i) (i + 1) 10 (16%nat, key) (concat w ++ skipn (16 * (i + 1)) E0) D (round_key w i) None x4 s.
Lemma step_128 key E0 D i w s : (i < 10)%nat -> length E0 = 240%nat -> I128 key E0 D i w s ->
  exists s', run expandKeyAsm (args 10) 11 s = Running s' /\ I128 key E0 D (i + 1) (expand 4 4 w) s'.
Proof.
  intros Hi LE (Hw & L & x4 & L4 & Z4 & K).
  destruct (call_128 i _ _ _ _ _ _ _ _ Hi K) as (s' & Hrun & K').
  destruct (grow_mem 1 w (i + 1) (skipn (16 * (i + 1)) E0) ltac:(auto) Hw L ltac:(lia) ltac:(rewrite skipn_length; lia)) as (W & L' & RN & RO & EB).
  change (4 * 1)%nat with 4%nat in *. set (w' := expand 4 4 w) in *.
  replace (i + 1 - 1)%nat with i in * by lia.
  assert (Ht : tword 1 (i + 1) (dword (round_key w i) 3) = xor_list (SubWord (RotWord (dword (round_key w i) 3))) [xpow i; 0; 0; 0]).
  { unfold tword. change (4 * 1)%nat with 4%nat. rewrite (Nat.mul_comm 4 (i + 1)), Nat.mod_mul, Nat.div_mul by lia. cbn [Nat.eqb].
    unfold Rcon. replace (i + 1 - 1)%nat with i by lia. reflexivity. }
  rewrite (kga_255 (xpow i) (round_key w i) (rk_b4 w i Hw ltac:(lia)) (rk16 w i Hw ltac:(lia)) _ Ht) in K'.
  destruct (sh_okt (round_key w i) x4 _ (rk16 w i Hw ltac:(lia)) L4 Z4 (proj2 (tword_b4 1 (i + 1) _ (rk_b4 w i Hw ltac:(lia))))) as (S1 & S2 & S3).
  rewrite S1 in K'. cbv zeta in K'. rewrite EB in K'. rewrite <- RN in K'. rewrite skipn_skipn' in K'.
  exists s'. split; [exact Hrun|]. split; [exact W|]. split; [lia|]. exists (shX4 (round_key w i) x4). split; [exact S3|]. split; [exact S2|].
  replace (i + 1 + 1)%nat with (i + 2)%nat by lia. replace (16 * (i + 2))%nat with (16 * (i + 1) + 16)%nat by lia. exact K'.
Qed.
Lemma start_128 key E0 D : bytes key -> length key = 16%nat -> length E0 = 240%nat ->
  exists s, run expandKeyAsm (args 10) 11 (entry [(16%nat, key); (240%nat, E0); (240%nat, D)]) = Running s /\ I128 key E0 D 0 (chunks 4 key) s.
Proof.
  intros B L LE. destruct (chunks_wok key 4 B L) as [W Lw].
  eexists. split; [lazy -[slice blit]; reflexivity|]. split; [exact W|]. split; [exact Lw|]. exists (repeat 0 16). split; [reflexivity|]. split; [reflexivity|].
  rewrite (chunks_concat key 4 L).
  assert (E1 : slice key 0 16 = round_key (chunks 4 key) 0) by (rewrite <- slice_round_key by exact W; rewrite (chunks_concat key 4 L); reflexivity).
  assert (S1 : slice key 0 16 = key) by (unfold slice; apply firstn_all2; change (skipn 0 key) with key; lia).
  assert (EE : blit E0 0 (slice key 0 16) = key ++ skipn (16 * (0 + 1)) E0).
  { change E0 with ([] ++ E0) at 1. rewrite S1, (blit_at [] E0 key 0 eq_refl) by lia. rewrite L. reflexivity. }
  rewrite <- EE, <- E1. do 7 eexists. reflexivity.
Qed.
Theorem expand_128 key E0 D : bytes key -> length key = 16%nat -> length E0 = 240%nat -> length D = 240%nat ->
  memOf (run expandKeyAsm (args 10) fuel (entry [(16%nat, key); (240%nat, E0); (240%nat, D)])) =
    Some [(16%nat, key); (240%nat, concat (KeyExpansion key) ++ skipn 176 E0); (240%nat, concat (dec_sched (KeyExpansion key)) ++ skipn 176 D)].
Proof.
  intros B L LE LD. destruct (start_128 key E0 D B L LE) as (s0 & R0 & I0).
  destruct (step_128 key E0 D 0 _ _ ltac:(lia) LE I0) as (s1 & R1 & I1). destruct (step_128 key E0 D 1 _ _ ltac:(lia) LE I1) as (s2 & R2 & I2).
  destruct (step_128 key E0 D 2 _ _ ltac:(lia) LE I2) as (s3 & R3 & I3). destruct (step_128 key E0 D 3 _ _ ltac:(lia) LE I3) as (s4 & R4 & I4).
  destruct (step_128 key E0 D 4 _ _ ltac:(lia) LE I4) as (s5 & R5 & I5). destruct (step_128 key E0 D 5 _ _ ltac:(lia) LE I5) as (s6 & R6 & I6).
  destruct (step_128 key E0 D 6 _ _ ltac:(lia) LE I6) as (s7 & R7 & I7). destruct (step_128 key E0 D 7 _ _ ltac:(lia) LE I7) as (s8 & R8 & I8).
  destruct (step_128 key E0 D 8 _ _ ltac:(lia) LE I8) as (s9 & R9 & I9). destruct (step_128 key E0 D 9 _ _ ltac:(lia) LE I9) as (sA & RA & IA).
  clear I0 I1 I2 I3 I4 I5 I6 I7 I8 I9. destruct IA as (W & Lw & x4 & _ & _ & K).
  match type of W with wok ?e => assert (EK : e = KeyExpansion key) end.
  { unfold KeyExpansion. rewrite L. change (16 / 4)%nat with 4%nat. change (4 * (4 + 7) - 4)%nat with (4 + (4 + (4 + (4 + (4 + (4 + (4 + (4 + (4 + 4)))))))))%nat. rewrite !expand_add. reflexivity. }
  rewrite EK in W, Lw, K. clear EK. set (w := KeyExpansion key) in *. clearbody w.
  pose proof (dec_phase 10 _ _ _ _ _ _ _ ltac:(auto) K) as H. rewrite (dec_fold_ok w (skipn (16 * (9 + 1 + 1)) E0) 10 D W Lw ltac:(lia)) in H.
  change fuel with (11 + (11 + (11 + (11 + (11 + (11 + (11 + (11 + (11 + (11 + (11 + (120 + 759))))))))))))%nat.
  rewrite run_add, R0, run_add, R1, run_add, R2, run_add, R3, run_add, R4, run_add, R5, run_add, R6, run_add, R7, run_add, R8, run_add, R9, run_add, RA. apply run_halt. exact H.
Qed.

(* ---------- 24-byte keys ---------- *)
Lemma call_192 i nr key E D x0 x2 x4 s : (i < 4)%nat -> KS (42 + 4 * i) (3 * i + 1) nr key E D x0 (Some x2) x4 s ->
  exists s', run expandKeyAsm (args nr) 37 s = Running s' /\
    let y0 := shX x0 x4 (pshufd 85 (keygenassist (xpow (2 * i)) x2)) in let y4 := shX4 x0 x4 in
    let y2 := xor_list (xor_list x2 (pshufd 255 y0)) (pslldq 4 x2) in
    let z0 := shX y0 y4 (pshufd 85 (keygenassist (xpow (2 * i + 1)) y2)) in
    let z2 := xor_list (xor_list y2 (pshufd 255 z0)) (pslldq 4 y2) in
    KS (42 + 4 * (i + 1)) (3 * (i + 1) + 1) nr key
      (blit (blit (blit E (16 * (3 * i + 1)) (shufps 68 y0 x2)) (16 * (3 * i + 2)) (shufps 78 y2 y0)) (16 * (3 * i + 3)) z0) D z0 (Some z2) (shX4 y0 y4) s'.
Proof.
  intros Hi (x1 & x3 & x5 & x6 & x7 & z & c & ->).
  do 4 (destruct i as [|i]; [eexists; split; [lazy -[slice blit xor_list keygenassist pshufd shufps pslldq]; reflexivity|repeat eexists]|]). lia.
Qed.

Lemma next6 u (x : list (list Z)) m k : length u = (6 * m)%nat -> length x = (6 + k)%nat -> (k < 6)%nat ->
  next_word 6 (u ++ x) = xor_list (nth k x []) (if (k =? 0)%nat then xor_list (SubWord (RotWord (nth (5 + k) x []))) (Rcon (m + 1)) else nth (5 + k) x []).
Proof.
  intros Lu Lx Hk. unfold next_word. rewrite app_length, Lu, Lx. cbv zeta.
  replace (6 * m + (6 + k))%nat with (k + (m + 1) * 6)%nat by lia. rewrite Nat.mod_add, Nat.mod_small, Nat.div_add, Nat.div_small by lia.
  cbn [Nat.ltb Nat.leb andb]. rewrite !app_nth2 by lia. rewrite Lu.
  replace (k + (m + 1) * 6 - 6 - 6 * m)%nat with k by lia. replace (k + (m + 1) * 6 - 1 - 6 * m)%nat with (5 + k)%nat by lia. reflexivity.
Qed.
Lemma grow6 u m a b c d p q : length u = (6 * m)%nat -> let t := xor_list (SubWord (RotWord q)) (Rcon (m + 1)) in
  let n0 := xor_list a t in let n1 := xor_list b n0 in let n2 := xor_list c n1 in let n3 := xor_list d n2 in let n4 := xor_list p n3 in let n5 := xor_list q n4 in
  expand 6 6 (u ++ [a; b; c; d; p; q]) = (u ++ [a; b; c; d; p; q]) ++ [n0; n1; n2; n3; n4; n5].
Proof.
  intros Lu. cbv zeta. cbn [expand].
  rewrite (next6 u [a; b; c; d; p; q] m 0 Lu eq_refl) by lia. cbn [Nat.eqb nth Nat.add]. rewrite <- !app_assoc. cbn [app].
  rewrite (next6 u [a; b; c; d; p; q; _] m 1 Lu eq_refl) by lia. cbn [Nat.eqb nth Nat.add]. 
  rewrite (next6 u [a; b; c; d; p; q; _; _] m 2 Lu eq_refl) by lia. cbn [Nat.eqb nth Nat.add].
  rewrite (next6 u [a; b; c; d; p; q; _; _; _] m 3 Lu eq_refl) by lia. cbn [Nat.eqb nth Nat.add].
  rewrite (next6 u [a; b; c; d; p; q; _; _; _; _] m 4 Lu eq_refl) by lia. cbn [Nat.eqb nth Nat.add].
  rewrite (next6 u [a; b; c; d; p; q; _; _; _; _; _] m 5 Lu eq_refl) by lia. cbn [Nat.eqb nth Nat.add]. reflexivity.
Qed.

(* registers X0 = a b c d, X2 = p q and junk; one half of call_192 *)
Lemma regs6 a b c d p q ju x4 rc : b4 a -> b4 b -> b4 c -> b4 d -> b4 p -> b4 q -> length ju = 8%nat -> length x4 = 16%nat -> dword x4 0 = [0; 0; 0; 0] ->
  let x0 := a ++ b ++ c ++ d in let x2 := p ++ q ++ ju in
  let t := xor_list (SubWord (RotWord q)) [rc; 0; 0; 0] in
  let n0 := xor_list a t in let n1 := xor_list b n0 in let n2 := xor_list c n1 in let n3 := xor_list d n2 in let n4 := xor_list p n3 in let n5 := xor_list q n4 in
  let y0 := shX x0 x4 (pshufd 85 (keygenassist rc x2)) in let y2 := xor_list (xor_list x2 (pshufd 255 y0)) (pslldq 4 x2) in
  y0 = n0 ++ n1 ++ n2 ++ n3 /\ (exists ju', length ju' = 8%nat /\ y2 = n4 ++ n5 ++ ju') /\ shufps 68 y0 x2 = p ++ q ++ n0 ++ n1 /\ shufps 78 y2 y0 = n2 ++ n3 ++ n4 ++ n5 /\
  length (shX4 x0 x4) = 16%nat /\ dword (shX4 x0 x4) 0 = [0; 0; 0; 0].
Proof.
  intros [_ La] [_ Lb] [_ Lc] [_ Ld] [_ Lp] [_ Lq] Lj L4 Z4. cbv zeta.
  assert (L0 : length (a ++ b ++ c ++ d) = 16%nat) by (rewrite !app_length; lia).
  assert (Ep : pshufd 85 (keygenassist rc (p ++ q ++ ju)) = let t := xor_list (SubWord (RotWord q)) [rc; 0; 0; 0] in t ++ t ++ t ++ t).
  { rewrite <- rot_sub by exact Lq. unfold keygenassist, pshufd. cbv zeta.
    assert (D1 : dword (p ++ q ++ ju) 1 = q) by (destruct (list4 p Lp) as (? & ? & ? & ? & ->), (list4 q Lq) as (? & ? & ? & ? & ->); reflexivity).
    rewrite D1. assert (S1 : length (SubWord q) = 4%nat) by (rewrite sub_len; exact Lq).
    destruct (list4 _ S1) as (e & f & g & h & ->). reflexivity. }
  set (t := xor_list (SubWord (RotWord q)) [rc; 0; 0; 0]) in *. cbv zeta in Ep. rewrite Ep.
  assert (Lt : length t = 4%nat) by (unfold t; rewrite xor_list_length, <- rot_sub by exact Lq; destruct (list4 q Lq) as (? & ? & ? & ? & ->); reflexivity).
  destruct (sh_okt (a ++ b ++ c ++ d) x4 t L0 L4 Z4 Lt) as (S1 & S2 & S3). rewrite S1. clearbody t. clear Ep.
  assert (Ex : xp (a ++ b ++ c ++ d) t = xor_list a t ++ xor_list b (xor_list a t) ++ xor_list c (xor_list b (xor_list a t)) ++ xor_list d (xor_list c (xor_list b (xor_list a t)))).
  { destruct (list4 a La) as (? & ? & ? & ? & ->), (list4 b Lb) as (? & ? & ? & ? & ->), (list4 c Lc) as (? & ? & ? & ? & ->), (list4 d Ld) as (? & ? & ? & ? & ->). reflexivity. }
  rewrite Ex. assert (LX : forall x y, length x = 4%nat -> length y = 4%nat -> length (xor_list x y) = 4%nat) by (intros x y Hx Hy; rewrite xor_list_length; lia).
  set (n0 := xor_list a t). assert (M0 : length n0 = 4%nat) by (apply LX; assumption). clearbody n0.
  set (n1 := xor_list b n0). assert (M1 : length n1 = 4%nat) by (apply LX; assumption). clearbody n1.
  set (n2 := xor_list c n1). assert (M2 : length n2 = 4%nat) by (apply LX; assumption). clearbody n2.
  set (n3 := xor_list d n2). assert (M3 : length n3 = 4%nat) by (apply LX; assumption). clearbody n3.
  destruct (list4 n0 M0) as (? & ? & ? & ? & ->), (list4 n1 M1) as (? & ? & ? & ? & ->), (list4 n2 M2) as (? & ? & ? & ? & ->), (list4 n3 M3) as (? & ? & ? & ? & ->).
  destruct (list4 p Lp) as (? & ? & ? & ? & ->), (list4 q Lq) as (? & ? & ? & ? & ->).
  destruct ju as [|j0 [|j1 [|j2 [|j3 [|j4 [|j5 [|j6 [|j7 [|]]]]]]]]]; try discriminate.
  assert (Hc : forall u n v, Z.lxor (Z.lxor u n) v = Z.lxor u (Z.lxor v n)) by (intros u n v; rewrite Z.lxor_assoc, (Z.lxor_comm n); reflexivity).
  split; [reflexivity|]. split; [|split; [reflexivity|split; [|split; assumption]]].
  - eexists [_; _; _; _; _; _; _; _]. split; [reflexivity|].
    unfold pslldq, pshufd. change (sel 255 0) with 3%nat. change (sel 255 1) with 3%nat. change (sel 255 2) with 3%nat. change (sel 255 3) with 3%nat. change (Z.to_nat 4) with 4%nat.
    cbn [dword slice firstn skipn Nat.mul Nat.add app xor_list repeat].
    rewrite !Z.lxor_0_r, !Hc. reflexivity.
  - unfold shufps, pslldq, pshufd. change (sel 255 0) with 3%nat. change (sel 255 1) with 3%nat. change (sel 255 2) with 3%nat. change (sel 255 3) with 3%nat. change (Z.to_nat 4) with 4%nat.
    change (sel 78 0) with 2%nat. change (sel 78 1) with 3%nat. change (sel 78 2) with 0%nat. change (sel 78 3) with 1%nat.
    cbn [dword slice firstn skipn Nat.mul Nat.add app xor_list repeat].
    rewrite !Z.lxor_0_r, !Hc. reflexivity.
Qed.

Definition I192 (key E0 D : list Z) (i : nat) (w : list (list Z)) (s : st) : Prop :=
  exists u a b c d p q ju x4, w = u ++ [a; b; c; d; p; q] /\ length u = (12 * i)%nat /\ wok w /\ length ju = 8%nat /\ length x4 = 16%nat /\ dword x4 0 = [0; 0; 0; 0] /\
    KS (42 + 4 * i) (3 * i + 1) 12 (24%nat, key) (concat (u ++ [a; b; c; d]) ++ skipn (16 * (3 * i + 1)) E0) D (a ++ b ++ c ++ d) (Some (p ++ q ++ ju)) x4 s.
Lemma wok_app u v : wok (u ++ v) <-> wok u /\ wok v.
Proof. apply Forall_app. Qed.
Lemma step_192 key E0 D i w s : (i < 4)%nat -> length E0 = 240%nat -> I192 key E0 D i w s ->
  exists s', run expandKeyAsm (args 12) 37 s = Running s' /\ I192 key E0 D (i + 1) (expand 6 12 w) s'.
Proof.
  intros Hi LE (u & a & b & c & d & p & q & ju & x4 & Ew & Lu & Hw & Lj & L4 & Z4 & K).
  destruct (call_192 i _ _ _ _ _ _ _ _ Hi K) as (s' & Hrun & K'). exists s'. split; [exact Hrun|]. clear Hrun K.
  pose proof Hw as Hw0. rewrite Ew in Hw0. apply wok_app in Hw0. destruct Hw0 as [Wu Wx].
  unfold wok in Wx. repeat match goal with H : Forall _ (_ :: _) |- _ => inversion H; clear H; subst end. 
  match goal with
  | A1 : bytes a /\ _, B1 : bytes b /\ _, C1 : bytes c /\ _, D1 : bytes d /\ _, P1 : bytes p /\ _, Q1 : bytes q /\ _ |- _ =>
    rename A1 into Ha, B1 into Hb, C1 into Hc, D1 into Hd, P1 into Hp, Q1 into Hq
  end.
  destruct (regs6 a b c d p q ju x4 (xpow (2 * i)) Ha Hb Hc Hd Hp Hq Lj L4 Z4) as (Y0 & (ju1 & Lj1 & Y2) & F1 & F2 & L41 & Z41). cbv zeta in K'.
  set (t := xor_list (SubWord (RotWord q)) [xpow (2 * i); 0; 0; 0]) in *.
  assert (Bt : b4 t).
  { pose proof (RotWord_ok q (proj1 Hq) (proj2 Hq)) as [R1 R2]. apply b4_xor; [exact (SubWord_ok _ R1 R2)|]. replace [xpow (2 * i); 0; 0; 0] with (Rcon (2 * i + 1)); [apply Rcon_b4|].
    unfold Rcon. replace (2 * i + 1 - 1)%nat with (2 * i)%nat by lia. reflexivity. }
  pose proof (grow6 u (2 * i) a b c d p q ltac:(lia)) as G. cbv zeta in G.
  replace (xor_list (SubWord (RotWord q)) (Rcon (2 * i + 1))) with t in G by (unfold t, Rcon; replace (2 * i + 1 - 1)%nat with (2 * i)%nat by lia; reflexivity). clearbody t.
  set (n0 := xor_list a t) in *. set (n1 := xor_list b n0) in *. set (n2 := xor_list c n1) in *. set (n3 := xor_list d n2) in *. set (n4 := xor_list p n3) in *. set (n5 := xor_list q n4) in *.
  assert (N0 : b4 n0) by (apply b4_xor; assumption). assert (N1 : b4 n1) by (apply b4_xor; assumption). assert (N2 : b4 n2) by (apply b4_xor; assumption).
  assert (N3 : b4 n3) by (apply b4_xor; assumption). assert (N4 : b4 n4) by (apply b4_xor; assumption). assert (N5 : b4 n5) by (apply b4_xor; assumption).
  clearbody n0 n1 n2 n3 n4 n5. rewrite F1, F2 in K'. clear F1 F2. rewrite Y2 in K'. rewrite Y0 in K'. clear Y0 Y2.
  destruct (regs6 n0 n1 n2 n3 n4 n5 ju1 (shX4 (a ++ b ++ c ++ d) x4) (xpow (2 * i + 1)) N0 N1 N2 N3 N4 N5 Lj1 L41 Z41) as (Y0 & (ju2 & Lj2 & Y2) & _ & _ & L42 & Z42).
  set (t' := xor_list (SubWord (RotWord n5)) [xpow (2 * i + 1); 0; 0; 0]) in *.
  assert (Bt' : b4 t').
  { pose proof (RotWord_ok n5 (proj1 N5) (proj2 N5)) as [R1 R2]. apply b4_xor; [exact (SubWord_ok _ R1 R2)|]. replace [xpow (2 * i + 1); 0; 0; 0] with (Rcon (2 * i + 2)); [apply Rcon_b4|].
    unfold Rcon. replace (2 * i + 2 - 1)%nat with (2 * i + 1)%nat by lia. reflexivity. }
  pose proof (grow6 (u ++ [a; b; c; d; p; q]) (2 * i + 1) n0 n1 n2 n3 n4 n5 ltac:(rewrite app_length; cbn [length]; lia)) as G'. cbv zeta in G'.
  replace (xor_list (SubWord (RotWord n5)) (Rcon (2 * i + 1 + 1))) with t' in G' by (unfold t', Rcon; replace (2 * i + 1 + 1 - 1)%nat with (2 * i + 1)%nat by lia; reflexivity). clearbody t'.
  set (m0 := xor_list n0 t') in *. set (m1 := xor_list n1 m0) in *. set (m2 := xor_list n2 m1) in *. set (m3 := xor_list n3 m2) in *. set (m4 := xor_list n4 m3) in *. set (m5 := xor_list n5 m4) in *.
  assert (M0 : b4 m0) by (apply b4_xor; assumption). assert (M1 : b4 m1) by (apply b4_xor; assumption). assert (M2 : b4 m2) by (apply b4_xor; assumption).
  assert (M3 : b4 m3) by (apply b4_xor; assumption). assert (M4 : b4 m4) by (apply b4_xor; assumption). assert (M5 : b4 m5) by (apply b4_xor; assumption).
  clearbody m0 m1 m2 m3 m4 m5. rewrite Y2 in K'. rewrite Y0 in K'. clear Y0 Y2.
  rewrite (expand_add 6 6 6 _ : expand 6 12 _ = _), G, G'. clear G G'.
  exists ((u ++ [a; b; c; d; p; q]) ++ [n0; n1; n2; n3; n4; n5]), m0, m1, m2, m3, m4, m5, ju2, (shX4 (n0 ++ n1 ++ n2 ++ n3) (shX4 (a ++ b ++ c ++ d) x4)).
  split; [reflexivity|]. split; [rewrite !app_length; cbn [length]; lia|]. split.
  { apply wok_app. split; [apply wok_app; split; [exact Hw|]|]; (repeat (constructor; [assumption|])); constructor. }
  split; [exact Lj2|]. split; [exact L42|]. split; [exact Z42|].
  assert (EE : blit (blit (blit (concat (u ++ [a; b; c; d]) ++ skipn (16 * (3 * i + 1)) E0) (16 * (3 * i + 1)) (p ++ q ++ n0 ++ n1)) (16 * (3 * i + 2)) (n2 ++ n3 ++ n4 ++ n5)) (16 * (3 * i + 3)) (m0 ++ m1 ++ m2 ++ m3) =
    concat (((u ++ [a; b; c; d; p; q]) ++ [n0; n1; n2; n3; n4; n5]) ++ [m0; m1; m2; m3]) ++ skipn (16 * (3 * (i + 1) + 1)) E0).
  { assert (LC : length (concat (u ++ [a; b; c; d])) = (16 * (3 * i + 1))%nat).
    { rewrite concat4; [rewrite app_length; cbn [length]; lia|]. apply wok4, wok_app. split; [exact Wu|]. repeat (constructor; [assumption|]); constructor. }
    assert (LN : forall x y z v, b4 x -> b4 y -> b4 z -> b4 v -> length (x ++ y ++ z ++ v) = 16%nat) by (intros x y z v [_ X] [_ Y] [_ Z] [_ V]; rewrite !app_length; lia).
    assert (S1 := LN p q n0 n1 Hp Hq N0 N1). assert (S2 := LN n2 n3 n4 n5 N2 N3 N4 N5). assert (S3 := LN m0 m1 m2 m3 M0 M1 M2 M3).
    rewrite (blit_at _ _ _ _ LC) by (rewrite S1, skipn_length; lia). rewrite S1, skipn_skipn'.
    set (C := concat (u ++ [a; b; c; d])) in *. set (X1 := p ++ q ++ n0 ++ n1) in *. set (X2 := n2 ++ n3 ++ n4 ++ n5) in *. set (X3 := m0 ++ m1 ++ m2 ++ m3) in *.
    assert (LC1 : length (C ++ X1) = (16 * (3 * i + 2))%nat) by (rewrite app_length; lia). assert (LC2 : length ((C ++ X1) ++ X2) = (16 * (3 * i + 3))%nat) by (rewrite app_length; lia).
    rewrite (blit_at _ _ _ _ LC1) by (rewrite S2, skipn_length; lia). rewrite S2, skipn_skipn'.
    rewrite (blit_at _ _ _ _ LC2) by (rewrite S3, skipn_length; lia). rewrite S3, skipn_skipn'. unfold C, X1, X2, X3.
    replace (16 * (3 * (i + 1) + 1))%nat with (16 * (3 * i + 1) + 16 + 16 + 16)%nat by lia. f_equal.
    rewrite !concat_app. cbn [concat]. rewrite !app_nil_r, <- !app_assoc. reflexivity. }
  rewrite <- EE. replace (42 + 4 * (i + 1))%nat with (42 + 4 * (i + 1))%nat by lia. exact K'.
Qed.
Lemma start_192 key E0 D : bytes key -> length key = 24%nat -> length E0 = 240%nat ->
  exists s, run expandKeyAsm (args 12) 11 (entry [(24%nat, key); (240%nat, E0); (240%nat, D)]) = Running s /\ I192 key E0 D 0 (chunks 4 key) s.
Proof.
  intros B L LE. destruct (chunks_wok key 6 B L) as [W Lw]. pose proof (chunks_concat key 6 L) as EC.
  destruct (chunks 4 key) as [|a [|b [|c [|d [|p [|q [|]]]]]]]; try discriminate. pose proof (wok4 _ W) as W4.
  assert (E1 : slice key 0 16 = a ++ b ++ c ++ d).
  { rewrite <- EC. pose proof (firstn_concat _ W4 4) as F. change (4 * 4)%nat with 16%nat in F. unfold slice. change (skipn 0 ?l) with l. rewrite F. cbn [firstn concat]. rewrite app_nil_r. reflexivity. }
  assert (E2 : slice key 16 8 = p ++ q).
  { rewrite <- EC. pose proof (skipn_concat _ W4 4) as F. change (4 * 4)%nat with 16%nat in F. unfold slice. rewrite F. cbn [skipn concat]. rewrite app_nil_r. apply firstn_all2.
    inversion W4 as [|? ? ? X1]; inversion X1 as [|? ? ? X2]; inversion X2 as [|? ? ? X3]; inversion X3 as [|? ? ? X4]; inversion X4 as [|? ? HP X5]; inversion X5 as [|? ? HQ X6]. rewrite app_length. lia. }
  eexists. split; [lazy -[slice blit app]; reflexivity|]. exists [], a, b, c, d, p, q, (repeat 0 8), (repeat 0 16).
  split; [reflexivity|]. split; [reflexivity|]. split; [exact W|]. split; [reflexivity|]. split; [reflexivity|]. split; [reflexivity|].
  assert (S1 : length (slice key 0 16) = 16%nat) by (apply slice_length; lia).
  assert (EE : blit E0 0 (slice key 0 16) = concat ([] ++ [a; b; c; d]) ++ skipn (16 * (3 * 0 + 1)) E0).
  { change E0 with ([] ++ E0) at 1. rewrite (blit_at [] E0 (slice key 0 16) 0 eq_refl) by lia. rewrite S1, E1. cbn [app concat]. rewrite app_nil_r. reflexivity. }
  rewrite <- EE, <- E1, (app_assoc p q), <- E2. do 7 eexists. reflexivity.
Qed.
Theorem expand_192 key E0 D : bytes key -> length key = 24%nat -> length E0 = 240%nat -> length D = 240%nat ->
  memOf (run expandKeyAsm (args 12) fuel (entry [(24%nat, key); (240%nat, E0); (240%nat, D)])) =
    Some [(24%nat, key); (240%nat, concat (KeyExpansion key) ++ skipn 208 E0); (240%nat, concat (dec_sched (KeyExpansion key)) ++ skipn 208 D)].
Proof.
  intros B L LE LD. destruct (start_192 key E0 D B L LE) as (s0 & R0 & I0).
  destruct (step_192 key E0 D 0 _ _ ltac:(lia) LE I0) as (s1 & R1 & I1). destruct (step_192 key E0 D 1 _ _ ltac:(lia) LE I1) as (s2 & R2 & I2).
  destruct (step_192 key E0 D 2 _ _ ltac:(lia) LE I2) as (s3 & R3 & I3). destruct (step_192 key E0 D 3 _ _ ltac:(lia) LE I3) as (s4 & R4 & I4).
  clear I0 I1 I2 I3. destruct I4 as (u & a & b & c & d & p & q & ju & x4 & Ew & Lu & Hw & _ & _ & _ & K).
  assert (EK : KeyExpansion key = u ++ [a; b; c; d]).
  { assert (EX : expand 6 2 (KeyExpansion key) = u ++ [a; b; c; d; p; q]).
    { rewrite <- Ew. unfold KeyExpansion. rewrite L. change (24 / 4)%nat with 6%nat. change (4 * (6 + 7) - 6)%nat with (12 + (12 + (12 + 10)))%nat. rewrite !expand_add.
      rewrite <- (expand_add 6 10 2). reflexivity. }
    cbn [expand] in EX. replace (u ++ [a; b; c; d; p; q]) with (((u ++ [a; b; c; d]) ++ [p]) ++ [q]) in EX by (rewrite <- !app_assoc; reflexivity).
    apply app_inj_tail in EX. destruct EX as [EX _]. apply app_inj_tail in EX. apply EX. }
  rewrite <- EK in K. assert (W : wok (KeyExpansion key)).
  { rewrite EK. rewrite Ew in Hw. change [a; b; c; d; p; q] with ([a; b; c; d] ++ [p; q]) in Hw. rewrite app_assoc in Hw. apply wok_app in Hw. apply Hw. }
  assert (Lw : length (KeyExpansion key) = (4 * (12 + 1))%nat) by (rewrite EK, app_length; cbn [length]; lia).
  set (w := KeyExpansion key) in *. clearbody w.
  assert (R5 : exists s5, run expandKeyAsm (args 12) 1 s4 = Running s5 /\ KS 79 13 12 (24%nat, key) (concat w ++ skipn 208 E0) D (a ++ b ++ c ++ d) (Some (p ++ q ++ ju)) x4 s5).
  { destruct K as (x1 & x3 & x5 & x6 & x7 & z & cc & ->). eexists. split; [reflexivity|]. repeat eexists. }
  destruct R5 as (s5 & R5 & K5). pose proof (dec_phase 12 _ _ _ _ _ _ _ ltac:(auto) K5) as H. rewrite (dec_fold_ok w (skipn 208 E0) 12 D W Lw ltac:(lia)) in H.
  change fuel with (11 + (37 + (37 + (37 + (37 + (1 + (120 + 720)))))))%nat.
  rewrite run_add, R0, run_add, R1, run_add, R2, run_add, R3, run_add, R4, run_add, R5. apply run_halt. exact H.
Qed.
