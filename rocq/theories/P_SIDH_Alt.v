(* C81: the alternative API of dh/sidh: key generation without errors, and Init of used keys. *)
From Coq Require Import ZArith List Lia Bool.
From Verif Require Import Lib MP Instr SIDH_Consts SIDH_Field SIDH_FieldProofs SIDH_Inst SIDH_Curve SIDH_Line SIDH_Traverse SIDH_Bytes P_SIDH_Field SIDH_Final SIDH_Api SIDH_ApiProofs P_SIDH_Api SIDH_Alt.
Import ListNotations.
Open Scope Z_scope.

(* with enough bytes it is Generate, for which see C44 *)
Theorem C81_enough : forall k rng, shaped k -> bytes rng -> (need k <= length rng)%nat ->
  exists k', Generate k rng = Ret (k', skipn (need k) rng, false) /\ GeneratePrivateKey k rng = Ret (k', skipn (need k) rng) /\ shaped k'.
Proof.
  intros k rng SH Hb HL.
  assert (D : p434A k \/ ~ p434A k).
  { unfold p434A. destruct SH as (RP & _). destruct (onA (prvVariant k)); [|right; intros [_ X]; discriminate].
    destruct RP as [E|[E|E]]; [left; auto|right; intros [X _]; rewrite E in X; discriminate|right; intros [X _]; rewrite E in X; discriminate]. }
  destruct D as [D|D].
  - destruct (C44_generate_p434A k rng SH Hb HL D) as (k' & E & SH' & _). exists k'. split; [exact E|]. split; [unfold GeneratePrivateKey; rewrite E; reflexivity|exact SH'].
  - destruct (C44_generate k rng SH Hb HL D) as (k' & E & SH' & _). exists k'. split; [exact E|]. split; [unfold GeneratePrivateKey; rewrite E; reflexivity|exact SH'].
Qed.
Print Assumptions C81_enough.

(* with too few it returns as if all were well: the secret bytes are those delivered followed by the ones that were there before, without the fixed top bit *)
Theorem C81_short : forall k rng, shaped k -> (length rng < need k)%nat -> exists s sc,
  GeneratePrivateKey k rng = Ret (mkPrv (prvParams k) (prvVariant k) sc s, []) /\ shaped (mkPrv (prvParams k) (prvVariant k) sc s) /\
  length s = length (prvS k) /\ s ++ sc = rng ++ skipn (length rng) (prvS k ++ Scalar k).
Proof.
  intros [P v sc s] rng (RP & S1 & S2) H. unfold need in H. unfold shaped, GeneratePrivateKey, Generate. cbn [prvParams prvVariant Scalar prvS] in *.
  destruct (v =? KeyVariantSike) eqn:EV.
  - destruct (Nat.lt_ge_cases (length rng) (length s)) as [L|L].
    + rewrite readFull_bad by exact L. eexists. eexists. split; [reflexivity|]. rewrite app_length, skipn_length. split; [split; [exact RP|split; [exact S1|lia]]|].
      split; [lia|]. rewrite skipn_app. replace (length rng - length s)%nat with 0%nat by lia. cbn [skipn]. rewrite app_assoc. reflexivity.
    + rewrite readFull_ok by exact L. cbn [prvParams prvVariant Scalar prvS]. rewrite readFull_bad by (rewrite skipn_length; lia).
      eexists. eexists. split; [reflexivity|]. rewrite app_length, firstn_length, !skipn_length. split; [split; [exact RP|split; lia]|]. split; [lia|].
      rewrite app_assoc, firstn_skipn, skipn_app, (skipn_all2 s) by lia. reflexivity.
  - destruct s; [|cbn [length] in S2; lia]. cbn [app length Nat.add] in *. rewrite readFull_bad by exact H.
    eexists. eexists. split; [reflexivity|]. rewrite app_length, skipn_length. split; [split; [exact RP|split; [lia|reflexivity]]|]. split; reflexivity.
Qed.
Print Assumptions C81_short.

Lemma app_inj_pre (A : Type) (a b c d : list A) : length a = length c -> a ++ b = c ++ d -> a = c /\ b = d.
Proof. revert c. induction a as [|x a IH]; intros [|y c] H E; cbn in *; try discriminate; [auto|]. injection E as -> E. destruct (IH c ltac:(lia) E) as [-> ->]. auto. Qed.
(* a source that fails at once: the key is unchanged, and with a new key the scalar is 0 *)
Theorem C81_dead_source : forall k, shaped k -> GeneratePrivateKey k [] = Ret (k, []).
Proof.
  intros k SH. assert (L : (length (@nil Z) < need k)%nat).
  { destruct SH as (RP & S1 & _). pose proof (reg_sizes _ RP) as Z. destruct Z. unfold need, scalarLen in *. cbn [length]. destruct (onA (prvVariant k)); lia. }
  destruct (C81_short k [] SH L) as (s & sc & E & _ & LS & EQ). rewrite E. cbn [app length skipn] in EQ. destruct (app_inj_pre _ _ _ _ _ LS EQ) as [-> ->]. destruct k; reflexivity.
Qed.
Print Assumptions C81_dead_source.

(* so a key made this way need not be in the key space, nor secret, and nothing tells its owner: with a new key and a dead
   source the scalar is 0, for every field and variant, and both public key generation and key agreement accept it *)
Theorem C81_dead_source_new : forall r id v, later r -> id = Fp434 \/ id = Fp503 \/ id = Fp751 ->
  exists k, NewPrivateKey r id v = Ret k /\ GeneratePrivateKey k [] = Ret (k, []) /\ le_dec (Scalar k) = 0 /\ Forall (eq 0) (prvS k) /\
    (forall pub, pubVariant pub = v -> pID (pubParams pub) = id -> GeneratePublicKey k pub <> Panic) /\
    (forall ss pub, pubVariant pub <> v -> pID (pubParams pub) = id -> SharedSecretSize (prvParams k) <= Z.of_nat (length ss) -> DeriveSecret k ss pub <> Panic).
Proof.
  intros r id v L HI. destruct (C43_new r id v L HI) as (k & E & SH & EV & EI & _ & Z0). exists k. split; [exact E|]. split; [apply C81_dead_source; exact SH|].
  apply Forall_app in Z0. destruct Z0 as [Z1 Z2]. split; [|split; [exact Z2|]].
  { clear - Z1. induction Z1 as [|x l <- _ IH]; [reflexivity|]. cbn [le_dec]. lia. }
  pose proof SH as (RP & _). pose proof (shaped_long k SH) as LE. split.
  - intros pub E1 E2 X. apply (C48_generate k pub RP LE) in X. destruct X as [X|X]; [rewrite EV in X|rewrite EI in X]; contradiction.
  - intros ss pub E1 E2 E3 X. apply (C48_derive k ss pub RP LE) in X. destruct X as [X|[X|X]]; [rewrite EV in X; contradiction|rewrite EI in X; contradiction|lia].
Qed.
Print Assumptions C81_dead_source_new.

Theorem C81_keyspace_refuted : exists r k rng k', later r /\ NewPrivateKey r Fp503 KeyVariantSidhB = Ret k /\ bytes rng /\
  GeneratePrivateKey k rng = Ret (k', []) /\ ~ 2 ^ (bitsOf k' - 1) <= le_dec (Scalar k').
Proof.
  eexists. eexists. exists (repeat 9 5). eexists. split; [apply l_init; reflexivity|]. split; [reflexivity|]. split; [apply Forall_repeat; unfold is_byte; lia|].
  split; [vm_compute; reflexivity|]. vm_compute. intros X. apply X. reflexivity.
Qed.
Print Assumptions C81_keyspace_refuted.

(* Init of a used public key changes the variant and nothing else: the old key is still there *)
Theorem C81_public_init : forall r k v, later r -> registered (pubParams k) -> exists k', pubInit r k v = Ret k' /\
  pubVariant k' = v /\ pubParams k' = pubParams k /\ (forall c, hasCoords k c -> hasCoords k' c) /\ (forall out, pubExport k' out = pubExport k out).
Proof.
  intros r k v L RP. exists (mkPub (pubParams k) v (affine3Pt k)). split.
  - unfold pubInit. destruct (C49_builtin r L) as (A & C & D). destruct RP as [E|[E|E]]; rewrite E; [change (pID params434) with Fp434; rewrite A|change (pID params503) with Fp503; rewrite C|change (pID params751) with Fp751; rewrite D]; reflexivity.
  - split; [reflexivity|]. split; [reflexivity|]. split; [intros c H; exact H|]. intro out. reflexivity.
Qed.
Print Assumptions C81_public_init.
(* and the Import after it mixes the old key into the new one *)
Theorem C81_init_keeps : forall r k v c, later r -> registered (pubParams k) -> hasCoords k c -> first c mod primeOf (pubParams k) <> 0 ->
  let n := Z.to_nat (PublicKeySize (pubParams k)) in
  exists k1 k2 e, pubInit r k v = Ret k1 /\ pubImport k1 (repeat 0 n) = Ret (k2, false) /\ pubExport k2 (repeat 0 n) = Ret e /\ e <> repeat 0 n.
Proof.
  intros r k v c L RP H N n. destruct (C81_public_init r k v L RP) as (k1 & E & _ & EP & HC & _).
  destruct (C42_import_keeps k1 c) as (k2 & e & A & B & D); [rewrite EP; exact RP|apply HC; exact H|rewrite EP; exact N|]. rewrite EP in A, B, D. fold n in A, B, D.
  exists k1, k2, e. auto.
Qed.
Print Assumptions C81_init_keeps.

(* a SIKE key whose source ends inside the scalar: S and the first scalar bytes are new, the rest and the top bit are not *)
Example ex_C81 : exists k, NewPrivateKey [(Fp434, params434)] Fp434 KeyVariantSike = Ret k /\
  GeneratePrivateKey k (repeat 7 20) = Ret (mkPrv params434 KeyVariantSike (repeat 7 4 ++ repeat 0 24) (repeat 7 16), []) /\
  GeneratePrivateKey k (repeat 7 50) = Ret (mkPrv params434 KeyVariantSike (repeat 7 27 ++ [1]) (repeat 7 16), repeat 7 6).
Proof. eexists. split; [reflexivity|]. split; vm_compute; reflexivity. Qed.
Example ex_C81_registry : exists r, later r.
Proof. eexists. apply l_init. reflexivity. Qed.
