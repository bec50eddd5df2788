(* The constants of the three SIDH packages meet the requirements of the field proofs. *)
From Coq Require Import ZArith List Lia Bool Znumtheory.
From Verif Require Import Lib MP NT PrimeCerts SIDH_Consts SIDH_Field SIDH_FieldProofs SIDH_Fp2Proofs FieldAlg.
Import ListNotations.
Open Scope Z_scope.

Definition p434 : Z := 2 ^ 216 * 3 ^ 137 - 1.
Definition p503 : Z := 2 ^ 250 * 3 ^ 159 - 1.
Definition p751 : Z := 2 ^ 372 * 3 ^ 239 - 1.

Definition words_b (l : list Z) : bool := forallb (fun w => (0 <=? w) && (w <? B)) l.
Lemma words_b_ok : forall l, words_b l = true -> words l.
Proof.
  intros l H. unfold words_b in H. rewrite forallb_forall in H. apply Forall_forall. intros x Hx.
  apply H in Hx. unfold is_w64. lia.
Qed.
Definition elt_b (n : nat) (l : list Z) (x : Z) : bool := words_b l && Nat.eqb (length l) n && (val l =? x).
Lemma elt_b_ok : forall n l x, elt_b n l x = true -> words l /\ length l = n /\ val l = x.
Proof.
  intros n l x H. unfold elt_b in H. apply andb_prop in H. destruct H as [H H3]. apply andb_prop in H. destruct H as [H1 H2].
  split; [apply words_b_ok; exact H1|]. split; [apply Nat.eqb_eq; exact H2 | apply Z.eqb_eq; exact H3].
Qed.
Definition field_b (F : fieldParams) (p : Z) : bool :=
  let n := FpWords F in let R := B ^ Z.of_nat n in
  Nat.leb 1 n && (Z.of_nat n <? 2 ^ 32) && elt_b n (fP F) p && elt_b n (fPx2 F) (2 * p) && elt_b n (fPp1 F) (p + 1) &&
  elt_b n (fR2 F) (R * R mod p) && (1 <=? fp1Zeros F) &&
  forallb (fun w => w =? 0) (firstn (Z.to_nat (fp1Zeros F)) (fPp1 F)) && (16 * p <=? R) && (p mod 4 =? 3).
Lemma field_b_ok : forall F p, prime p -> field_b F p = true -> field_ok F p.
Proof.
  intros F p Hp H. unfold field_b in H. repeat (apply andb_prop in H; destruct H as [H ?]).
  repeat match goal with h : elt_b _ _ _ = true |- _ => apply elt_b_ok in h end.
  constructor; auto; try lia.
  - apply Nat.leb_le. assumption.
  - intros j Hj. destruct (Nat.lt_ge_cases j (length (firstn (Z.to_nat (fp1Zeros F)) (fPp1 F)))) as [L|L].
    + rewrite <- (firstn_skipn (Z.to_nat (fp1Zeros F)) (fPp1 F)), app_nth1 by assumption.
      match goal with h : forallb _ _ = true |- _ => rewrite forallb_forall in h; specialize (h _ (nth_In _ 0 L)) end.
      lia.
    + rewrite firstn_length in L. apply nth_overflow. lia.
Qed.
Definition strategy34_b (F : fieldParams) (p : Z) : bool :=
  Nat.ltb (initialMul F) 16 && forallb (fun m => (0 <=? m) && (m <? 16)) (mulStrategy F) && (p34_exp F =? (p - 3) / 4).
Lemma strategy34_b_ok : forall F p, strategy34_b F p = true -> strategy34_ok F p.
Proof.
  intros F p H. unfold strategy34_b in H. apply andb_prop in H. destruct H as [H H3]. apply andb_prop in H. destruct H as [H1 H2].
  split; [apply Nat.ltb_lt; exact H1|]. split; [|apply Z.eqb_eq; exact H3].
  intros m Hm. rewrite forallb_forall in H2. apply H2 in Hm. lia.
Qed.

Theorem ok434 : field_ok f434 p434. Proof. apply field_b_ok; [exact p434_prime | vm_compute; reflexivity]. Qed.
Theorem ok503 : field_ok f503 p503. Proof. apply field_b_ok; [exact p503_prime | vm_compute; reflexivity]. Qed.
Theorem ok751 : field_ok f751 p751. Proof. apply field_b_ok; [exact p751_prime | vm_compute; reflexivity]. Qed.
Theorem s34_434 : strategy34_ok f434 p434. Proof. apply strategy34_b_ok. vm_compute. reflexivity. Qed.
Theorem s34_503 : strategy34_ok f503 p503. Proof. apply strategy34_b_ok. vm_compute. reflexivity. Qed.
Theorem s34_751 : strategy34_ok f751 p751. Proof. apply strategy34_b_ok. vm_compute. reflexivity. Qed.

(* the three supported fields *)
Definition sidh_field (F : fieldParams) (p : Z) : Prop := (F = f434 /\ p = p434) \/ (F = f503 /\ p = p503) \/ (F = f751 /\ p = p751).
Lemma sidh_field_ok : forall F p, sidh_field F p -> field_ok F p.
Proof. intros F p [[-> ->]|[[-> ->]|[-> ->]]]; [exact ok434|exact ok503|exact ok751]. Qed.
Lemma sidh_field_s34 : forall F p, sidh_field F p -> strategy34_ok F p.
Proof. intros F p [[-> ->]|[[-> ->]|[-> ->]]]; [exact s34_434|exact s34_503|exact s34_751]. Qed.
