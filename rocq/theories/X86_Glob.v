(* Programs that do not mention package variables run the same whatever those are. *)
From Coq Require Import ZArith List Bool.
From Verif Require Import Lib X86.
Import ListNotations.
Open Scope Z_scope.

Definition noGo (o : opd) : bool := match o with G _ _ => false | _ => true end.
(* the xmm instructions are left out *)
Definition noGi (i : instr) : bool :=
  match i with
  | MOV a b | ADD a b | ADC a b | SUB a b | SBB a b | AND a b | XOR a b => noGo a && noGo b
  | MUL a | MULX a _ _ | ADCX a _ | ADOX a _ | NEG a | BT0 a | MOVZXB a _ => noGo a
  | _ => false
  end.
Section Glob.
Variables (D : dom) (g : list (list (W D))).
Definition regl (s : st D) : st D := mkSt (regs s) (args s) (mem s) g (cf s) (ovf s) (tt s).
Lemma rd_regl s o : noGo o = true -> rd D (regl s) o = rd D s o.
Proof. destruct o; cbn [noGo]; intro H; try discriminate; reflexivity. Qed.
Lemma rdw_regl s o : noGo o = true -> rdw D (regl s) o = rdw D s o.
Proof. intro H. unfold rdw. rewrite rd_regl by exact H. reflexivity. Qed.
Lemma wr_regl s o v : wr D (regl s) o v = option_map regl (wr D s o v).
Proof.
  destruct o; try reflexivity. cbn [wr]. unfold store. change (rreg D (regl s) r) with (rreg D s r).
  destruct (rreg D s r) as [[| | |]|]; try reflexivity. cbn [regl mem]. destruct (nth_error (mem s) b); [|reflexivity].
  destruct (widx (o + d)); [|reflexivity]. destruct (n <? length l)%nat; reflexivity.
Qed.
Lemma arith_regl op s a b c f : noGo a = true -> noGo b = true -> arith D op (regl s) a b c f = option_map regl (arith D op s a b c f).
Proof.
  intros Ha Hb. unfold arith. rewrite !rdw_regl by assumption. destruct (rdw D s a); [|reflexivity]. destruct (rdw D s b); [|reflexivity]. destruct c; [|reflexivity].
  cbn [regl tt]. destruct (op (tt s) _ _ _) as [[t v] c']. rewrite <- wr_regl. reflexivity.
Qed.
Lemma logic_regl op s a b : noGo a = true -> noGo b = true -> logic D op (regl s) a b = option_map regl (logic D op s a b).
Proof.
  intros Ha Hb. unfold logic. rewrite !rdw_regl by assumption. destruct (rdw D s a); [|reflexivity]. destruct (rdw D s b); [|reflexivity].
  destruct (op _ _); [|reflexivity]. rewrite <- wr_regl. reflexivity.
Qed.
Lemma step_regl i s : noGi i = true -> step D i (regl s) = option_map regl (step D i s).
Proof.
  destruct i; cbn [noGi]; intro H; try discriminate; try (apply andb_prop in H as [H1 H2]).
  - cbn [step]. rewrite rd_regl by assumption. destruct (rd D s src); [apply wr_regl|reflexivity].
  - apply arith_regl; assumption.
  - apply (arith_regl _ s); assumption.
  - apply arith_regl; assumption.
  - apply (arith_regl _ s); assumption.
  - apply logic_regl; assumption.
  - cbn [step]. destruct src, dst; try (apply logic_regl; assumption). destruct (rn r =? rn r0)%nat; [reflexivity|]. apply logic_regl; assumption.
  - cbn [step]. rewrite !rdw_regl by (assumption || reflexivity). destruct (rdw D s src); [|reflexivity]. destruct (rdw D s (R AX)); [|reflexivity].
    cbn [regl tt]. destruct (mulw D (tt s) _ _) as [[t h] l]. reflexivity.
  - cbn [step]. rewrite !rdw_regl by (assumption || reflexivity). destruct (rdw D s src); [|reflexivity]. destruct (rdw D s (R DX)); [|reflexivity].
    cbn [regl tt]. destruct (mulw D (tt s) _ _) as [[t h] l]. reflexivity.
  - apply (arith_regl _ s); [assumption|reflexivity].
  - apply (arith_regl _ s); [assumption|reflexivity].
  - cbn [step]. rewrite !rdw_regl by assumption. destruct (rdw D s dst); [|reflexivity]. cbn [regl tt]. destruct (sbb D (tt s) _ _ _) as [[t v] c].
    rewrite <- wr_regl. reflexivity.
  - cbn [step]. rewrite !rdw_regl by assumption. destruct (rdw D s src); [|reflexivity]. destruct (bt0 D _); reflexivity.
  - cbn [step]. rewrite !rdw_regl by assumption. destruct (rdw D s src); [|reflexivity]. destruct (zxb D _); reflexivity.
Qed.
Lemma run_regl f : forall p s, forallb noGi p = true -> run D f p (regl s) = option_map regl (run D f p s).
Proof.
  induction f as [|f IH]; intros p s H; [reflexivity|]. destruct p as [|i p]; [reflexivity|]. cbn [forallb] in H. apply andb_prop in H as [H1 H2].
  pose proof (step_regl i s H1) as E.
  assert (Er : forall q, (match i with JFLAG _ _ => False | _ => True end) -> run D (S f) (i :: p) q = match step D i q with Some s' => run D f p s' | None => None end).
  { intros q Hi. destruct i; try contradiction; reflexivity. }
  assert (Hi : match i with JFLAG _ _ => False | _ => True end) by (destruct i; try exact I; discriminate).
  rewrite !Er by exact Hi. rewrite E. destruct (step D i s); [apply IH, H2|reflexivity].
Qed.
End Glob.
Theorem call_glob n code args blocks g g' bp : forallb noGi code = true -> call n code args blocks g bp = call n code args blocks g' bp.
Proof.
  intro H. unfold call. change (start zdom Datatypes.tt bp n args blocks g) with (regl zdom g (start zdom Datatypes.tt bp n args blocks g')).
  rewrite run_regl by exact H. destruct (run zdom maxSteps code _); reflexivity.
Qed.
