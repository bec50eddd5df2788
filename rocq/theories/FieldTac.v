(* nsatz for abstract fields. *)
From Coq Require Import ZArith Field NsatzTactic.
From Verif Require Import FieldAlg.

Section I.
  Variable F : fld.
  Add Field Ff : (k_th F).
  Global Instance F_ops : @Ring_ops F k0 k1 kadd kmul ksub kopp (@eq F) := {}.
  Global Instance F_ring : Ring (Ro := F_ops).
  Proof.
    split; try exact _; intros; try (apply eq_equivalence); try (repeat intro; subst; reflexivity);
    unfold equality, eq_notation, addition, add_notation, multiplication, mul_notation, subtraction, sub_notation,
      opposite, opp_notation, zero, zero_notation, one, one_notation; ring.
  Qed.
  Global Instance F_cring : Cring (Rr := F_ring).
  Proof. intros x y. change (kmul x y = kmul y x). ring. Qed.
  Global Instance F_dom : Integral_domain (Rcr := F_cring).
  Proof. split; [intros x y H; exact (k_integral F x y H) | exact (k_one_nz F)]. Qed.
End I.
