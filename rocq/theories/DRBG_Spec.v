(* NIST SP 800-90A Rev. 1, 10.2.1: CTR_DRBG with AES-256 and no derivation function. *)
From Coq Require Import ZArith List.
From Verif Require Import Lib AES_Spec.
Import ListNotations.
Open Scope Z_scope.

Record wstate := mkW { Key : list Z; V : list Z }.

(* V = (V + 1) mod 2^blocklen *)
Definition incV (v : list Z) : list Z := be_enc 16 ((be_dec v + 1) mod 2 ^ 128).
(* n rounds of: V = V + 1; temp = temp || Block_Encrypt(Key, V) *)
Fixpoint blocks (n : nat) (K v : list Z) : list Z * list Z :=
  match n with
  | O => ([], v)
  | S n' => let v := incV v in
            let '(t, v') := blocks n' K v in (AES_encrypt K v ++ t, v')
  end.
(* 10.2.1.2 *)
Definition Update (data : list Z) (s : wstate) : wstate :=
  let temp := fst (blocks 3 (Key s) (V s)) in
  let temp := xor_list (firstn 48 temp) data in
  mkW (firstn 32 temp) (skipn 32 temp).
(* additional data and personalization strings are padded with zeros to seedlen *)
Definition pad48 (x : list Z) : list Z := firstn 48 (x ++ repeat 0 48).
(* 10.2.1.3.1 *)
Definition Instantiate (entropy pers : list Z) : wstate :=
  Update (xor_list (pad48 entropy) (pad48 pers)) (mkW (repeat 0 32) (repeat 0 16)).
(* 10.2.1.4.1 *)
Definition ReseedS (s : wstate) (entropy addin : list Z) : wstate :=
  Update (xor_list (pad48 entropy) (pad48 addin)) s.
(* 10.2.1.5.1: n requested bytes *)
Definition Generate (s : wstate) (n : nat) (addin : list Z) : list Z * wstate :=
  let '(s, a) := match addin with
                 | [] => (s, repeat 0 48)
                 | _ => (Update (pad48 addin) s, pad48 addin)
                 end in
  let '(temp, v) := blocks ((n + 15) / 16) (Key s) (V s) in
  (firstn n temp, Update a (mkW (Key s) v)).

Inductive op := OReseed (entropy addin : list Z) | OGenerate (n : nat) (addin : list Z).
Definition step (s : wstate) (o : op) : wstate * list Z :=
  match o with
  | OReseed e a => (ReseedS s e a, [])
  | OGenerate n a => let '(out, s') := Generate s n a in (s', out)
  end.
Fixpoint run (s : wstate) (l : list op) : list (list Z) :=
  match l with [] => [] | o :: l' => let '(s', out) := step s o in out :: run s' l' end.
