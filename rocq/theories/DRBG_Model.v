(* Model of drbg/ctr_drbg.go with the portable cipher (aes.AES).  None = panic.
   The field "resistance" is never used and is left out.  A caller's slice cannot overlap the
   unexported arrays of the struct, so buffers passed to Encrypt are placed at disjoint addresses. *)
From Coq Require Import ZArith List.
From Verif Require Import Lib AES_Model.
Import ListNotations.
Open Scope Z_scope.

(* ctr_drbg.go:27-35 *)
Record CtrDrbg := mkDrbg {
  v : list Z; key : list Z; counter : Z; strength : Z; blockEnc : AES; tmpBlk : list Z }.

(* ctr_drbg.go:37-42 (HasAES false) *)
Definition NewCtrDrbg : CtrDrbg := mkDrbg (repeat 0 16) (repeat 0 32) 0 0 NewCipher (repeat 0 48).

(* ctr_drbg.go:44-53: the loop from index i = n-1 down to 0 *)
Fixpoint inc_loop (n : nat) (b : list Z) : list Z :=
  match n with
  | O => b
  | S i => if nth i b 0 =? 0xff then inc_loop i (upd b i 0)
           else upd b i ((nth i b 0 + 1) mod 256)
  end.
Definition inc (b : list Z) : list Z := inc_loop 16 b.

(* blockEnc.Encrypt(dst, c.v[:]) for dst outside c.v *)
Definition enc_v (a : AES) (dst vv : list Z) : option (list Z) :=
  match Encrypt a (mkSlice 1024 dst) (mkSlice 0 vv) with inl d => Some d | inr _ => None end.

(* ctr_drbg.go:94-98; n iterations from offset i *)
Fixpoint update_loop (n i : nat) (c : CtrDrbg) : option CtrDrbg :=
  match n with
  | O => Some c
  | S n' =>
      let vv := inc (v c) in
      let a := fst (SetKey (blockEnc c) (key c)) in
      match enc_v a (skipn i (tmpBlk c)) vv with
      | None => None
      | Some d => update_loop n' (i + 16)
                    (mkDrbg vv (key c) (counter c) (strength c) a (firstn i (tmpBlk c) ++ d))
      end
  end.
(* ctr_drbg.go:88-106 *)
Definition update (c : CtrDrbg) (data : list Z) : option CtrDrbg :=
  if negb (length data =? 48)%nat then None else
  match update_loop 3 0 c with
  | None => None
  | Some c =>
      let t := xor_list (firstn 48 (tmpBlk c)) data ++ skipn 48 (tmpBlk c) in
      Some (mkDrbg (blit (v c) 0 (skipn 32 t)) (blit (key c) 0 (firstn 32 t)) (counter c) (strength c) (blockEnc c) t)
  end.

(* ctr_drbg.go:57,67-80 and 109-125: zero buffer, copy a, then xor b over its first min(len b, 48) bytes *)
Definition seed_copy (a : list Z) : list Z := blit (repeat 0 48) 0 (firstn (Nat.min (length a) 48) a).
Fixpoint xor_into (buf b : list Z) : list Z :=
  match b, buf with
  | y :: b', x :: buf' => Z.lxor x y :: xor_into buf' b'
  | _, _ => buf
  end.
Definition seed_buf (a b : list Z) : list Z := xor_into (seed_copy a) (firstn (Nat.min (length b) 48) b).

(* ctr_drbg.go:55-86 *)
Definition Init (c : CtrDrbg) (entropy pers : list Z) : option (CtrDrbg * bool) :=
  if Z.of_nat (length entropy) <? strength c / 8 then Some (c, false)
  else
    let a := fst (SetKey (blockEnc c) (key c)) in
    match update (mkDrbg (v c) (key c) (counter c) 256 a (tmpBlk c)) (seed_buf entropy pers) with
    | None => None
    | Some c => Some (mkDrbg (v c) (key c) 1 (strength c) (blockEnc c) (tmpBlk c), true)
    end.

(* ctr_drbg.go:108-129 *)
Definition Reseed (c : CtrDrbg) (entropy data : list Z) : option CtrDrbg :=
  match update c (seed_buf entropy data) with
  | None => None
  | Some c => Some (mkDrbg (v c) (key c) 1 (strength c) (blockEnc c) (tmpBlk c))
  end.

(* ctr_drbg.go:143-147 *)
Fixpoint gen_loop (n i : nat) (c : CtrDrbg) (out : list Z) : option (CtrDrbg * list Z) :=
  match n with
  | O => Some (c, out)
  | S n' =>
      let vv := inc (v c) in
      let a := fst (SetKey (blockEnc c) (key c)) in
      match enc_v a (skipn (i * 16) out) vv with
      | None => None
      | Some d => gen_loop n' (i + 1) (mkDrbg vv (key c) (counter c) (strength c) a (tmpBlk c)) (firstn (i * 16) out ++ d)
      end
  end.

(* ctr_drbg.go:131-156: new object, contents of out, returned n; the error is always nil *)
Definition ReadWithAdditionalData (c : CtrDrbg) (out ad : list Z) : option (CtrDrbg * list Z * Z) :=
  let pre := match ad with
             | [] => Some (c, repeat 0 48)
             | _ => let sb := blit (repeat 0 48) 0 ad in
                    match update c sb with None => None | Some c => Some (c, sb) end
             end in
  match pre with
  | None => None
  | Some (c, sb) =>
      let nb := (length out / 16)%nat in
      match gen_loop nb 0 c out with
      | None => None
      | Some (c, o) =>
          match enc_v (blockEnc c) (tmpBlk c) (v c) with
          | None => None
          | Some t =>
              let o := blit o (nb * 16) (firstn (length out mod 16) t) in
              match update (mkDrbg (v c) (key c) (counter c) (strength c) (blockEnc c) t) sb with
              | None => None
              | Some c => Some (mkDrbg (v c) (key c) (wrap64 (counter c + 1)) (strength c) (blockEnc c) (tmpBlk c),
                                o, Z.of_nat (length out))
              end
          end
      end
  end.
(* ctr_drbg.go:160-162 *)
Definition Read (c : CtrDrbg) (out : list Z) := ReadWithAdditionalData c out [].
