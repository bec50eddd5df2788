(* Model of drbg/ctr_drbg.go when NewCtrDrbg picks the AES-NI cipher (HasAES true): the code of DRBG_Model.v over AESAsm.
   None = panic, or an access of the assembly outside its arrays. *)
From Coq Require Import ZArith List.
From Verif Require Import Lib AES_Model DRBG_Model AESNI_Model.
Import ListNotations.
Open Scope Z_scope.

(* ctr_drbg.go:27-35 *)
Record CtrDrbgA := mkDrbgA {
  vA : list Z; keyA : list Z; counterA : Z; strengthA : Z; blockEncA : AESAsm; tmpBlkA : list Z }.
(* ctr_drbg.go:37-42 (HasAES true) *)
Definition NewCtrDrbgA : CtrDrbgA := mkDrbgA (repeat 0 16) (repeat 0 32) 0 0 NewAsm (repeat 0 48).

Definition setkeyA (b : AESAsm) (k : list Z) : option AESAsm := match SetKeyAsm b k with AOk b' => Some b' | _ => None end.
(* blockEnc.Encrypt(dst, c.v[:]) for dst outside c.v *)
Definition enc_vA (b : AESAsm) (dst vv : list Z) : option (list Z) :=
  match EncryptAsm b (mkSlice 1024 dst) (mkSlice 0 vv) with inl (AOk d) => Some d | _ => None end.

(* ctr_drbg.go:94-98 *)
Fixpoint update_loopA (n i : nat) (c : CtrDrbgA) : option CtrDrbgA :=
  match n with
  | O => Some c
  | S n' =>
      let vv := inc (vA c) in
      match setkeyA (blockEncA c) (keyA c) with
      | None => None
      | Some a =>
          match enc_vA a (skipn i (tmpBlkA c)) vv with
          | None => None
          | Some d => update_loopA n' (i + 16)
                        (mkDrbgA vv (keyA c) (counterA c) (strengthA c) a (firstn i (tmpBlkA c) ++ d))
          end
      end
  end.
(* ctr_drbg.go:88-106 *)
Definition updateA (c : CtrDrbgA) (data : list Z) : option CtrDrbgA :=
  if negb (length data =? 48)%nat then None else
  match update_loopA 3 0 c with
  | None => None
  | Some c =>
      let t := xor_list (firstn 48 (tmpBlkA c)) data ++ skipn 48 (tmpBlkA c) in
      Some (mkDrbgA (blit (vA c) 0 (skipn 32 t)) (blit (keyA c) 0 (firstn 32 t)) (counterA c) (strengthA c) (blockEncA c) t)
  end.
(* ctr_drbg.go:55-86 *)
Definition InitA (c : CtrDrbgA) (entropy pers : list Z) : option (CtrDrbgA * bool) :=
  if Z.of_nat (length entropy) <? strengthA c / 8 then Some (c, false)
  else
    match setkeyA (blockEncA c) (keyA c) with
    | None => None
    | Some a =>
        match updateA (mkDrbgA (vA c) (keyA c) (counterA c) 256 a (tmpBlkA c)) (seed_buf entropy pers) with
        | None => None
        | Some c => Some (mkDrbgA (vA c) (keyA c) 1 (strengthA c) (blockEncA c) (tmpBlkA c), true)
        end
    end.
(* ctr_drbg.go:108-129 *)
Definition ReseedA (c : CtrDrbgA) (entropy data : list Z) : option CtrDrbgA :=
  match updateA c (seed_buf entropy data) with
  | None => None
  | Some c => Some (mkDrbgA (vA c) (keyA c) 1 (strengthA c) (blockEncA c) (tmpBlkA c))
  end.
(* ctr_drbg.go:143-147 *)
Fixpoint gen_loopA (n i : nat) (c : CtrDrbgA) (out : list Z) : option (CtrDrbgA * list Z) :=
  match n with
  | O => Some (c, out)
  | S n' =>
      let vv := inc (vA c) in
      match setkeyA (blockEncA c) (keyA c) with
      | None => None
      | Some a =>
          match enc_vA a (skipn (i * 16) out) vv with
          | None => None
          | Some d => gen_loopA n' (i + 1) (mkDrbgA vv (keyA c) (counterA c) (strengthA c) a (tmpBlkA c)) (firstn (i * 16) out ++ d)
          end
      end
  end.
(* ctr_drbg.go:131-156 *)
Definition ReadWithAdditionalDataA (c : CtrDrbgA) (out ad : list Z) : option (CtrDrbgA * list Z * Z) :=
  let pre := match ad with
             | [] => Some (c, repeat 0 48)
             | _ => let sb := blit (repeat 0 48) 0 ad in
                    match updateA c sb with None => None | Some c => Some (c, sb) end
             end in
  match pre with
  | None => None
  | Some (c, sb) =>
      let nb := (length out / 16)%nat in
      match gen_loopA nb 0 c out with
      | None => None
      | Some (c, o) =>
          match enc_vA (blockEncA c) (tmpBlkA c) (vA c) with
          | None => None
          | Some t =>
              let o := blit o (nb * 16) (firstn (length out mod 16) t) in
              match updateA (mkDrbgA (vA c) (keyA c) (counterA c) (strengthA c) (blockEncA c) t) sb with
              | None => None
              | Some c => Some (mkDrbgA (vA c) (keyA c) (wrap64 (counterA c + 1)) (strengthA c) (blockEncA c) (tmpBlkA c),
                                o, Z.of_nat (length out))
              end
          end
      end
  end.
