(* Model of drbg/internal/aes: generic.go, cipher.go, tools.go.
   uint32 words are Z; dst/src slices are lists with an address for the overlap check. *)
From Coq Require Import ZArith List Bool.
From Verif Require Import Lib AES_Tables.
Import ListNotations.
Open Scope Z_scope.

(* table[i] *)
Definition tab (t : list Z) (i : Z) : Z := nth (Z.to_nat i) t 0.
(* uint8(w >> k) *)
Definition u8 (w k : Z) : Z := (Z.shiftr w k) mod 256.
(* w >> k & 0xff *)
Definition ff (w k : Z) : Z := Z.land (Z.shiftr w k) 0xff.
(* uint32(b) << k for a byte b *)
Definition shl (b k : Z) : Z := wrap32 (Z.shiftl b k).
Definition xk_at (xk : list Z) (i : nat) : Z := nth i xk 0.

Definition quad : Type := (Z * Z * Z * Z)%type.

(* generic.go:45-50 (xk[k+i] ^ t0[..] ^ t1[..] ^ t2[..] ^ t3[..]) *)
Definition tmix (t0 t1 t2 t3 : list Z) (k a b c d : Z) : Z :=
  Z.lxor (Z.lxor (Z.lxor (Z.lxor k (tab t0 (u8 a 24))) (tab t1 (u8 b 16))) (tab t2 (u8 c 8))) (tab t3 (u8 d 0)).
(* generic.go:72-75 *)
Definition smix (sb : list Z) (a b c d : Z) : Z :=
  Z.lor (Z.lor (Z.lor (shl (tab sb (Z.shiftr a 24)) 24) (shl (tab sb (ff b 16)) 16))
               (shl (tab sb (ff c 8)) 8)) (tab sb (ff d 0)).

(* generic.go:62-69: state (s, t) *)
Fixpoint enc_rounds (nr : nat) (xk : list Z) (k : nat) (s t : quad) : quad * nat :=
  match nr with
  | O => (t, k)
  | S n =>
      let '(s0, s1, s2, s3) := s in
      let t0 := tmix te0 te1 te2 te3 (xk_at xk (k + 0)) s0 s1 s2 s3 in
      let t1 := tmix te0 te1 te2 te3 (xk_at xk (k + 1)) s1 s2 s3 s0 in
      let t2 := tmix te0 te1 te2 te3 (xk_at xk (k + 2)) s2 s3 s0 s1 in
      let t3 := tmix te0 te1 te2 te3 (xk_at xk (k + 3)) s3 s0 s1 s2 in
      enc_rounds n xk (k + 4) (t0, t1, t2, t3) (t0, t1, t2, t3)
  end.

(* binary.BigEndian.Uint32(src[i:i+4]) *)
Definition be32 (src : list Z) (i : nat) : Z := be_dec (slice src i 4).

(* generic.go:44-87: the 16 bytes written to dst *)
Definition encryptBlockGo (xk src : list Z) : list Z :=
  let s0 := Z.lxor (be32 src 0) (xk_at xk 0) in
  let s1 := Z.lxor (be32 src 4) (xk_at xk 1) in
  let s2 := Z.lxor (be32 src 8) (xk_at xk 2) in
  let s3 := Z.lxor (be32 src 12) (xk_at xk 3) in
  let nr := (length xk / 4 - 2)%nat in
  let '((t0, t1, t2, t3), k) := enc_rounds nr xk 4 (s0, s1, s2, s3) (0, 0, 0, 0) in
  let s0 := Z.lxor (smix sbox0 t0 t1 t2 t3) (xk_at xk (k + 0)) in
  let s1 := Z.lxor (smix sbox0 t1 t2 t3 t0) (xk_at xk (k + 1)) in
  let s2 := Z.lxor (smix sbox0 t2 t3 t0 t1) (xk_at xk (k + 2)) in
  let s3 := Z.lxor (smix sbox0 t3 t0 t1 t2) (xk_at xk (k + 3)) in
  be_enc 4 s0 ++ be_enc 4 s1 ++ be_enc 4 s2 ++ be_enc 4 s3.

(* generic.go:108-115 *)
Fixpoint dec_rounds (nr : nat) (xk : list Z) (k : nat) (s t : quad) : quad * nat :=
  match nr with
  | O => (t, k)
  | S n =>
      let '(s0, s1, s2, s3) := s in
      let t0 := tmix td0 td1 td2 td3 (xk_at xk (k + 0)) s0 s3 s2 s1 in
      let t1 := tmix td0 td1 td2 td3 (xk_at xk (k + 1)) s1 s0 s3 s2 in
      let t2 := tmix td0 td1 td2 td3 (xk_at xk (k + 2)) s2 s1 s0 s3 in
      let t3 := tmix td0 td1 td2 td3 (xk_at xk (k + 3)) s3 s2 s1 s0 in
      dec_rounds n xk (k + 4) (t0, t1, t2, t3) (t0, t1, t2, t3)
  end.

(* generic.go:90-133 *)
Definition decryptBlockGo (xk src : list Z) : list Z :=
  let s0 := Z.lxor (be32 src 0) (xk_at xk 0) in
  let s1 := Z.lxor (be32 src 4) (xk_at xk 1) in
  let s2 := Z.lxor (be32 src 8) (xk_at xk 2) in
  let s3 := Z.lxor (be32 src 12) (xk_at xk 3) in
  let nr := (length xk / 4 - 2)%nat in
  let '((t0, t1, t2, t3), k) := dec_rounds nr xk 4 (s0, s1, s2, s3) (0, 0, 0, 0) in
  let s0 := Z.lxor (smix sbox1 t0 t3 t2 t1) (xk_at xk (k + 0)) in
  let s1 := Z.lxor (smix sbox1 t1 t0 t3 t2) (xk_at xk (k + 1)) in
  let s2 := Z.lxor (smix sbox1 t2 t1 t0 t3) (xk_at xk (k + 2)) in
  let s3 := Z.lxor (smix sbox1 t3 t2 t1 t0) (xk_at xk (k + 3)) in
  be_enc 4 s0 ++ be_enc 4 s1 ++ be_enc 4 s2 ++ be_enc 4 s3.

(* generic.go:136-141 *)
Definition subw (w : Z) : Z :=
  Z.lor (Z.lor (Z.lor (shl (tab sbox0 (Z.shiftr w 24)) 24) (shl (tab sbox0 (ff w 16)) 16))
               (shl (tab sbox0 (ff w 8)) 8)) (tab sbox0 (ff w 0)).
(* generic.go:144 *)
Definition rotw (w : Z) : Z := Z.lor (wrap32 (Z.shiftl w 8)) (Z.shiftr w 24).

(* generic.go:155-163: fills enc[i], i = len(acc).. ; acc is the part of enc already written *)
Fixpoint expand_loop (nk : nat) (n : nat) (enc : list Z) : list Z :=
  match n with
  | O => enc
  | S n' =>
      let i := length enc in
      let t := nth (i - 1) enc 0 in
      let t := if (i mod nk =? 0)%nat
               then Z.lxor (subw (rotw t)) (shl (tab powx (Z.of_nat (i / nk - 1))) 24)
               else if ((6 <? nk) && (i mod nk =? 4))%nat then subw t else t in
      expand_loop nk n' (enc ++ [Z.lxor (nth (i - nk) enc 0) t])
  end.
(* generic.go:148-163 with len(enc) = n *)
Definition expand_enc (key : list Z) (n : nat) : list Z :=
  let nk := (length key / 4)%nat in
  expand_loop nk (n - nk) (map (fun i => be32 key (4 * i)) (seq 0 nk)).

(* generic.go:177 *)
Definition td_word (x : Z) : Z :=
  Z.lxor (Z.lxor (Z.lxor (tab td0 (tab sbox0 (Z.shiftr x 24))) (tab td1 (tab sbox0 (ff x 16))))
                 (tab td2 (tab sbox0 (ff x 8)))) (tab td3 (tab sbox0 (ff x 0))).
(* generic.go:171-181: dec[i+j] for i = 0,4,.. *)
Definition expand_dec (enc : list Z) : list Z :=
  let n := length enc in
  map (fun m => let i := (4 * (m / 4))%nat in let j := (m mod 4)%nat in
                let x := nth (n - i - 4 + j) enc 0 in
                if ((0 <? i) && (i + 4 <? n))%nat then td_word x else x) (seq 0 n).

(* cipher.go:15-19 *)
Record AES := mkAES { enc : list Z; dec : list Z; keyLen : nat }.
(* cipher.go:34-36 *)
Definition NewCipher : AES := mkAES (repeat 0 60) (repeat 0 60) 0.

(* cipher.go:42-60; true = nil error.  Arrays are zeroed, then their first keyLen+28 words filled *)
Definition SetKey (c : AES) (key : list Z) : AES * bool :=
  let k := length key in
  if ((k =? 16) || (k =? 24) || (k =? 32))%nat then
    let e := expand_enc key (k + 28) in
    (mkAES (e ++ repeat 0 (60 - (k + 28))) (expand_dec e ++ repeat 0 (60 - (k + 28))) k, true)
  else (c, false).

(* a slice: address of its first byte and contents *)
Record slice_t := mkSlice { addr : Z; cont : list Z }.

(* tools.go:17-21 *)
Definition AnyOverlap (x y : slice_t) : bool :=
  ((0 <? length (cont x))%nat && (0 <? length (cont y))%nat &&
   (addr x <=? addr y + Z.of_nat (length (cont y)) - 1) &&
   (addr y <=? addr x + Z.of_nat (length (cont x)) - 1))%bool.
(* tools.go:29-34 *)
Definition InexactOverlap (x y : slice_t) : bool :=
  if ((length (cont x) =? 0)%nat || (length (cont y) =? 0)%nat || (addr x =? addr y))%bool then false
  else AnyOverlap x y.

Inductive panic := InputNotFull | OutputNotFull | InvalidOverlap.

(* s[:16] *)
Definition first16 (s : slice_t) : slice_t := mkSlice (addr s) (firstn 16 (cont s)).

(* cipher.go:64-75 / 77-88: new contents of dst, or a panic *)
Definition block_op (f : list Z -> list Z) (dst src : slice_t) : list Z + panic :=
  if (length (cont src) <? 16)%nat then inr InputNotFull
  else if (length (cont dst) <? 16)%nat then inr OutputNotFull
  else if InexactOverlap (first16 dst) (first16 src) then inr InvalidOverlap
  else inl (blit (cont dst) 0 (f (cont src))).
Definition Encrypt (c : AES) (dst src : slice_t) : list Z + panic :=
  block_op (encryptBlockGo (firstn (keyLen c + 28) (enc c))) dst src.
Definition Decrypt (c : AES) (dst src : slice_t) : list Z + panic :=
  block_op (decryptBlockGo (firstn (keyLen c + 28) (dec c))) dst src.
