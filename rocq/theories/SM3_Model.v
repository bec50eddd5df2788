(* Model of hash/sm3 (sm3.go, compress.go).
   uint32/uint64 are Z with explicit wrap-around; [8]uint32 and [64]byte are lists. *)
From Coq Require Import ZArith List.
From Verif Require Import Lib SM3_Iface.
Import ListNotations.
Open Scope Z_scope.

(* compress.go:3-5 rotl32(count, val); only called with 0 < count < 32 *)
Definition rotl32 (count val : Z) : Z :=
  Z.lor (wrap32 (Z.shiftl val count)) (Z.shiftr val (32 - count)).

(* compress.go:8-10 *)
Definition p0 (X : Z) : Z := Z.lxor (Z.lxor X (rotl32 9 X)) (rotl32 17 X).
(* compress.go:13-15 *)
Definition p1 (X : Z) : Z := Z.lxor (Z.lxor X (rotl32 15 X)) (rotl32 23 X).
(* compress.go:20-22 *)
Definition ch (M A B : Z) : Z := Z.lxor (Z.land (Z.lxor A B) M) B.
(* compress.go:26-32 *)
Definition maj (X Y Zz : Z) : Z := ch (Z.lxor Y Zz) X Y.

(* compress.go:34-47; the four pointer parameters are returned as (B, D, F, H) *)
Definition r1 (A B C D E F G H TJ Wi Wj : Z) : Z * Z * Z * Z :=
  let A12 := rotl32 12 A in
  let SS1 := rotl32 7 (add32 (add32 A12 E) TJ) in
  let TT1 := add32 (add32 (add32 (Z.lxor (Z.lxor A B) C) D) (Z.lxor SS1 A12)) Wj in
  let TT2 := add32 (add32 (add32 (Z.lxor (Z.lxor E F) G) H) SS1) Wi in
  (rotl32 9 B, TT1, rotl32 19 F, p0 TT2).

(* compress.go:49-62 *)
Definition r2 (A B C D E F G H TJ Wi Wj : Z) : Z * Z * Z * Z :=
  let A12 := rotl32 12 A in
  let SS1 := rotl32 7 (add32 (add32 A12 E) TJ) in
  let TT1 := add32 (add32 (add32 (maj A B C) D) (Z.lxor SS1 A12)) Wj in
  let TT2 := add32 (add32 (add32 (ch E F G) H) SS1) Wi in
  (rotl32 9 B, TT1, rotl32 19 F, p0 TT2).

(* compress.go:64-66 *)
Definition sm3e (W0 W7 W13 W3 W10 : Z) : Z :=
  Z.lxor (Z.lxor (p1 (Z.lxor (Z.lxor W0 W7) (rotl32 15 W13))) (rotl32 7 W3)) W10.

(* compress.go:68-70; slices always have at least 4 bytes at the call sites *)
Definition loadBe32 (x : list Z) : Z :=
  Z.lor (Z.lor (Z.lor (nth 3 x 0) (wrap32 (Z.shiftl (nth 2 x 0) 8)))
               (wrap32 (Z.shiftl (nth 1 x 0) 16)))
        (wrap32 (Z.shiftl (nth 0 x 0) 24)).

(* byte(x >> s) *)
Definition byte_at (x s : Z) : Z := (Z.shiftr x s) mod 256.

(* compress.go:72-81: the eight bytes stored *)
Definition store64Be (x : Z) : list Z :=
  [byte_at x 56; byte_at x 48; byte_at x 40; byte_at x 32;
   byte_at x 24; byte_at x 16; byte_at x 8; byte_at x 0].

(* compress.go:83-88: the four bytes stored *)
Definition store32Be (x : Z) : list Z :=
  [byte_at x 24; byte_at x 16; byte_at x 8; byte_at x 0].

(* The local variables of compress: A..H (index 0..7) and W00..W15 (index 0..15). *)
Definition vars : Type := (list Z * list Z)%type.
Definition A := 0%nat. Definition B := 1%nat. Definition C := 2%nat. Definition D := 3%nat.
Definition E := 4%nat. Definition F := 5%nat. Definition G := 6%nat. Definition H := 7%nat.

(* statement  r(a, &b, c, &d, e, &f, g, &h, tj, Wi, Wi^Wk)  for r = r1 or r2 *)
Definition st_r (r : Z -> Z -> Z -> Z -> Z -> Z -> Z -> Z -> Z -> Z -> Z -> Z * Z * Z * Z)
    (a b c d e f g h : nat) (tj : Z) (wi wj wk : nat) (v : vars) : vars :=
  let (R, W) := v in
  let x i := nth i R 0 in
  let w i := nth i W 0 in
  match r (x a) (x b) (x c) (x d) (x e) (x f) (x g) (x h) tj (w wi) (Z.lxor (w wj) (w wk)) with
  | (vb, vd, vf, vh) => (upd (upd (upd (upd R b vb) d vd) f vf) h vh, W)
  end.
(* statement  Wdst = sm3e(W0, W7, W13, W3, W10) *)
Definition st_e (dst w0 w7 w13 w3 w10 : nat) (v : vars) : vars :=
  let (R, W) := v in
  let w i := nth i W 0 in
  (R, upd W dst (sm3e (w w0) (w w7) (w w13) (w w3) (w w10))).

(* compress.go:119-234, one entry per source line, generated from the Go text *)
Definition compress_body : list (vars -> vars) := [
  st_r r1 A B C D E F G H 0x79CC4519 0 0 4;
  st_e 0 0 7 13 3 10;
  st_r r1 D A B C H E F G 0xF3988A32 1 1 5;
  st_e 1 1 8 14 4 11;
  st_r r1 C D A B G H E F 0xE7311465 2 2 6;
  st_e 2 2 9 15 5 12;
  st_r r1 B C D A F G H E 0xCE6228CB 3 3 7;
  st_e 3 3 10 0 6 13;
  st_r r1 A B C D E F G H 0x9CC45197 4 4 8;
  st_e 4 4 11 1 7 14;
  st_r r1 D A B C H E F G 0x3988A32F 5 5 9;
  st_e 5 5 12 2 8 15;
  st_r r1 C D A B G H E F 0x7311465E 6 6 10;
  st_e 6 6 13 3 9 0;
  st_r r1 B C D A F G H E 0xE6228CBC 7 7 11;
  st_e 7 7 14 4 10 1;
  st_r r1 A B C D E F G H 0xCC451979 8 8 12;
  st_e 8 8 15 5 11 2;
  st_r r1 D A B C H E F G 0x988A32F3 9 9 13;
  st_e 9 9 0 6 12 3;
  st_r r1 C D A B G H E F 0x311465E7 10 10 14;
  st_e 10 10 1 7 13 4;
  st_r r1 B C D A F G H E 0x6228CBCE 11 11 15;
  st_e 11 11 2 8 14 5;
  st_r r1 A B C D E F G H 0xC451979C 12 12 0;
  st_e 12 12 3 9 15 6;
  st_r r1 D A B C H E F G 0x88A32F39 13 13 1;
  st_e 13 13 4 10 0 7;
  st_r r1 C D A B G H E F 0x11465E73 14 14 2;
  st_e 14 14 5 11 1 8;
  st_r r1 B C D A F G H E 0x228CBCE6 15 15 3;
  st_e 15 15 6 12 2 9;
  st_r r2 A B C D E F G H 0x9D8A7A87 0 0 4;
  st_e 0 0 7 13 3 10;
  st_r r2 D A B C H E F G 0x3B14F50F 1 1 5;
  st_e 1 1 8 14 4 11;
  st_r r2 C D A B G H E F 0x7629EA1E 2 2 6;
  st_e 2 2 9 15 5 12;
  st_r r2 B C D A F G H E 0xEC53D43C 3 3 7;
  st_e 3 3 10 0 6 13;
  st_r r2 A B C D E F G H 0xD8A7A879 4 4 8;
  st_e 4 4 11 1 7 14;
  st_r r2 D A B C H E F G 0xB14F50F3 5 5 9;
  st_e 5 5 12 2 8 15;
  st_r r2 C D A B G H E F 0x629EA1E7 6 6 10;
  st_e 6 6 13 3 9 0;
  st_r r2 B C D A F G H E 0xC53D43CE 7 7 11;
  st_e 7 7 14 4 10 1;
  st_r r2 A B C D E F G H 0x8A7A879D 8 8 12;
  st_e 8 8 15 5 11 2;
  st_r r2 D A B C H E F G 0x14F50F3B 9 9 13;
  st_e 9 9 0 6 12 3;
  st_r r2 C D A B G H E F 0x29EA1E76 10 10 14;
  st_e 10 10 1 7 13 4;
  st_r r2 B C D A F G H E 0x53D43CEC 11 11 15;
  st_e 11 11 2 8 14 5;
  st_r r2 A B C D E F G H 0xA7A879D8 12 12 0;
  st_e 12 12 3 9 15 6;
  st_r r2 D A B C H E F G 0x4F50F3B1 13 13 1;
  st_e 13 13 4 10 0 7;
  st_r r2 C D A B G H E F 0x9EA1E762 14 14 2;
  st_e 14 14 5 11 1 8;
  st_r r2 B C D A F G H E 0x3D43CEC5 15 15 3;
  st_e 15 15 6 12 2 9;
  st_r r2 A B C D E F G H 0x7A879D8A 0 0 4;
  st_e 0 0 7 13 3 10;
  st_r r2 D A B C H E F G 0xF50F3B14 1 1 5;
  st_e 1 1 8 14 4 11;
  st_r r2 C D A B G H E F 0xEA1E7629 2 2 6;
  st_e 2 2 9 15 5 12;
  st_r r2 B C D A F G H E 0xD43CEC53 3 3 7;
  st_e 3 3 10 0 6 13;
  st_r r2 A B C D E F G H 0xA879D8A7 4 4 8;
  st_e 4 4 11 1 7 14;
  st_r r2 D A B C H E F G 0x50F3B14F 5 5 9;
  st_e 5 5 12 2 8 15;
  st_r r2 C D A B G H E F 0xA1E7629E 6 6 10;
  st_e 6 6 13 3 9 0;
  st_r r2 B C D A F G H E 0x43CEC53D 7 7 11;
  st_e 7 7 14 4 10 1;
  st_r r2 A B C D E F G H 0x879D8A7A 8 8 12;
  st_e 8 8 15 5 11 2;
  st_r r2 D A B C H E F G 0x0F3B14F5 9 9 13;
  st_e 9 9 0 6 12 3;
  st_r r2 C D A B G H E F 0x1E7629EA 10 10 14;
  st_e 10 10 1 7 13 4;
  st_r r2 B C D A F G H E 0x3CEC53D4 11 11 15;
  st_e 11 11 2 8 14 5;
  st_r r2 A B C D E F G H 0x79D8A7A8 12 12 0;
  st_e 12 12 3 9 15 6;
  st_r r2 D A B C H E F G 0xF3B14F50 13 13 1;
  st_e 13 13 4 10 0 7;
  st_r r2 C D A B G H E F 0xE7629EA1 14 14 2;
  st_e 14 14 5 11 1 8;
  st_r r2 B C D A F G H E 0xCEC53D43 15 15 3;
  st_e 15 15 6 12 2 9;
  st_r r2 A B C D E F G H 0x9D8A7A87 0 0 4;
  st_e 0 0 7 13 3 10;
  st_r r2 D A B C H E F G 0x3B14F50F 1 1 5;
  st_e 1 1 8 14 4 11;
  st_r r2 C D A B G H E F 0x7629EA1E 2 2 6;
  st_e 2 2 9 15 5 12;
  st_r r2 B C D A F G H E 0xEC53D43C 3 3 7;
  st_e 3 3 10 0 6 13;
  st_r r2 A B C D E F G H 0xD8A7A879 4 4 8;
  st_r r2 D A B C H E F G 0xB14F50F3 5 5 9;
  st_r r2 C D A B G H E F 0x629EA1E7 6 6 10;
  st_r r2 B C D A F G H E 0xC53D43CE 7 7 11;
  st_r r2 A B C D E F G H 0x8A7A879D 8 8 12;
  st_r r2 D A B C H E F G 0x14F50F3B 9 9 13;
  st_r r2 C D A B G H E F 0x29EA1E76 10 10 14;
  st_r r2 B C D A F G H E 0x53D43CEC 11 11 15;
  st_r r2 A B C D E F G H 0xA7A879D8 12 12 0;
  st_r r2 D A B C H E F G 0x4F50F3B1 13 13 1;
  st_r r2 C D A B G H E F 0x9EA1E762 14 14 2;
  st_r r2 B C D A F G H E 0x3D43CEC5 15 15 3].

(* compress.go:90-98 and one iteration of the loop 100-253: d.h before -> d.h after.
   On entry of every iteration A..H equal d.h[0..7] (lines 91-98 / 245-252). *)
Definition compress_block (h : list Z) (next64Block : list Z) : list Z :=
  let W := map (fun i => loadBe32 (skipn (4 * i) next64Block)) (seq 0 16) in
  let v := fold_left (fun v f => f v) compress_body (h, W) in
  map (fun i => Z.lxor (nth i h 0) (nth i (fst v) 0)) (seq 0 8).

(* compress.go:90-254: the loop over [blocks] blocks of [input] *)
Fixpoint compress (h : list Z) (input : list Z) (blocks : nat) : list Z :=
  match blocks with
  | O => h
  | S n => compress (compress_block h input) (skipn 64 input) n
  end.

(* sm3.go:28-32 *)
Record digest := mkDigest { dh : list Z; dlen : Z; db : list Z }.

(* sm3.go:10-19 *)
Definition init_h : list Z :=
  [0x7380166F; 0x4914B2B9; 0x172442D7; 0xDA8A0600; 0xA96F30BC; 0x163138AA; 0xE38DEE4D; 0xB0FB0E4E].

(* sm3.go:46-56: the buffer is left as it is *)
Definition Reset (d : digest) : digest := mkDigest init_h 0 (db d).

(* sm3.go:34-38 *)
Definition New : digest := Reset (mkDigest (repeat 0 8) 0 (repeat 0 64)).

(* sm3.go:58-80: returns new state and nn (err is always nil) *)
Definition Write (d : digest) (input : list Z) : digest * Z :=
  let idx := Z.to_nat (Z.land (dlen d) 63) in
  let len' := wrap64 (dlen d + Z.of_nat (length input)) in
  if (length input + idx <? 64)%nat then
    (mkDigest (dh d) len' (blit (db d) idx input), 0)
  else
    let c := (64 - idx)%nat in
    let b1 := blit (db d) idx (firstn c input) in
    let h1 := compress (dh d) b1 1 in
    let input' := skipn c input in
    let nblocks := (length input' / 64)%nat in
    let h2 := compress h1 input' nblocks in
    let b2 := blit b1 0 (skipn (nblocks * 64) input') in
    (mkDigest h2 len' b2, Z.of_nat (length input')).

(* sm3.go:90-93: dc.b[i] = 0 for idx < i < 64 *)
Definition clear_after (b : list Z) (idx : nat) : list Z :=
  firstn (S idx) b ++ repeat 0 (length b - S idx).

(* sm3.go:82-110: the receiver is copied (dc := *d), so no new state is returned *)
Definition Sum (d : digest) (inp : list Z) : list Z :=
  let dc := fst (Write d inp) in
  let idx := Z.to_nat (Z.land (dlen dc) 63) in
  let b1 := upd (clear_after (db dc) idx) idx 0x80 in
  let '(h1, b2) := if (56 <=? idx)%nat
                   then (compress (dh dc) b1 1, repeat 0 64)
                   else (dh dc, b1) in
  let b3 := blit b2 56 (store64Be (wrap64 (dlen dc * 8))) in
  let h2 := compress h1 b3 1 in
  concat (map (fun i => store32Be (nth i h2 0)) (seq 0 8)).

(* one method call *)
Definition step (d : digest) (o : op) : digest * res :=
  match o with
  | OWrite p => let '(d', n) := Write d p in (d', RCount n)
  | OSum b => (d, RBytes (Sum d b))
  | OReset => (Reset d, RUnit)
  end.

Fixpoint run (d : digest) (ops : list op) : list res :=
  match ops with
  | [] => []
  | o :: t => let '(d', r) := step d o in r :: run d' t
  end.
