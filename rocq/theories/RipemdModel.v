(** Model of /repo/xcrypto/ripemd160/ripemd160.go and ripemd160block.go. *)
From Verif Require Import GoBase.
Local Open Scope Z_scope.

(** ripemd160block.go 16-47: the tables. *)
Definition tab_n : list Z :=
  [0; 1; 2; 3; 4; 5; 6; 7; 8; 9; 10; 11; 12; 13; 14; 15;
   7; 4; 13; 1; 10; 6; 15; 3; 12; 0; 9; 5; 2; 14; 11; 8;
   3; 10; 14; 4; 9; 15; 8; 1; 2; 7; 0; 6; 13; 11; 5; 12;
   1; 9; 11; 10; 0; 8; 12; 4; 13; 3; 7; 15; 14; 5; 6; 2;
   4; 0; 5; 9; 7; 12; 2; 10; 14; 1; 3; 8; 11; 6; 15; 13].
Definition tab_r : list Z :=
  [11; 14; 15; 12; 5; 8; 7; 9; 11; 13; 14; 15; 6; 7; 9; 8;
   7; 6; 8; 13; 11; 9; 7; 15; 7; 12; 15; 9; 11; 7; 13; 12;
   11; 13; 6; 7; 14; 9; 13; 15; 14; 8; 13; 6; 5; 12; 7; 5;
   11; 12; 14; 15; 14; 15; 9; 8; 9; 14; 5; 6; 8; 6; 5; 12;
   9; 15; 5; 11; 6; 8; 13; 12; 5; 12; 13; 14; 11; 8; 5; 6].
Definition tab_nn : list Z :=
  [5; 14; 7; 0; 9; 2; 11; 4; 13; 6; 15; 8; 1; 10; 3; 12;
   6; 11; 3; 7; 0; 13; 5; 10; 14; 15; 8; 12; 4; 9; 1; 2;
   15; 5; 1; 3; 7; 14; 6; 9; 11; 8; 12; 2; 10; 0; 4; 13;
   8; 6; 4; 1; 3; 11; 15; 0; 5; 12; 2; 13; 9; 7; 10; 14;
   12; 15; 10; 4; 1; 5; 8; 7; 6; 2; 13; 14; 0; 3; 9; 11].
Definition tab_rr : list Z :=
  [8; 9; 9; 11; 13; 15; 15; 5; 7; 7; 8; 11; 14; 14; 12; 6;
   9; 13; 15; 7; 12; 8; 9; 11; 7; 7; 12; 7; 6; 15; 13; 11;
   9; 7; 15; 11; 8; 6; 6; 14; 12; 13; 5; 14; 13; 13; 7; 5;
   15; 5; 8; 11; 14; 14; 6; 14; 6; 9; 12; 9; 12; 5; 15; 8;
   8; 5; 12; 9; 12; 5; 14; 6; 8; 13; 6; 5; 15; 13; 11; 11].

(** uint32 operations: ^x, x &^ y, and math/bits RotateLeft32 for 0 < s < 32. *)
Definition not32 (x : Z) : Z := Z.lxor x 0xffffffff.
Definition rotl32 (x s : Z) : Z := Z.lor (u32 (Z.shiftl x s)) (Z.shiftr x (32 - s)).

(** The five words of the running context (ripemd160.go 31, d.s). *)
Notation words5 := (Z * Z * Z * Z * Z)%type.

(** ripemd160block.go 57-60: the sixteen words x of a block, for p of 64 bytes
    or more. *)
Definition load_word (p : bytes) (i : nat) : Z :=
  let j := (4 * i)%nat in
  Z.lor (Z.lor (Z.lor (nth j p 0) (u32 (Z.shiftl (nth (j + 1) p 0) 8)))
    (u32 (Z.shiftl (nth (j + 2) p 0) 16))) (u32 (Z.shiftl (nth (j + 3) p 0) 24)).
Definition load_block (p : bytes) : list Z := map (load_word p) (seq 0 16).

Definition at_ (l : list Z) (i : Z) : Z := nth (Z.to_nat i) l 0.

(** One turn of one line: [f] is the value of the Boolean function, [k] the
    constant; e.g. ripemd160block.go 64-68. *)
Definition turn (v : words5) (f w k s : Z) : words5 :=
  let '(a, b, c, d, e) := v in
  let alpha := u32 (u32 (u32 (a + f) + w) + k) in
  let alpha := u32 (rotl32 alpha s + e) in
  let beta := rotl32 c 10 in
  (e, alpha, b, beta, d).

(** ripemd160block.go 62-79. *)
Definition round1 (x : list Z) (vv : words5 * words5) (i : nat) : words5 * words5 :=
  let '((a, b, c, d, e), (aa, bb, cc, dd, ee)) := vv in
  (turn (a, b, c, d, e) (Z.lxor (Z.lxor b c) d) (at_ x (nth i tab_n 0)) 0 (nth i tab_r 0),
   turn (aa, bb, cc, dd, ee) (Z.lxor bb (Z.lor cc (not32 dd))) (at_ x (nth i tab_nn 0)) 0x50a28be6 (nth i tab_rr 0)).
(** 81-98. *)
Definition round2 (x : list Z) (vv : words5 * words5) (i : nat) : words5 * words5 :=
  let '((a, b, c, d, e), (aa, bb, cc, dd, ee)) := vv in
  (turn (a, b, c, d, e) (Z.lor (Z.land b c) (Z.land (not32 b) d)) (at_ x (nth i tab_n 0)) 0x5a827999 (nth i tab_r 0),
   turn (aa, bb, cc, dd, ee) (Z.lor (Z.land bb dd) (Z.ldiff cc dd)) (at_ x (nth i tab_nn 0)) 0x5c4dd124 (nth i tab_rr 0)).
(** 100-117. *)
Definition round3 (x : list Z) (vv : words5 * words5) (i : nat) : words5 * words5 :=
  let '((a, b, c, d, e), (aa, bb, cc, dd, ee)) := vv in
  (turn (a, b, c, d, e) (Z.lxor (Z.lor b (not32 c)) d) (at_ x (nth i tab_n 0)) 0x6ed9eba1 (nth i tab_r 0),
   turn (aa, bb, cc, dd, ee) (Z.lxor (Z.lor bb (not32 cc)) dd) (at_ x (nth i tab_nn 0)) 0x6d703ef3 (nth i tab_rr 0)).
(** 119-136. *)
Definition round4 (x : list Z) (vv : words5 * words5) (i : nat) : words5 * words5 :=
  let '((a, b, c, d, e), (aa, bb, cc, dd, ee)) := vv in
  (turn (a, b, c, d, e) (Z.lor (Z.land b d) (Z.ldiff c d)) (at_ x (nth i tab_n 0)) 0x8f1bbcdc (nth i tab_r 0),
   turn (aa, bb, cc, dd, ee) (Z.lor (Z.land bb cc) (Z.land (not32 bb) dd)) (at_ x (nth i tab_nn 0)) 0x7a6d76e9 (nth i tab_rr 0)).
(** 138-155. *)
Definition round5 (x : list Z) (vv : words5 * words5) (i : nat) : words5 * words5 :=
  let '((a, b, c, d, e), (aa, bb, cc, dd, ee)) := vv in
  (turn (a, b, c, d, e) (Z.lxor b (Z.lor c (not32 d))) (at_ x (nth i tab_n 0)) 0xa953fd4e (nth i tab_r 0),
   turn (aa, bb, cc, dd, ee) (Z.lxor (Z.lxor bb cc) dd) (at_ x (nth i tab_nn 0)) 0 (nth i tab_rr 0)).

(** ripemd160block.go 53-163: one pass of the loop. *)
Definition block_step (s : words5) (p : bytes) : words5 :=
  let x := load_block p in
  let vv := (s, s) in
  let vv := fold_left (round1 x) (seq 0 16) vv in
  let vv := fold_left (round2 x) (seq 16 16) vv in
  let vv := fold_left (round3 x) (seq 32 16) vv in
  let vv := fold_left (round4 x) (seq 48 16) vv in
  let vv := fold_left (round5 x) (seq 64 16) vv in
  let '((a, b, c, d, e), (aa, bb, cc, dd, ee)) := vv in
  let '(s0, s1, s2, s3, s4) := s in
  let dd := u32 (dd + u32 (c + s1)) in
  (dd, u32 (u32 (s2 + d) + ee), u32 (u32 (s3 + e) + aa), u32 (u32 (s4 + a) + bb), u32 (u32 (s0 + b) + cc)).

(** ripemd160block.go 49-165: _Block; every pass takes 64 bytes, so the length
    of p is enough fuel. *)
Fixpoint block_loop (fuel : nat) (s : words5) (p : bytes) (n : Z) : words5 * Z :=
  match fuel with
  | O => (s, n)
  | S f =>
      if 64 <=? len p then block_loop f (block_step s p) (skipn 64 p) (n + 64)
      else (s, n)
  end.
Definition Block (s : words5) (p : bytes) : words5 * Z := block_loop (length p) s p 0.

(** ripemd160.go 30-35: digest. *)
Record digest := MkDigest {
  d_s : words5;
  d_x : bytes;
  d_nx : Z;
  d_tc : Z
}.

(** ripemd160.go 22-28, 37-41: Reset; x keeps its contents. *)
Definition Reset (d : digest) : digest :=
  MkDigest (0x67452301, 0xefcdab89, 0x98badcfe, 0x10325476, 0xc3d2e1f0) (d_x d) 0 0.

(** ripemd160.go 44-48: New. *)
Definition New : digest := Reset (MkDigest (0, 0, 0, 0, 0) (repeat 0 64) 0 0).

(** Writing q into the array x from position i on; the caller stays inside. *)
Definition put_at (x : bytes) (i : Z) (q : bytes) : bytes :=
  firstn (Z.to_nat i) x ++ q ++ skipn (Z.to_nat i + length q) x.

(** ripemd160.go 54-78: Write. *)
Definition Write (d : digest) (p : bytes) : digest * Z :=
  let nn := len p in
  let tc := u64 (d_tc d + nn) in
  let '(s, x, nx, p) :=
    if 0 <? d_nx d then
      let n := len p in
      let n := if 64 - d_nx d <? n then 64 - d_nx d else n in
      let x := put_at (d_x d) (d_nx d) (firstn (Z.to_nat n) p) in
      let nx := d_nx d + n in
      let '(s, nx) := if nx =? 64 then (fst (Block (d_s d) x), 0) else (d_s d, nx) in
      (s, x, nx, skipn (Z.to_nat n) p)
    else (d_s d, d_x d, d_nx d, p) in
  let '(s, n) := Block s p in
  let p := skipn (Z.to_nat n) p in
  let '(x, nx) :=
    if 0 <? len p then
      let n := Z.min 64 (len p) in
      (put_at x 0 (firstn (Z.to_nat n) p), n)
    else (x, nx) in
  (MkDigest s x nx tc, nn).

(** Four bytes of a word, low byte first (ripemd160.go 112-117). *)
Definition put_word (s : Z) : bytes := [u8 s; u8 (Z.shiftr s 8); u8 (Z.shiftr s 16); u8 (Z.shiftr s 24)].

(** ripemd160.go 80-119: Sum. *)
Definition Sum (d : digest) (inp : bytes) : res bytes :=
  let tc := d_tc d in
  let tmp := 0x80 :: repeat 0 63 in
  let! q := if tc mod 64 <? 56 then slice tmp 0 (56 - tc mod 64) else slice (tmp) 0 (64 + 56 - tc mod 64) in
  let d0 := fst (Write d q) in
  let tc := u64 (Z.shiftl tc 3) in
  let tmp := map (fun i => u8 (Z.shiftr tc (8 * Z.of_nat i))) (seq 0 8) ++ skipn 8 tmp in
  let! q := slice tmp 0 8 in
  let d0 := fst (Write d0 q) in
  if negb (d_nx d0 =? 0) then Panic
  else
    let '(s0, s1, s2, s3, s4) := d_s d0 in
    Ok (inp ++ put_word s0 ++ put_word s1 ++ put_word s2 ++ put_word s3 ++ put_word s4).

(** /repo/xcrypto/hash.go 16-31: calcHash with ripemd160.New(), Ripemd160. *)
Definition Ripemd160 (data : bytes) : res bytes := Sum (fst (Write New data)) [].
