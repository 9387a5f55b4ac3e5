(** RIPEMD-160 after the paper of Dobbertin, Bosselaers and Preneel
    (AB-9601), written from its tables and not from the program. *)
From Verif Require Import GoBase.
Local Open Scope Z_scope.

(** Words are taken modulo 2^32; the paper's complement and rotation. *)
Definition w32 (x : Z) : Z := x mod 2 ^ 32.
Definition compl (x : Z) : Z := 2 ^ 32 - 1 - x.
Definition rol (s x : Z) : Z := w32 (x * 2 ^ s) + x / 2 ^ (32 - s).

(** The Boolean functions of the five rounds. *)
Definition bf (round : Z) (x y z : Z) : Z :=
  if round =? 0 then Z.lxor (Z.lxor x y) z
  else if round =? 1 then Z.lor (Z.land x y) (Z.land (compl x) z)
  else if round =? 2 then Z.lxor (Z.lor x (compl y)) z
  else if round =? 3 then Z.lor (Z.land x z) (Z.land y (compl z))
  else Z.lxor x (Z.lor y (compl z)).

(** Constants: the integer parts of 2^30 times the square roots (left line) and
    the cube roots (right line) of 2, 3, 5 and 7. *)
Fixpoint cbrt_below (n : nat) (v acc : Z) : Z :=
  match n with
  | O => acc
  | S m => let t := acc + 2 ^ Z.of_nat m in cbrt_below m v (if t * t * t <=? v then t else acc)
  end.
Definition prime_of (round : Z) : Z := if round =? 1 then 2 else if round =? 2 then 3 else if round =? 3 then 5 else 7.
Definition kl (round : Z) : Z := if round =? 0 then 0 else Z.sqrt (prime_of round * 2 ^ 60).
Definition kr (round : Z) : Z := if round =? 4 then 0 else cbrt_below 32 (prime_of (round + 1) * 2 ^ 90) 0.

(** Order of the words: rho, applied once per round, and pi first on the right. *)
Definition rho (i : Z) : Z := nth (Z.to_nat i) [7; 4; 13; 1; 10; 6; 15; 3; 12; 0; 9; 5; 2; 14; 11; 8] 0.
Definition pi (i : Z) : Z := (9 * i + 5) mod 16.
Definition sel (j : Z) : Z := Nat.iter (Z.to_nat (j / 16)) rho (j mod 16).
Definition sel' (j : Z) : Z := Nat.iter (Z.to_nat (j / 16)) rho (pi (j mod 16)).

(** Shifts, by round and by word. *)
Definition shifts : list (list Z) :=
  [[11; 14; 15; 12; 5; 8; 7; 9; 11; 13; 14; 15; 6; 7; 9; 8];
   [12; 13; 11; 15; 6; 9; 9; 7; 12; 15; 11; 13; 7; 8; 7; 7];
   [13; 15; 14; 11; 7; 7; 6; 8; 13; 14; 13; 12; 5; 5; 6; 9];
   [14; 11; 12; 14; 8; 6; 5; 5; 15; 12; 15; 14; 9; 9; 8; 6];
   [15; 12; 13; 13; 9; 5; 8; 6; 14; 11; 12; 11; 8; 6; 5; 5]].
Definition shift_of (round word : Z) : Z := nth (Z.to_nat word) (nth (Z.to_nat round) shifts []) 0.

(** One step of a line (the paper's pseudo-code, cyclic renaming of A to E). *)
Definition line_step (f k x s : Z) (v : Z * Z * Z * Z * Z) : Z * Z * Z * Z * Z :=
  let '(a, b, c, d, e) := v in
  (e, w32 (rol s (w32 (a + f + x + k)) + e), b, rol 10 c, d).

Definition left_step (x : Z -> Z) (v : Z * Z * Z * Z * Z) (j : Z) : Z * Z * Z * Z * Z :=
  let '(a, b, c, d, e) := v in
  line_step (bf (j / 16) b c d) (kl (j / 16)) (x (sel j)) (shift_of (j / 16) (sel j)) v.
Definition right_step (x : Z -> Z) (v : Z * Z * Z * Z * Z) (j : Z) : Z * Z * Z * Z * Z :=
  let '(a, b, c, d, e) := v in
  line_step (bf (4 - j / 16) b c d) (kr (j / 16)) (x (sel' j)) (shift_of (j / 16) (sel' j)) v.

Definition steps : list Z := map Z.of_nat (seq 0 80).

Definition compress (h : Z * Z * Z * Z * Z) (x : Z -> Z) : Z * Z * Z * Z * Z :=
  let '(h0, h1, h2, h3, h4) := h in
  let '(a, b, c, d, e) := fold_left (left_step x) steps h in
  let '(a', b', c', d', e') := fold_left (right_step x) steps h in
  (w32 (h1 + c + d'), w32 (h2 + d + e'), w32 (h3 + e + a'), w32 (h4 + a + b'), w32 (h0 + b + c')).

(** Little-endian numbers. *)
Fixpoint le (b : bytes) : Z := match b with [] => 0 | x :: r => x + 256 * le r end.
Fixpoint le_bytes (n : nat) (x : Z) : bytes :=
  match n with O => [] | S m => x mod 256 :: le_bytes m (x / 256) end.

(** Padding: a one bit, zeros, and the length in bits modulo 2^64. *)
Definition padding (n : Z) : bytes :=
  [128] ++ repeat 0 (Z.to_nat ((55 - n) mod 64)) ++ le_bytes 8 (8 * n).

Definition word_at (block : bytes) (i : Z) : Z := le (firstn 4 (skipn (Z.to_nat (4 * i)) block)).

Fixpoint blocks (n : nat) (h : Z * Z * Z * Z * Z) (m : bytes) : Z * Z * Z * Z * Z :=
  match n with
  | O => h
  | S k => blocks k (compress h (word_at (firstn 64 m))) (skipn 64 m)
  end.

Definition iv : Z * Z * Z * Z * Z := (0x67452301, 0xefcdab89, 0x98badcfe, 0x10325476, 0xc3d2e1f0).

Definition rmd160 (m : bytes) : bytes :=
  let p := m ++ padding (len m) in
  let '(h0, h1, h2, h3, h4) := blocks (length p / 64) iv p in
  le_bytes 4 h0 ++ le_bytes 4 h1 ++ le_bytes 4 h2 ++ le_bytes 4 h3 ++ le_bytes 4 h4.

Example ex_empty : rmd160 [] = [0x9c; 0x11; 0x85; 0xa5; 0xc5; 0xe9; 0xfc; 0x54; 0x61; 0x28; 0x08; 0x97; 0x7e; 0xe8; 0xf5; 0x48; 0xb2; 0x25; 0x8d; 0x31].
Proof. vm_compute. reflexivity. Qed.
