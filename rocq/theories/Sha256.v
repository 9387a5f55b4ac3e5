(** SHA-256 (FIPS 180-4), executable.  The repository calls Go's crypto/sha256; in theorems the hash is a
    parameter.  This concrete function only serves to run models on the repository's test vectors and to
    build concrete witnesses. *)
From Verif Require Import GoBase.

Definition K256 : list Z :=
  [0x428a2f98; 0x71374491; 0xb5c0fbcf; 0xe9b5dba5; 0x3956c25b; 0x59f111f1; 0x923f82a4; 0xab1c5ed5;
   0xd807aa98; 0x12835b01; 0x243185be; 0x550c7dc3; 0x72be5d74; 0x80deb1fe; 0x9bdc06a7; 0xc19bf174;
   0xe49b69c1; 0xefbe4786; 0x0fc19dc6; 0x240ca1cc; 0x2de92c6f; 0x4a7484aa; 0x5cb0a9dc; 0x76f988da;
   0x983e5152; 0xa831c66d; 0xb00327c8; 0xbf597fc7; 0xc6e00bf3; 0xd5a79147; 0x06ca6351; 0x14292967;
   0x27b70a85; 0x2e1b2138; 0x4d2c6dfc; 0x53380d13; 0x650a7354; 0x766a0abb; 0x81c2c92e; 0x92722c85;
   0xa2bfe8a1; 0xa81a664b; 0xc24b8b70; 0xc76c51a3; 0xd192e819; 0xd6990624; 0xf40e3585; 0x106aa070;
   0x19a4c116; 0x1e376c08; 0x2748774c; 0x34b0bcb5; 0x391c0cb3; 0x4ed8aa4a; 0x5b9cca4f; 0x682e6ff3;
   0x748f82ee; 0x78a5636f; 0x84c87814; 0x8cc70208; 0x90befffa; 0xa4506ceb; 0xbef9a3f7; 0xc67178f2].
Definition H256 : list Z := [0x6a09e667; 0xbb67ae85; 0x3c6ef372; 0xa54ff53a; 0x510e527f; 0x9b05688c; 0x1f83d9ab; 0x5be0cd19].

Definition rotr (n x : Z) : Z := Z.lor (Z.shiftr x n) (Z.land (Z.shiftl x (32 - n)) 0xffffffff).
Definition add32 (a b : Z) : Z := Z.land (a + b) 0xffffffff.
Definition ch (x y z : Z) : Z := Z.lxor z (Z.land x (Z.lxor y z)).
Definition maj (x y z : Z) : Z := Z.lor (Z.land x y) (Z.land z (Z.lor x y)).
Definition bsig0 x := Z.lxor (rotr 2 x) (Z.lxor (rotr 13 x) (rotr 22 x)).
Definition bsig1 x := Z.lxor (rotr 6 x) (Z.lxor (rotr 11 x) (rotr 25 x)).
Definition ssig0 x := Z.lxor (rotr 7 x) (Z.lxor (rotr 18 x) (Z.shiftr x 3)).
Definition ssig1 x := Z.lxor (rotr 17 x) (Z.lxor (rotr 19 x) (Z.shiftr x 10)).

(** The message schedule as a sliding window of the last 16 words. *)
Definition next_w (w : list Z) : Z :=
  add32 (add32 (ssig1 (nth 14 w 0)) (nth 9 w 0)) (add32 (ssig0 (nth 1 w 0)) (nth 0 w 0)).

Definition round256 (s : list Z) (k w : Z) : list Z :=
  match s with
  | [a; b; c; d; e; f; g; h] =>
      let t1 := add32 (add32 (add32 h (bsig1 e)) (add32 (ch e f g) k)) w in
      let t2 := add32 (bsig0 a) (maj a b c) in
      [add32 t1 t2; a; b; c; add32 d t1; e; f; g]
  | _ => s
  end.

Fixpoint rounds256 (ks w s : list Z) : list Z :=
  match ks with
  | [] => s
  | k :: ks' => rounds256 ks' (tl w ++ [next_w w]) (round256 s k (hd 0 w))
  end.

Fixpoint words_be (b : bytes) : list Z :=
  match b with
  | a :: b1 :: c :: d :: r => (a * 16777216 + b1 * 65536 + c * 256 + d) :: words_be r
  | _ => []
  end.

Fixpoint map2 {A B C} (f : A -> B -> C) (a : list A) (b : list B) : list C :=
  match a, b with x :: a', y :: b' => f x y :: map2 f a' b' | _, _ => [] end.

Definition block256 (s : list Z) (blk : bytes) : list Z := map2 add32 s (rounds256 K256 (words_be blk) s).

Fixpoint be_bytes (n : nat) (x : Z) : bytes :=
  match n with O => [] | S n' => be_bytes n' (x / 256) ++ [x mod 256] end.

Definition pad256 (m : bytes) : bytes :=
  m ++ [128] ++ repeat 0 (Z.to_nat ((55 - len m) mod 64)) ++ be_bytes 8 (8 * len m).

Fixpoint blocks256 (n : nat) (s : list Z) (m : bytes) : list Z :=
  match n with O => s | S n' => blocks256 n' (block256 s (firstn 64 m)) (skipn 64 m) end.

Definition sha256 (m : bytes) : bytes :=
  let p := pad256 m in
  flat_map (be_bytes 4) (blocks256 (Z.to_nat (len p / 64)) H256 p).

(** FIPS 180-4 test vectors. *)
Definition hex_digit (c : Z) : Z := if c <? 58 then c - 48 else c - 87.
Fixpoint unhex (b : bytes) : bytes :=
  match b with x :: y :: r => (hex_digit x * 16 + hex_digit y) :: unhex r | _ => [] end.
Definition hx (s : string) : bytes := unhex (str_bytes s).
Example sha256_abc : sha256 (str_bytes "abc") = hx "ba7816bf8f01cfea414140de5dae2223b00361a396177a9cb410ff61f20015ad".
Proof. vm_compute. reflexivity. Qed.
Example sha256_two_blocks : sha256 (str_bytes "abcdbcdecdefdefgefghfghighijhijkijkljklmklmnlmnomnopnopq")
  = hx "248d6a61d20638b8e5c026930c3e6039a33ce45964ff2167f6ecedd419db06c1".
Proof. vm_compute. reflexivity. Qed.
