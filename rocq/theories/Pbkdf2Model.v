(** Model of /repo/xcrypto/pbkdf2/pbkdf2.go.

    The HMAC object is a function [prf] from the bytes written since the last
    Reset to the sum, of [hashLen] bytes (crypto/hmac is trusted; the password
    is part of the function).  dk is one array; T is its last hashLen bytes and
    writes through it; U is another array of its own (InPlaceModel has them in
    memory). *)
From Verif Require Import GoBase.
Local Open Scope Z_scope.

Section Pbkdf2.
Variable prf : bytes -> bytes.
Variable hashLen : Z.

(** pbkdf2.go 63-65: T[x] ^= U[x], T being dk[off:]. *)
Fixpoint xor_into (t u : bytes) : bytes :=
  match t, u with
  | x :: t', y :: u' => Z.lxor x y :: xor_into t' u'
  | t, _ => t
  end.

(** pbkdf2.go 56-66: the loop over n, for the remaining [rounds]. *)
Fixpoint iterate (rounds : nat) (dk : bytes) (off : nat) (U : bytes) : bytes :=
  match rounds with
  | O => dk
  | S r =>
      let U := prf U in
      let dk := firstn off dk ++ xor_into (skipn off dk) U in
      iterate r dk off U
  end.

(** pbkdf2.go 37-67: the body of the loop over blocks. *)
Definition one_block (salt : bytes) (iter : Z) (block : Z) (dk : bytes) : bytes :=
  let buf := [u8 (Z.shiftr block 24); u8 (Z.shiftr block 16); u8 (Z.shiftr block 8); u8 block] in
  let dk := dk ++ prf (salt ++ buf) in
  let off := (length dk - Z.to_nat hashLen)%nat in
  let U := skipn off dk in
  iterate (Z.to_nat (iter - 1)) dk off U.

(** pbkdf2.go 36: the loop over blocks. *)
Fixpoint all_blocks (salt : bytes) (iter : Z) (n : nat) (block : Z) (dk : bytes) : bytes :=
  match n with
  | O => dk
  | S m => all_blocks salt iter m (block + 1) (one_block salt iter block dk)
  end.

(** pbkdf2.go 28-69: Key.  int is 64 bits wide; make panics for a negative or
    excessive capacity. *)
Definition Key (salt : bytes) (iter keyLen : Z) : res bytes :=
  let numBlocks := Z.quot (i64 (i64 (keyLen + hashLen) - 1)) hashLen in
  if negb (make_ok (i64 (numBlocks * hashLen)) 1) then Panic
  else
    let dk := all_blocks salt iter (Z.to_nat numBlocks) 1 [] in
    slice dk 0 keyLen.
End Pbkdf2.
