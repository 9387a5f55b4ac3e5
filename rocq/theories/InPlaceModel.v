(** Model in memory of the two derivations that overwrite their own buffers: /repo/xcrypto/ecdsa/rfc6979.go and
    /repo/xcrypto/pbkdf2/pbkdf2.go.  EcdsaModel and Pbkdf2Model have the same functions with slices as values. *)
From Verif Require Import GoBase BigInt BigMod SecpModel EcdsaModel Pbkdf2Model MemModel.

Section Mem.
Variable grow : nat -> nat -> nat.
Local Notation append := (@go_append Z 0 grow).
Local Notation heap := (@heap Z).

(** make([]byte, n, c). *)
Definition make_slice (h : heap) (n c : nat) : heap * slice := (h ++ [repeat 0 c], Slice (length h) 0 n c).
(** Assigning to the elements of [s], from the first one on. *)
Definition store (h : heap) (s : slice) (xs : bytes) : heap := upd (s_arr s) (write (array h (s_arr s)) (s_off s) xs) h.
(** A slice made by a function that returns a new one; its spare room is not known. *)
Definition fresh (h : heap) (xs : bytes) : heap * slice := append h empty_slice xs.

(** ** rfc6979.go *)
Section Nonce.
Variable hmac : bytes -> bytes -> bytes.

(** rfc6979.go:72-78: the sum is appended to buf[:0]. *)
Definition mac_mem (h : heap) (k m buf : slice) : heap * slice :=
  append h (slice_to buf 0) (hmac (read h k) (read h m)).

(** rfc6979.go:52-56. *)
Fixpoint stepH2_mem (fuel : nat) (h : heap) (k v t : slice) (want : Z) : heap * slice * slice :=
  match fuel with
  | O => (h, v, t)
  | S f =>
      if Z.of_nat (s_len t) <? want then
        let (h, v) := mac_mem h k v v in
        let (h, t) := append h t (read h v) in
        stepH2_mem f h k v t want
      else (h, v, t)
  end.

(** rfc6979.go:48-68. *)
Fixpoint stepH_mem (fuel : nat) (h : heap) (q qlen : Z) (k v : slice) : heap * option Z :=
  match fuel with
  | O => (h, None)
  | S f =>
      let '(h, v, t) := stepH2_mem (Z.to_nat (qlen / 8)) h k v empty_slice (qlen / 8) in
      let secret := bits2int (read h t) qlen in
      if (1 <=? secret) && (secret <? q) then (h, Some secret)
      else
        let (h, m) := append h v [0] in
        let (h, k) := mac_mem h k m k in
        let (h, v) := mac_mem h k v v in
        stepH_mem f h q qlen k v
  end.

(** rfc6979.go:25-69. *)
Definition NonceMem (fuel : nat) (h : heap) (q x : Z) (hash : slice) : heap * option Z :=
  let qlen := bit_len q in
  let holen := 32%nat in
  let rolen := Z.shiftr (qlen + 7) 3 in
  let (h, bx0) := fresh h (int2octets x rolen) in
  let (h, bx) := append h bx0 (bits2octets (read h hash) q qlen rolen) in
  let (h, v) := fresh h (repeat 1 holen) in
  let (h, k) := fresh h (repeat 0 holen) in
  let (h, m0) := append h v [0] in
  let (h, m) := append h m0 (read h bx) in
  let (h, k) := mac_mem h k m k in
  let (h, v) := mac_mem h k v v in
  let (h, m0) := append h v [1] in
  let (h, m) := append h m0 (read h bx) in
  let (h, k) := mac_mem h k m k in
  let (h, v) := mac_mem h k v v in
  stepH_mem fuel h q qlen k v.
End Nonce.

(** ** pbkdf2.go *)
Section Key.
Variable prf : bytes -> bytes.
Variable hashLen : Z.

(** pbkdf2.go:56-66: U is refilled in place and T, which shares the array of dk, is changed element by element. *)
Fixpoint iterate_mem (rounds : nat) (h : heap) (T U : slice) : heap * slice :=
  match rounds with
  | O => (h, U)
  | S r =>
      let (h, U) := append h (slice_to U 0) (prf (read h U)) in
      let h := store h T (xor_into (read h T) (read h U)) in
      iterate_mem r h T U
  end.

(** pbkdf2.go:37-67; copy moves as many bytes as the shorter of the two has. *)
Definition one_block_mem (salt : slice) (iter block : Z) (h : heap) (dk U : slice) : heap * slice * slice :=
  let buf := [u8 (Z.shiftr block 24); u8 (Z.shiftr block 16); u8 (Z.shiftr block 8); u8 block] in
  let (h, dk) := append h dk (prf (read h salt ++ buf)) in
  let T := slice_from dk (s_len dk - Z.to_nat hashLen) in
  let h := store h U (firstn (s_len U) (read h T)) in
  let (h, U) := iterate_mem (Z.to_nat (iter - 1)) h T U in
  (h, dk, U).
Fixpoint all_blocks_mem (salt : slice) (iter : Z) (n : nat) (block : Z) (h : heap) (dk U : slice) : heap * slice :=
  match n with
  | O => (h, dk)
  | S m => let '(h, dk, U) := one_block_mem salt iter block h dk U in all_blocks_mem salt iter m (block + 1) h dk U
  end.

(** pbkdf2.go:28-69; dk[:keyLen] may go up to the capacity of dk. *)
Definition KeyMem (h : heap) (salt : slice) (iter keyLen : Z) : heap * res slice :=
  let numBlocks := Z.quot (i64 (i64 (keyLen + hashLen) - 1)) hashLen in
  if negb (make_ok (i64 (numBlocks * hashLen)) 1) then (h, Panic)
  else
    let (h, dk) := make_slice h 0 (Z.to_nat (i64 (numBlocks * hashLen))) in
    let (h, U) := make_slice h (Z.to_nat hashLen) (Z.to_nat hashLen) in
    let (h, dk) := all_blocks_mem salt iter (Z.to_nat numBlocks) 1 h dk U in
    (h, if (0 <=? keyLen) && (keyLen <=? Z.of_nat (s_cap dk)) then Ok (slice_to dk (Z.to_nat keyLen)) else Panic).
End Key.
End Mem.
