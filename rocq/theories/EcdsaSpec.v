(** What ECDSA (SEC 1, 4.1) and RFC 6979 ask for, in integers, lists and the
    points of SecpSpec. *)

From Verif Require Import GoBase SecpSpec.
Local Open Scope Z_scope.

(** The leftmost [qlen] bits of an octet string, RFC 6979 2.3.2. *)
Definition bits_to_int (qlen : Z) (b : bytes) : Z :=
  be b / 2 ^ Z.max 0 (8 * Z.of_nat (length b) - qlen).

(** [n] octets, most significant first, RFC 6979 2.3.3. *)
Fixpoint octets (n : nat) (x : Z) : bytes :=
  match n with
  | O => []
  | S m => octets m (x / 256) ++ [x mod 256]
  end.

Section Rfc.
Variable H : bytes -> bytes -> bytes.
(** The order and its length in bits. *)
Variable q qlen : Z.

(** ceil (a / b). *)
Definition ceil_div (a b : Z) : Z := - ((- a) / b).

Definition rlen : nat := Z.to_nat (ceil_div qlen 8).

(** RFC 6979 2.3.4. *)
Definition bits_to_octets (b : bytes) : bytes := octets rlen (bits_to_int qlen b mod q).

(** RFC 6979 3.2 b-g: (K, V) before the first candidate. *)
Definition rfc_start (x : Z) (h1 : bytes) : bytes * bytes :=
  let z := octets rlen x ++ bits_to_octets h1 in
  let V0 := repeat 1 32 in
  let K1 := H (repeat 0 32) (V0 ++ [0] ++ z) in
  let V1 := H K1 V0 in
  let K2 := H K1 (V1 ++ [1] ++ z) in
  (K2, H K2 V1).

(** V after n more blocks. *)
Fixpoint rfc_v (K V : bytes) (n : nat) : bytes :=
  match n with O => V | S m => H K (rfc_v K V m) end.

(** The blocks themselves. *)
Fixpoint rfc_t (K V : bytes) (n : nat) : bytes :=
  match n with O => [] | S m => rfc_t K V m ++ rfc_v K V (S m) end.

(** h: as many 256-bit blocks as are needed for qlen bits. *)
Definition rfc_blocks : nat := Z.to_nat (ceil_div qlen 256).

Definition rfc_next (KV : bytes * bytes) : bytes * bytes :=
  let (K, V) := KV in
  let V' := rfc_v K V rfc_blocks in
  let K' := H K (V' ++ [0]) in
  (K', H K' V').

Fixpoint rfc_state (x : Z) (h1 : bytes) (i : nat) : bytes * bytes :=
  match i with O => rfc_start x h1 | S j => rfc_next (rfc_state x h1 j) end.

(** The i-th candidate. *)
Definition rfc_candidate (x : Z) (h1 : bytes) (i : nat) : Z :=
  let (K, V) := rfc_state x h1 i in bits_to_int qlen (rfc_t K V rfc_blocks).

(** The nonce: the first candidate in range. *)
Definition rfc_nonce (x : Z) (h1 : bytes) (i : nat) (k : Z) : Prop :=
  k = rfc_candidate x h1 i /\ 1 <= k < q /\
  forall j, (j < i)%nat -> ~ 1 <= rfc_candidate x h1 j < q.
End Rfc.

(** (r, s) is a signature of the number e under the point Q. *)
Definition ecdsa_valid (Q : point) (e r s : Z) : Prop :=
  1 <= r < order_n /\ 1 <= s < order_n /\
  exists w U V R,
    (s * w) mod order_n = 1 /\
    multiple base ((e * w) mod order_n) U /\
    multiple Q ((r * w) mod order_n) V /\
    sum_of U V R /\ R <> None /\ px R mod order_n = r.

(** The number signed: the leftmost 256 bits. *)
Definition message_int (hash : bytes) : Z := bits_to_int 256 hash.
