(** The Schnorr scheme of the 2019 draft BIP the program follows. *)

From Verif Require Import GoBase SecpSpec EcdsaSpec.
Local Open Scope Z_scope.

(** A non-zero square modulo the field prime. *)
Definition is_square (y : Z) : Prop := ~ eqp y 0 /\ exists z, eqp (z * z) y.

(** The 33-byte encoding of a finite point. *)
Definition compressed (P : point) : bytes := (2 + py P mod 2) :: octets 32 (px P).

(** int(hash(bytes(r) || bytes(P) || m)) mod n. *)
Definition challenge (sha : bytes -> bytes) (P : point) (m : bytes) (r : Z) : Z :=
  be (sha (octets 32 r ++ compressed P ++ m)) mod order_n.

(** The verification algorithm of the BIP accepts. *)
Definition schnorr_valid (sha : bytes -> bytes) (P : point) (m : bytes) (r s : Z) : Prop :=
  0 <= r < prime_p /\ 0 <= s < order_n /\
  exists S E y, multiple base s S /\ multiple P (challenge sha P m r) E /\
    sum_of S (opposite E) (Some (r, y)) /\ is_square y.
