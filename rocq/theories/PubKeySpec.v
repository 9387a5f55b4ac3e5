(** The encodings of SEC 1, 2.3.3, and the hybrid form of X9.62. *)

From Verif Require Import GoBase SecpSpec EcdsaSpec.
Local Open Scope Z_scope.

Definition parity (y : Z) : Z := y mod 2.

Inductive encodes : bytes -> Z -> Z -> Prop :=
| enc_compressed : forall x y, encodes ((2 + parity y) :: octets 32 x) x y
| enc_uncompressed : forall x y, encodes (4 :: octets 32 x ++ octets 32 y) x y
| enc_hybrid : forall x y, encodes ((6 + parity y) :: octets 32 x ++ octets 32 y) x y.

(** A standard encoding of a point of the curve. *)
Definition standard (key : bytes) (x y : Z) : Prop := encodes key x y /\ good (Some (x, y)).
