(** DER (X.690) for a SEQUENCE of two INTEGERs. *)

From Verif Require Import GoBase SecpSpec EcdsaSpec.
Local Open Scope Z_scope.

(** 8.3: the contents octets of an INTEGER are its two's complement. *)
Definition twos (c : bytes) (x : Z) : Prop :=
  match c with
  | [] => False
  | h :: _ => x = be c - (if 128 <=? h then 256 ^ Z.of_nat (length c) else 0)
  end.

(** 8.3.2: the first nine bits are not all equal. *)
Definition minimal (c : bytes) : Prop :=
  match c with
  | h :: k :: _ => ~ (h = 0 /\ k < 128) /\ ~ (h = 255 /\ 128 <= k)
  | _ => True
  end.

(** 8.1.3, 10.1: the length octets; definite, and as short as possible. *)
Definition length_form (l : bytes) (n : Z) : Prop :=
  (n < 128 /\ l = [n]) \/
  (128 <= n /\ exists k, (0 < k < 127)%nat /\ 256 ^ (Z.of_nat k - 1) <= n < 256 ^ Z.of_nat k /\
     l = (128 + Z.of_nat k) :: octets k n).

(** Identifier, length, contents. *)
Definition tlv (id : Z) (c b : bytes) : Prop :=
  exists l, length_form l (Z.of_nat (length c)) /\ b = id :: l ++ c.

Definition der_int (b : bytes) (x : Z) : Prop :=
  exists c, twos c x /\ minimal c /\ tlv 2 c b.

Definition der_sig (b : bytes) (r s : Z) : Prop :=
  exists ir is, der_int ir r /\ der_int is s /\ tlv 48 (ir ++ is) b.
