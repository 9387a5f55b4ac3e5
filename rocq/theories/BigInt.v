(** Go's math/big conversions used by the models: [SetBytes], [Bytes], and repeated [DivMod] by a radix.
    This models the Go standard library, not repository code. *)
From Verif Require Import GoBase.

(** Value of little-endian digits in radix [r]. *)
Fixpoint le_val (r : Z) (l : list Z) : Z :=
  match l with [] => 0 | d :: l' => d + r * le_val r l' end.

(** Digits, least significant first, of a non-negative number: the loop
    [for x > 0 { x, m = DivMod(x, r); append m }].  The fuel covers every iteration (proved in [BigIntProofs]). *)
Fixpoint digits_fuel (r : Z) (fuel : nat) (x : Z) : list Z :=
  match fuel with
  | O => []
  | S f => if 0 <? x then x mod r :: digits_fuel r f (x / r) else []
  end.
Definition digits (r x : Z) : list Z := digits_fuel r (S (Z.to_nat (Z.log2 x))) x.

(** [new(big.Int).SetBytes(b)]. *)
Definition set_bytes (b : bytes) : Z := fold_left (fun acc d => acc * 256 + d) b 0.
(** [x.Bytes()]: minimal big-endian bytes of the absolute value. *)
Definition big_bytes (x : Z) : bytes := rev (digits 256 (Z.abs x)).
