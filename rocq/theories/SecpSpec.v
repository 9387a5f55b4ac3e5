(** What the curve arithmetic should do, in integers and congruences only. *)

From Verif Require Import GoBase.
Local Open Scope Z_scope.

Definition prime_p : Z := 2 ^ 256 - 2 ^ 32 - 977.
Definition order_n : Z :=
  2 ^ 256 - 432420386565659656852420866394968145599.

Definition eqp (a b : Z) : Prop := (a - b) mod prime_p = 0.

(** [None] is the point at infinity. *)
Definition point : Type := option (Z * Z).

(** A point of y^2 = x^3 + 7 with reduced coordinates. *)
Definition good (P : point) : Prop :=
  match P with
  | None => True
  | Some (x, y) => 0 <= x < prime_p /\ 0 <= y < prime_p /\ eqp (y * y) (x * x * x + 7)
  end.

(** The third intersection of the line of slope l through (x1, y1), the other
    one being above x2, reflected. *)
Definition line (l x1 y1 x2 : Z) (R : point) : Prop :=
  exists x3 y3, R = Some (x3, y3) /\ 0 <= x3 < prime_p /\ 0 <= y3 < prime_p /\
    eqp x3 (l * l - x1 - x2) /\ eqp y3 (l * (x1 - x3) - y1).

(** Chord and tangent. *)
Definition sum_of (P Q R : point) : Prop :=
  match P, Q with
  | None, _ => R = Q
  | _, None => R = P
  | Some (x1, y1), Some (x2, y2) =>
      (x1 = x2 /\ eqp (y1 + y2) 0 /\ R = None)
      \/ (x1 = x2 /\ ~ eqp (y1 + y2) 0 /\
          exists l, eqp (l * (2 * y1)) (3 * x1 * x1) /\ line l x1 y1 x1 R)
      \/ (x1 <> x2 /\ exists l, eqp (l * (x2 - x1)) (y2 - y1) /\ line l x1 y1 x2 R)
  end.

(** k-fold sums. *)
Inductive multiple (P : point) : Z -> point -> Prop :=
| mult_0 : multiple P 0 None
| mult_S : forall k R R', 0 <= k -> multiple P k R -> sum_of P R R' ->
    multiple P (k + 1) R'.

(** How the program writes a point. *)
Definition px (P : point) : Z := match P with None => 0 | Some (x, _) => x end.
Definition py (P : point) : Z := match P with None => 0 | Some (_, y) => y end.

(** Big-endian value. *)
Fixpoint be (k : bytes) : Z :=
  match k with
  | [] => 0
  | b :: r => b * 256 ^ Z.of_nat (length r) + be r
  end.

Definition opposite (P : point) : point :=
  match P with
  | None => None
  | Some (x, y) => Some (x, (- y) mod prime_p)
  end.

(** The standard base point (SEC 2, 2.4.1). *)
Definition base : point :=
  Some (55066263022277343669578718895168534326250603453777594175500187360389116729240,
        32670510020758816978083085130507043184471273380659243275938904335757337482424).
