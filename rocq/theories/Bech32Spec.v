(** What a user expects of Bech32 and witness addresses. *)
From Verif Require Import GoBase.

Definition is_upper (c : Z) : Prop := 65 <= c <= 90.
Definition is_lower (c : Z) : Prop := 97 <= c <= 122.
Definition printable (c : Z) : Prop := 33 <= c <= 126.
(** Lower-case form of an ASCII string. *)
Definition low (c : Z) : Z := if (65 <=? c) && (c <=? 90) then c + 32 else c.
Definition lowercase (s : bytes) : bytes := map low s.

(** A human-readable part that may be encoded. *)
Definition hrp_ok (h : bytes) : Prop := h <> [] /\ Forall (fun c => printable c /\ ~ is_upper c) h.
Definition five_bit (d : bytes) : Prop := Forall (fun v => 0 <= v < 32) d.

(** Number of positions at which two strings of equal length differ. *)
Fixpoint distance (a b : bytes) : nat :=
  match a, b with
  | x :: a', y :: b' => ((if (x =? y)%Z then 0 else 1) + distance a' b')%nat
  | _, _ => O
  end.
