(** What a Merkle root and a membership proof are, independent of how the code stores its tree. *)
From Verif Require Import GoBase.

Section Spec.
Variable H : bytes -> bytes.

(** One round of Bitcoin's: neighbours are hashed together, an odd one out with itself. *)
Fixpoint btc_round (l : list bytes) : list bytes :=
  match l with
  | [] => []
  | [a] => [H (a ++ a)]
  | a :: b :: rest => H (a ++ b) :: btc_round rest
  end.
(** Repeated until one is left. *)
Inductive btc_root : list bytes -> bytes -> Prop :=
| br_one x : btc_root [x] x
| br_round a b rest r : btc_root (btc_round (a :: b :: rest)) r -> btc_root (a :: b :: rest) r.

(** What is hashed on the way. *)
Fixpoint round_inputs (l : list bytes) : list bytes :=
  match l with
  | [] => []
  | [a] => [a ++ a]
  | a :: b :: rest => (a ++ b) :: round_inputs rest
  end.
Inductive btc_inputs : list bytes -> list bytes -> Prop :=
| bi_one x : btc_inputs [x] []
| bi_round a b rest is : btc_inputs (btc_round (a :: b :: rest)) is -> btc_inputs (a :: b :: rest) (round_inputs (a :: b :: rest) ++ is).

(** What the code computes instead: at a level of even length that is not full it appends two zero hashes. *)
Definition zero_hash : bytes := repeat 0 32.
Definition zero_fill (depth : nat) (l : list bytes) : list bytes := if Nat.even (length l) && negb (length l =? 2 ^ depth)%nat then l ++ [zero_hash; zero_hash] else l.
Fixpoint filled_root (depth : nat) (l : list bytes) : bytes :=
  match depth with O => hd [] l | S d => filled_root d (btc_round (zero_fill depth l)) end.
Fixpoint filled_inputs (depth : nat) (l : list bytes) : list bytes :=
  match depth with O => [] | S d => round_inputs (zero_fill depth l) ++ filled_inputs d (btc_round (zero_fill depth l)) end.

(** Climbing from a leaf: each step gives the sibling and whether it stands left; no sibling: the node itself, right. *)
Definition join (x : bytes) (step : bool * option bytes) : bytes :=
  match step with (true, Some s) => s ++ x | (false, Some s) => x ++ s | (_, None) => x ++ x end.
Fixpoint climb (x : bytes) (steps : list (bool * option bytes)) : bytes :=
  match steps with [] => x | st :: rest => climb (H (join x st)) rest end.
Fixpoint climb_inputs (x : bytes) (steps : list (bool * option bytes)) : list bytes :=
  match steps with [] => [] | st :: rest => join x st :: climb_inputs (H (join x st)) rest end.
(** Two different strings, one from each list, with the same hash. *)
Definition collision (us vs : list bytes) : Prop := exists u v, In u us /\ In v vs /\ u <> v /\ H u = H v.
End Spec.

(** The leaf counts at which every level of a tree of that depth is full or odd. *)
Fixpoint fits (depth n : nat) : Prop :=
  match depth with
  | O => n = 1%nat
  | S d => n = (2 ^ depth)%nat \/ Nat.odd n = true /\ fits d ((n + 1) / 2)
  end.
