(** The byte strings that are transactions, and what they say; stated without the reader.  A compact size may be
    written longer than needed. *)
From Verif Require Import GoBase BufferSpec TxModel.
Local Open Scope Z_scope.

Inductive size : bytes -> Z -> Prop :=
| size_1 n : 0 <= n < 253 -> size [n] n
| size_3 e : length e = 2%nat -> bytes_ok e -> size (253 :: e) (le_value e)
| size_5 e : length e = 4%nat -> bytes_ok e -> size (254 :: e) (le_value e)
| size_9 e : length e = 8%nat -> bytes_ok e -> size (255 :: e) (le_value e).
Inductive word (n : nat) : bytes -> Z -> Prop := word_le e : length e = n -> bytes_ok e -> word n e (le_value e).
Inductive sized : bytes -> bytes -> Prop := sized_app c s : size c (len s) -> bytes_ok s -> sized (c ++ s) s.

(** [many G e l]: [e] is one part after the other. *)
Inductive many {A} (G : bytes -> A -> Prop) : bytes -> list A -> Prop :=
| many_nil : many G [] []
| many_cons e x es xs : G e x -> many G es xs -> many G (e ++ es) (x :: xs).
Inductive counted {A} (G : bytes -> A -> Prop) : bytes -> list A -> Prop := counted_app c e l : size c (len l) -> many G e l -> counted G (c ++ e) l.

(** An input as it arrives: everything that is not transmitted is unset. *)
Definition arrived (h : bytes) (ix sq : Z) (u : bytes) (ws : list bytes) : TxIn := MkIn h ix 0 sq [] None ws None [] [] u.
Inductive an_input : bytes -> TxIn -> Prop := input_of h a ix u s b sq : length h = 32%nat -> bytes_ok h -> word 4 a ix -> sized u s -> word 4 b sq ->
  an_input (h ++ a ++ u ++ b) (arrived h ix sq s []).
Inductive an_output : bytes -> TxOut -> Prop := output_of a v u s : word 8 a v -> sized u s -> an_output (a ++ u) (MkOut v s).
(** The witnesses, one stack for each input. *)
Inductive witnesses : bytes -> list TxIn -> list TxIn -> Prop :=
| wit_nil : witnesses [] [] []
| wit_cons e ws h ix sq u old es l l' : counted sized e ws -> witnesses es l l' -> witnesses (e ++ es) (arrived h ix sq u old :: l) (arrived h ix sq u ws :: l').

Inductive legacy_tx : bytes -> transaction -> Prop := legacy_of a v i ins o outs b lt : word 4 a v -> counted an_input i ins -> counted an_output o outs -> word 4 b lt ->
  legacy_tx (a ++ i ++ o ++ b) (MkTx v lt ins outs None None None).
Inductive witness_tx : bytes -> transaction -> Prop := witness_of a v i ins o outs w ins' b lt : word 4 a v -> counted an_input i ins -> counted an_output o outs ->
  witnesses w ins ins' -> word 4 b lt -> witness_tx (a ++ [0; 1] ++ i ++ o ++ w ++ b) (MkTx v lt ins' outs None None None).
