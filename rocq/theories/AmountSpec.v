(** When the network takes a transaction, and transactions with other amounts noted. *)
From Verif Require Import GoBase TxModel.

(** Bitcoin's rule (IsFinalTx): a lock time below 500000000 is a block height, otherwise a time.  A transaction is held
    back while its lock time is not below that of the block, unless all its inputs have the sequence number 0xffffffff. *)
Definition final_at (t : transaction) (height time : Z) : Prop :=
  tx_locktime t = 0 \/ (tx_locktime t < 500000000 /\ tx_locktime t < height) \/ (500000000 <= tx_locktime t /\ tx_locktime t < time) \/ Forall (fun i => ti_seq i = 0xffffffff) (tx_ins t).
(** Input [n] with another sequence number. *)
Definition new_seq (s : Z) (i : TxIn) : TxIn :=
  MkIn (ti_hash i) (ti_index i) (ti_value i) s (ti_sighash i) (ti_redeem i) (ti_witness i) (ti_code i) (ti_rawlock i) (ti_finallock i) (ti_unlock i).
Definition resequenced (n : nat) (s : Z) (t : transaction) : transaction :=
  MkTx (tx_version t) (tx_locktime t) (firstn n (tx_ins t) ++ map (new_seq s) (firstn 1 (skipn n (tx_ins t))) ++ skipn (S n) (tx_ins t)) (tx_outs t) (tx_prevouts t) (tx_sequence t) (tx_outputs t).

(** Input [n] with another amount; the amount is not sent with a transaction. *)
Definition new_value (v : Z) (i : TxIn) : TxIn :=
  MkIn (ti_hash i) (ti_index i) v (ti_seq i) (ti_sighash i) (ti_redeem i) (ti_witness i) (ti_code i) (ti_rawlock i) (ti_finallock i) (ti_unlock i).
Definition revalued (n : nat) (v : Z) (t : transaction) : transaction :=
  MkTx (tx_version t) (tx_locktime t) (firstn n (tx_ins t) ++ map (new_value v) (firstn 1 (skipn n (tx_ins t))) ++ skipn (S n) (tx_ins t)) (tx_outs t) (tx_prevouts t) (tx_sequence t) (tx_outputs t).
