(** A transaction on its way: anybody who relays it may replace a signature script. *)
From Verif Require Import GoBase TxModel.

Definition new_script (u : bytes) (i : TxIn) : TxIn :=
  MkIn (ti_hash i) (ti_index i) (ti_value i) (ti_seq i) (ti_sighash i) (ti_redeem i) (ti_witness i) (ti_code i) (ti_rawlock i) (ti_finallock i) u.
(** The transaction [t] with the signature script [u] in input [n], everything else as it was. *)
Definition rewritten (n : nat) (u : bytes) (t : transaction) : transaction :=
  MkTx (tx_version t) (tx_locktime t) (firstn n (tx_ins t) ++ map (new_script u) (firstn 1 (skipn n (tx_ins t))) ++ skipn (S n) (tx_ins t)) (tx_outs t)
    (tx_prevouts t) (tx_sequence t) (tx_outputs t).
