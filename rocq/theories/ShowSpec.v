(** What the text of a transaction shows. *)
From Verif Require Import GoBase BaseLemmas BufferSpec ScriptModel ScriptSpec LockModel TxModel.

(** A script that can be taken apart into instructions. *)
Definition legible (d : bytes) : Prop := in_memory d /\ exists is, script_of is d.
(** All of an input but its sequence number and the witness items behind the first; of inputs without witness program,
    all but the sequence number and the witness. *)
Definition shown (i : TxIn) : bytes * Z * Z * bytes * bytes * bytes * obytes * bytes * option (bytes * bytes) :=
  (ti_hash i, ti_index i, ti_value i, ti_rawlock i, ti_finallock i, ti_unlock i, ti_redeem i, ti_sighash i,
   match ti_code i with Some c => Some (hd [] (ti_witness i), c) | None => None end).
Definition in_legible (i : TxIn) : Prop :=
  bytes_ok (ti_hash i) /\ 0 <= ti_index i /\ 0 <= ti_value i /\ bytes_ok (ti_sighash i) /\ legible (ti_rawlock i) /\ legible (ti_finallock i) /\ legible (ti_unlock i) /\
  (forall r, ti_redeem i = Some r -> legible r) /\ (forall c, ti_code i = Some c -> bytes_ok c) /\ Forall bytes_ok (ti_witness i).
Definition out_legible (o : TxOut) : Prop := 0 <= to_value o /\ legible (to_script o).
Definition tx_legible (t : transaction) : Prop := Forall in_legible (tx_ins t) /\ Forall out_legible (tx_outs t).
(** Scripts in memory, with any content. *)
Definition in_printable (i : TxIn) : Prop :=
  in_memory (ti_rawlock i) /\ in_memory (ti_finallock i) /\ in_memory (ti_unlock i) /\ forall r, ti_redeem i = Some r -> in_memory r.
Definition printable (t : transaction) : Prop := Forall in_printable (tx_ins t) /\ Forall (fun o => in_memory (to_script o)) (tx_outs t).
(** A witness program whose witness is not there yet. *)
Definition unwitnessed (i : TxIn) : Prop := ti_code i <> None /\ ti_witness i = [].
(** The same transaction with another version, lock time and sequence numbers. *)
Definition retimed (v l : Z) (q : TxIn -> Z) (t : transaction) : transaction :=
  MkTx v l (map (fun i => MkIn (ti_hash i) (ti_index i) (ti_value i) (q i) (ti_sighash i) (ti_redeem i) (ti_witness i) (ti_code i) (ti_rawlock i) (ti_finallock i) (ti_unlock i)) (tx_ins t)) (tx_outs t)
    (tx_prevouts t) (tx_sequence t) (tx_outputs t).
(** [d] is the decimal writing of [n]; one line of a text. *)
Definition decimal (d : bytes) (n : Z) : Prop := d <> [] /\ Forall (fun c => 48 <= c <= 57) d /\ fold_left (fun a c => 10 * a + (c - 48)) d 0 = n.
Definition has_line (s line : bytes) : Prop := exists before after, s = before ++ [10] ++ line ++ [10] ++ after.
