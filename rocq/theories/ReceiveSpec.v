(** What the receiver of a transaction does: read the bytes in the format they were written in, and look up, for every
    input, the output it spends. *)
From Verif Require Import GoBase ScriptModel LockModel LockSpec TxModel TxSpec.

(** The amount, the locking script and (for script hashes) the script that the owner told the receiver. *)
Definition spent (i : TxIn) : Z * bytes * obytes := (ti_value i, ti_rawlock i, ti_redeem i).

Section Spec.
Variable Hash160 : bytes -> bytes.
Definition read_back (witness : bool) (data : bytes) : res transaction :=
  (if witness then Deserialize else DeserializeNoWitness) data NewTransaction.
Fixpoint look_up (idx : Z) (prevs : list (Z * bytes * obytes)) (t : transaction) : res transaction :=
  match prevs with
  | [] => Ok t
  | (v, s, r) :: ps => let! t1 := SetTxIn Hash160 idx v s r t in look_up (idx + 1) ps t1
  end.
Definition received (t : transaction) : res transaction :=
  let! r := read_back (HasWitness t) (Serialize t) in look_up 0 (map spent (tx_ins t)) r.
End Spec.

(** A multisig script of at most 16 keys of the two sizes of SEC keys. *)
Definition small_multisig (r : bytes) : Prop := exists m keys, 0 <= m <= len keys /\ 1 <= len keys <= 16 /\
  Forall (fun k : bytes => (len k = 33 \/ len k = 65) /\ bytes_ok k) keys /\ GenMultiSigScript m keys = Ok r.
Definition small_witness_script (i : TxIn) : Prop := forall h r, ti_rawlock i = p2wsh_script h -> ti_redeem i = Some r -> small_multisig r.

(** An input as it travels, with something else in the signature script and more items at the end of the witness; and
    the transaction of which the [n]th input was changed so. *)
Definition in_transit (i : TxIn) : TxIn := MkIn (ti_hash i) (ti_index i) 0 (ti_seq i) [] None (ti_witness i) None [] [] (script_sig i).
Definition tampered (junk : bytes) (extra : list bytes) (i : TxIn) : TxIn :=
  MkIn (ti_hash i) (ti_index i) 0 (ti_seq i) [] None (ti_witness i ++ extra) None [] [] junk.
Definition tampered_tx (n : nat) (junk : bytes) (extra : list bytes) (t : transaction) : transaction :=
  MkTx (tx_version t) (tx_locktime t) (update n (tampered junk extra) (map in_transit (tx_ins t))) (tx_outs t) None None None.
(** BIP 141: such an output is spent with an empty signature script and a witness of exactly two items. *)
Definition bip141_key_form (i : TxIn) : Prop := script_sig i = [] /\ len (ti_witness i) = 2.
