(** The transaction wire formats and signature-hash preimages as the Bitcoin documents give them, stated without the
    buffer. *)
From Verif Require Import GoBase TxModel.

(** [n] little-endian bytes; the compact size prefix; a length-prefixed string. *)
Definition le (n : nat) (v : Z) : bytes := map (fun k => (v / 256 ^ Z.of_nat k) mod 256) (seq 0 n).
Definition compact (n : Z) : bytes :=
  if n <? 253 then [n] else if n <? 2 ^ 16 then 253 :: le 2 n else if n <? 2 ^ 32 then 254 :: le 4 n else 255 :: le 8 n.
Definition prefixed (b : bytes) : bytes := compact (len b) ++ b.

(** scriptSig: empty for an input spending a witness program. *)
Definition script_sig (i : TxIn) : bytes := match ti_code i with Some _ => [] | None => ti_unlock i end.
Definition wire_in (i : TxIn) : bytes := ti_hash i ++ le 4 (ti_index i) ++ prefixed (script_sig i) ++ le 4 (ti_seq i).
Definition wire_out (o : TxOut) : bytes := le 8 (to_value o) ++ prefixed (to_script o).
Definition wire_witness (i : TxIn) : bytes := compact (len (ti_witness i)) ++ concat (map prefixed (ti_witness i)).
Definition wire_body (t : transaction) : bytes :=
  compact (len (tx_ins t)) ++ concat (map wire_in (tx_ins t)) ++ compact (len (tx_outs t)) ++ concat (map wire_out (tx_outs t)).
(** The original format, and BIP144. *)
Definition wire_legacy (t : transaction) : bytes := le 4 (tx_version t) ++ wire_body t ++ le 4 (tx_locktime t).
Definition wire_bip144 (t : transaction) : bytes :=
  le 4 (tx_version t) ++ [0x00; 0x01] ++ wire_body t ++ concat (map wire_witness (tx_ins t)) ++ le 4 (tx_locktime t).

(** Field values a transaction in memory can have: fixed-width integers, 32-byte ids, slices inside the address space
    (a slice of slices takes 24 bytes an element, a slice of pointers 8). *)
Definition fits_memory {A} (elem : Z) (l : list A) : Prop := len l * elem <= 2 ^ 48.
Definition in_ok (i : TxIn) : Prop :=
  len (ti_hash i) = 32 /\ 0 <= ti_index i < 2 ^ 32 /\ 0 <= ti_seq i < 2 ^ 32 /\ 0 <= ti_value i < 2 ^ 64 /\ fits_memory 1 (ti_unlock i) /\
  fits_memory 24 (ti_witness i) /\ Forall (fits_memory 1) (ti_witness i).
Definition out_ok (o : TxOut) : Prop := 0 <= to_value o < 2 ^ 64 /\ fits_memory 1 (to_script o).
Definition tx_ok (t : transaction) : Prop :=
  0 <= tx_version t < 2 ^ 32 /\ 0 <= tx_locktime t < 2 ^ 32 /\ fits_memory 8 (tx_ins t) /\ fits_memory 8 (tx_outs t) /\
  Forall in_ok (tx_ins t) /\ Forall out_ok (tx_outs t).
Definition is_witness (i : TxIn) : Prop := ti_code i <> None.

(** What an observer of the chain sees of an input; with [witness] when the witness is transmitted. *)
Definition in_view (i : TxIn) : bytes * Z * bytes * Z := (ti_hash i, ti_index i, script_sig i, ti_seq i).
Definition same_body (t t' : transaction) : Prop :=
  tx_version t = tx_version t' /\ tx_locktime t = tx_locktime t' /\ map in_view (tx_ins t) = map in_view (tx_ins t') /\ tx_outs t = tx_outs t'.
Definition same_witnesses (t t' : transaction) : Prop := map ti_witness (tx_ins t) = map ti_witness (tx_ins t').

(** Legacy SIGHASH_ALL: every scriptSig is emptied but that of input [idx], which is replaced by [code]. *)
Definition script_code (i : TxIn) : bytes := match ti_redeem i with Some r => r | None => ti_finallock i end.
Fixpoint all_ins (idx : Z) (k : Z) (ins : list TxIn) : bytes :=
  match ins with
  | [] => []
  | i :: r => ti_hash i ++ le 4 (ti_index i) ++ prefixed (if k =? idx then script_code i else []) ++ le 4 (ti_seq i) ++ all_ins idx (k + 1) r
  end.
Definition legacy_preimage (idx : Z) (t : transaction) : bytes :=
  le 4 (tx_version t) ++ compact (len (tx_ins t)) ++ all_ins idx 0 (tx_ins t) ++
  compact (len (tx_outs t)) ++ concat (map wire_out (tx_outs t)) ++ le 4 (tx_locktime t) ++ le 4 1.
Definition code_ok (i : TxIn) : Prop := bytes_ok (script_code i) /\ len (script_code i) <= 2 ^ 48.

(** BIP143. *)
Definition prevouts_bytes (t : transaction) : bytes := concat (map (fun i => ti_hash i ++ le 4 (ti_index i)) (tx_ins t)).
Definition sequences_bytes (t : transaction) : bytes := concat (map (fun i => le 4 (ti_seq i)) (tx_ins t)).
Definition outputs_bytes (t : transaction) : bytes := concat (map wire_out (tx_outs t)).
Section Bip143.
Variable H : bytes -> bytes.
Definition zeros : bytes := repeat 0 32.
Definition anyone (ht : Z) : bool := Z.testbit ht 7.
Definition single (ht : Z) : bool := Z.land ht 31 =? 3.
Definition none (ht : Z) : bool := Z.land ht 31 =? 2.
Definition bip143_preimage (idx ht : Z) (i : TxIn) (t : transaction) : bytes :=
  le 4 (tx_version t) ++
  (if anyone ht then zeros else H (prevouts_bytes t)) ++
  (if anyone ht || single ht || none ht then zeros else H (sequences_bytes t)) ++
  ti_hash i ++ le 4 (ti_index i) ++ prefixed (nilb (ti_code i)) ++ le 8 (ti_value i) ++ le 4 (ti_seq i) ++
  (if negb (single ht) && negb (none ht) then H (outputs_bytes t)
   else if single ht && (idx <? len (tx_outs t)) then match nth_error (tx_outs t) (Z.to_nat idx) with Some o => H (wire_out o) | None => zeros end
   else zeros) ++
  le 4 (tx_locktime t) ++ le 4 ht.
End Bip143.

(** A hash function that does not collide on these two strings. *)
Definition no_collision (H : bytes -> bytes) (a b : bytes) : Prop := H a = H b -> a = b.
(** Digest caches as a new transaction has them. *)
Definition uncached (t : transaction) : Prop := tx_prevouts t = None /\ tx_sequence t = None /\ tx_outputs t = None.
