(** Which byte positions of an encoded transaction lie inside the list of inputs or inside the list of outputs. *)
From Verif Require Import GoBase LockSpec TxModel TxSpec.
Definition before_ins (witness : bool) (t : transaction) : bytes := le 4 (tx_version t) ++ (if witness then [0x00; 0x01] else []) ++ compact (len (tx_ins t)).
Definition upto_ins (witness : bool) (t : transaction) : bytes := before_ins witness t ++ concat (map wire_in (tx_ins t)).
Definition before_outs (witness : bool) (t : transaction) : bytes := upto_ins witness t ++ compact (len (tx_outs t)).
Definition upto_outs (witness : bool) (t : transaction) : bytes := before_outs witness t ++ concat (map wire_out (tx_outs t)).
Definition in_lists (witness : bool) (t : transaction) (n : nat) : Prop :=
  (length (before_ins witness t) <= n < length (upto_ins witness t) \/ length (before_outs witness t) <= n < length (upto_outs witness t))%nat.

(** What a receiver sees of an input that spends a witness key hash output with a signature of type [ht]; and the outputs
    that can be spent so (the script and the amount; there is no redeem script). *)
Definition small_item (d : bytes) : Prop := bytes_ok d /\ 2 <= len d <= 2 ^ 20.
Definition key_witness (ht : Z) (i : TxIn) : Prop := exists der key, ti_witness i = [der ++ [ht]; key] /\ small_item (der ++ [ht]) /\ small_item key.
Definition key_output (p : Z * bytes * obytes) : Prop := exists v h, p = (v, p2wpkh_script h, None) /\ bytes_ok h /\ len h = 20.
