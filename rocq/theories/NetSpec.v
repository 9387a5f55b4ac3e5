(** The rules of the Bitcoin network for spending outputs of the four standard kinds, over the fields that travel: consensus
    (BIP 16, 66, 141, 143, 147; at most 520 bytes an item, 20 keys) and the relay rules on form (push-only scripts with shortest
    pushes, low s, empty dummy, SEC keys, compressed ones in witnesses).  Signatures are of type ALL. *)
From Verif Require Import GoBase SecpSpec EcdsaSpec DerSpec PubKeySpec VmSpec.
From Verif Require LockSpec TxSpec.
Notation le := TxSpec.le.
Notation compact := TxSpec.compact.
Notation prefixed := TxSpec.prefixed.

Record net_in := NIn { n_prev : bytes; n_index : Z; n_script : bytes; n_seq : Z; n_witness : list bytes }.
Record net_tx := NTx { n_version : Z; n_ins : list net_in; n_outs : list (Z * bytes); n_lock : Z }.

(** The bytes on the wire: BIP 144 if there is a witness. *)
Definition outpoint (i : net_in) : bytes := n_prev i ++ le 4 (n_index i).
Definition net_output (o : Z * bytes) : bytes := le 8 (fst o) ++ prefixed (snd o).
Definition net_body (t : net_tx) : bytes :=
  compact (len (n_ins t)) ++ concat (map (fun i => outpoint i ++ prefixed (n_script i) ++ le 4 (n_seq i)) (n_ins t)) ++
  compact (len (n_outs t)) ++ concat (map net_output (n_outs t)).
Definition net_witness (i : net_in) : bytes := compact (len (n_witness i)) ++ concat (map prefixed (n_witness i)).
Definition net_bytes (t : net_tx) : bytes :=
  if forallb (fun i => match n_witness i with [] => true | _ => false end) (n_ins t)
  then le 4 (n_version t) ++ net_body t ++ le 4 (n_lock t)
  else le 4 (n_version t) ++ [0; 1] ++ net_body t ++ concat (map net_witness (n_ins t)) ++ le 4 (n_lock t).

(** Digests of type ALL for input [idx]: the original one, with [code] in the place of its script, and that of BIP 143. *)
Fixpoint only_code (idx : nat) (code : bytes) (ins : list net_in) {struct ins} : bytes :=
  match ins with
  | [] => []
  | i :: r => outpoint i ++ prefixed (match idx with O => code | S _ => [] end) ++ le 4 (n_seq i) ++
              match idx with O => concat (map (fun i => outpoint i ++ prefixed [] ++ le 4 (n_seq i)) r) | S k => only_code k code r end
  end.
Section Rules.
Variable sha256 hash160 : bytes -> bytes.
Definition twice (x : bytes) : bytes := sha256 (sha256 x).
Definition old_digest (idx : nat) (code : bytes) (t : net_tx) : bytes :=
  twice (le 4 (n_version t) ++ compact (len (n_ins t)) ++ only_code idx code (n_ins t) ++
         compact (len (n_outs t)) ++ concat (map net_output (n_outs t)) ++ le 4 (n_lock t) ++ [1; 0; 0; 0]).
Definition new_digest (i : net_in) (code : bytes) (amount : Z) (t : net_tx) : bytes :=
  twice (le 4 (n_version t) ++ twice (concat (map outpoint (n_ins t))) ++ twice (concat (map (fun i => le 4 (n_seq i)) (n_ins t))) ++
         outpoint i ++ prefixed code ++ le 8 amount ++ le 4 (n_seq i) ++ twice (concat (map net_output (n_outs t))) ++ le 4 (n_lock t) ++ [1; 0; 0; 0]).

(** Public keys; signatures: DER, low s, the type byte, valid for the digest. *)
Definition sec_form (compressed_only : bool) (key : bytes) : Prop :=
  len key = 33 /\ (hd 0 key = 2 \/ hd 0 key = 3) \/ compressed_only = false /\ len key = 65 /\ hd 0 key = 4.
Definition net_sig (compressed_only : bool) (digest key sig : bytes) : Prop :=
  sec_form compressed_only key /\
  exists x y r s der, encodes key x y /\ good (Some (x, y)) /\ sig = der ++ [1] /\ der_sig der r s /\ s <= order_n / 2 /\ ecdsa_valid (Some (x, y)) (message_int digest) r s.

(** The shortest push of an item of two or more bytes; small numbers; multisig scripts. *)
Definition shortest_push (d : bytes) : bytes :=
  (if len d <=? 75 then [len d] else if len d <=? 255 then [76; len d] else 77 :: le 2 (len d)) ++ d.
Definition small_number (n : Z) : bytes := if n =? 0 then [0] else if n <=? 16 then [80 + n] else [1; n].
Definition m_of_n (m : Z) (keys : list bytes) : bytes :=
  small_number m ++ concat (map shortest_push keys) ++ small_number (len keys) ++ [174].
Definition net_multisig (compressed_only : bool) (digest script : bytes) (sigs : list bytes) : Prop :=
  exists m keys, script = m_of_n m keys /\ 1 <= m <= len keys /\ len keys <= 20 /\ Forall (sec_form compressed_only) keys /\ len sigs = m /\
    matched (fun sig key => net_sig compressed_only digest key sig) sigs keys.

(** How input [idx] may spend an output of [amount] locked by [lock]. *)
Inductive net_spends (t : net_tx) (idx : nat) (i : net_in) (amount : Z) (lock : bytes) : Prop :=
| net_p2pkh sig key : lock = LockSpec.p2pkh_script (hash160 key) -> n_script i = shortest_push sig ++ shortest_push key -> n_witness i = [] ->
    net_sig false (old_digest idx lock t) key sig -> net_spends t idx i amount lock
| net_p2sh sigs script : lock = LockSpec.p2sh_script (hash160 script) -> len script <= 520 ->
    n_script i = 0 :: concat (map shortest_push sigs) ++ shortest_push script -> n_witness i = [] ->
    net_multisig false (old_digest idx script t) script sigs -> net_spends t idx i amount lock
| net_p2wpkh sig key : lock = LockSpec.p2wpkh_script (hash160 key) -> n_script i = [] -> n_witness i = [sig; key] ->
    net_sig true (new_digest i (LockSpec.p2pkh_script (hash160 key)) amount t) key sig -> net_spends t idx i amount lock
| net_p2wsh sigs script : lock = LockSpec.p2wsh_script (sha256 script) -> len script <= 3600 -> n_script i = [] -> n_witness i = [] :: sigs ++ [script] ->
    net_multisig true (new_digest i script amount t) script sigs -> net_spends t idx i amount lock.
Definition net_accepts (t : net_tx) (prevs : list (Z * bytes)) : Prop :=
  n_ins t <> [] /\ length (n_ins t) = length prevs /\
  forall idx i amount lock, nth_error (n_ins t) idx = Some i -> nth_error prevs idx = Some (amount, lock) -> net_spends t idx i amount lock.
End Rules.
