(** C127, C128: a transaction object that is read into more than once, or after a failure. *)
From Verif Require Import GoBase BaseLemmas BufferModel BufferSpec BufferProofs ScriptModel ScriptSpec LockModel LockSpec VmModel VmSpec TxModel TxSpec TxProofs TxProps TxSignSpec TxSignProps
  ReceiveSpec ReceiveProps UsedModel UsedSpec UsedProofs UsedProofs2.
From Coq Require Import ZifyBool ZifyNat ZifyN.

(** C127: after a successful read an object holds the transaction of the bytes, whatever it held before.  True of
    everything but the three digests, when there is at least one input and one output. *)
Theorem C127_reads_partial : forall d old t,
  (Deserialize d NewTransaction = Ok t -> tx_ins t <> [] -> tx_outs t <> [] ->
     DeserializeInto d (of_tx old) = (Ok tt, of_tx (MkTx (tx_version t) (tx_locktime t) (tx_ins t) (tx_outs t) (tx_prevouts old) (tx_sequence old) (tx_outputs old)))) /\
  (DeserializeNoWitness d NewTransaction = Ok t -> tx_ins t <> [] -> tx_outs t <> [] ->
     DeserializeNoWitnessInto d (of_tx old) = (Ok tt, of_tx (MkTx (tx_version t) (tx_locktime t) (tx_ins t) (tx_outs t) (tx_prevouts old) (tx_sequence old) (tx_outputs old)))).
Proof.
  intros d old t. destruct (into_agrees d old) as [A B]. split; intros E Ni No.
  - rewrite (deserialize_keep d old t E Ni No) in A. exact A.
  - rewrite (deserialize_nw_keep d old t E Ni No) in B. exact B.
Qed.
Print Assumptions C127_reads_partial.
Example C127_reads_example : exists t, Deserialize (wire_bip144 ex_segwit) NewTransaction = Ok t /\ tx_ins t <> [] /\ tx_outs t <> [] /\ DeserializeInto (wire_bip144 ex_segwit) (of_tx ex_legacy) = (Ok tt, of_tx t).
Proof. eexists. split; [vm_compute; reflexivity|]. split; [discriminate|]. split; [discriminate|]. vm_compute. reflexivity. Qed.

(** It is false of a transaction without outputs: the object keeps the outputs it had. *)
Theorem C127_kept_outputs_refuted : forall t old, tx_ok t -> tx_ins t <> [] -> tx_outs t = [] -> len (wire_legacy t) <= 2 ^ 48 -> tx_outs old <> [] ->
  exists fresh x, DeserializeNoWitness (wire_legacy t) NewTransaction = Ok fresh /\ tx_outs fresh = [] /\ DeserializeNoWitnessInto (wire_legacy t) (of_tx old) = (Ok tt, of_tx x) /\ tx_outs x = tx_outs old.
Proof.
  intros t old T Ni No L Ne. eexists _, _. split; [now apply legacy_empty_outs|]. split; [reflexivity|]. destruct (into_agrees (wire_legacy t) old) as [_ B].
  rewrite (legacy_empty_outs t old T Ni No L) in B. split; [exact B|reflexivity].
Qed.
Print Assumptions C127_kept_outputs_refuted.
Example C127_kept_example : let t := MkTx 2 77 [ex_legacy_in] [] None None None in tx_ok t /\ tx_ins t <> [] /\ tx_outs t = [] /\ len (wire_legacy t) <= 2 ^ 48 /\ tx_outs ex_segwit <> [].
Proof. split; [tx_ok_tac|]. split; [discriminate|]. split; [reflexivity|]. split; [vm_compute; discriminate|discriminate]. Qed.

(** And the digests that are kept make [Verify] accept a transaction that nobody signed: the receiver verifies one
    transaction, all of whose inputs spend witness key hash outputs, and then reads into the same object the same
    inputs with the same signatures and any other outputs. *)
Theorem C127_stale_digests_refuted : forall (Hash160 DS : bytes -> bytes) EcdsaVerify ht d1 d2 prevs x1 x2 r,
  Deserialize d1 NewTransaction = Ok x1 -> Deserialize d2 NewTransaction = Ok x2 -> x2 = set_outs (tx_outs x2) x1 -> tx_ins x1 <> [] -> tx_outs x2 <> [] ->
  Forall (key_witness ht) (tx_ins x1) -> Forall key_output prevs -> length prevs = length (tx_ins x1) ->
  look_up Hash160 0 prevs x1 = Ok r -> TxModel.Verify Hash160 DS EcdsaVerify r = Ok tt ->
  exists x r2, DeserializeInto d2 (of_tx (verified Hash160 DS EcdsaVerify r)) = (Ok tt, of_tx x) /\ look_up Hash160 0 prevs x = Ok r2 /\ tx_outs r2 = tx_outs x2 /\ TxModel.Verify Hash160 DS EcdsaVerify r2 = Ok tt.
Proof.
  intros Hash160 DS EcdsaVerify ht d1 d2 prevs x1 x2 r D1 D2 Ex Ni No Kw Ko L Lu V.
  destruct (stale Hash160 DS EcdsaVerify ht d1 d2 prevs x1 x2 r D1 D2 Ex Ni No Kw Ko L Lu V) as (x & r2 & E & Rest). exists x, r2. split; [|exact Rest].
  destruct (into_agrees d2 (verified Hash160 DS EcdsaVerify r)) as [A _]. rewrite E in A. exact A.
Qed.
Print Assumptions C127_stale_digests_refuted.
(** A transaction that the owner signed, and one with the money going elsewhere, which a fresh object refuses. *)
Definition used_tx : transaction :=
  match wide_sign_each true 1 0 [[3]; [8]] (toy_tx [toy_in 2 (p2wpkh_script (toy160 (wide_pub 3 true))) None; toy_in 5 (p2wpkh_script (toy160 (wide_pub 8 true))) None]) with Ok t => t | _ => NewTransaction end.
Definition used_theft : transaction := set_outs [MkOut 9 [0x51; 0x52]] used_tx.
Definition used_prevs : list (Z * bytes * obytes) := map spent (tx_ins used_tx).
Definition key_itemb (d : bytes) : bool := forallb is_byteb d && (2 <=? len d) && (len d <=? 2 ^ 20).
Lemma small_itemb d : key_itemb d = true -> small_item d.
Proof. unfold key_itemb, small_item. intros H. rewrite !andb_true_iff in H. destruct H as [[O A] B]. split; [now apply bytes_ok_forallb|lia]. Qed.
Example C127_example : exists x1 x2 r f, Deserialize (Serialize used_tx) NewTransaction = Ok x1 /\ Deserialize (Serialize used_theft) NewTransaction = Ok x2 /\ x2 = set_outs (tx_outs x2) x1 /\ tx_ins x1 <> [] /\ tx_outs x2 <> [] /\
  Forall (key_witness 1) (tx_ins x1) /\ Forall key_output used_prevs /\ length used_prevs = length (tx_ins x1) /\ look_up toy160 0 used_prevs x1 = Ok r /\ toy_check r = Ok tt /\
  look_up toy160 0 used_prevs x2 = Ok f /\ toy_check f <> Ok tt.
Proof.
  eexists _, _, _, _. split; [vm_compute; reflexivity|]. split; [vm_compute; reflexivity|]. split; [reflexivity|]. split; [discriminate|]. split; [discriminate|]. split; [|split; [|split; [reflexivity|]]].
  - cbn [tx_ins]. repeat (apply Forall_cons; [match goal with |- key_witness 1 ?i => let w := eval cbn in (ti_witness i) in match w with [?s; ?k] => exists (removelast s), k end end; split; [reflexivity|split; apply small_itemb; vm_compute; reflexivity]|]). constructor.
  - replace used_prevs with [(ti_value (nth 0 (tx_ins used_tx) ex_legacy_in), p2wpkh_script (toy160 (wide_pub 3 true)), None : obytes); (ti_value (nth 1 (tx_ins used_tx) ex_legacy_in), p2wpkh_script (toy160 (wide_pub 8 true)), None)] by (vm_compute; reflexivity).
    repeat (apply Forall_cons; [eexists _, _; split; [reflexivity|split; [apply bytes_ok_forallb; vm_compute; reflexivity|vm_compute; reflexivity]]|]). constructor.
  - split; [vm_compute; reflexivity|]. split; [vm_compute; reflexivity|]. split; [vm_compute; reflexivity|]. vm_compute. discriminate.
Qed.

(** C128: a read of data that end too early returns an error and leaves an object that can be used.  The error is
    returned for every truncation; but the object has nil pointers, on which [ID] and [Serialize] panic, exactly when
    the data end inside the list of inputs or inside the list of outputs. *)
Theorem C128_truncated : forall t n old, tx_ok t -> tx_ins t <> [] ->
  (len (wire_bip144 t) <= 2 ^ 48 -> (n < length (wire_bip144 t))%nat ->
     exists er o, DeserializeInto (firstn n (wire_bip144 t)) (of_tx old) = (Err er, o) /\ (IDBytes o = Panic <-> in_lists true t n)) /\
  (len (wire_legacy t) <= 2 ^ 48 -> (n < length (wire_legacy t))%nat ->
     exists er o, DeserializeNoWitnessInto (firstn n (wire_legacy t)) (of_tx old) = (Err er, o) /\ (IDBytes o = Panic <-> in_lists false t n)).
Proof. intros t n old T N. split; intros L H; [now apply truncated_bip144|now apply truncated_legacy]. Qed.
Print Assumptions C128_truncated.
Example C128_example : tx_ok ex_segwit /\ tx_ins ex_segwit <> [] /\ len (wire_bip144 ex_segwit) <= 2 ^ 48 /\ in_lists true ex_segwit 7 /\ ~ in_lists true ex_segwit 6 /\ in_lists true ex_segwit 100.
Proof.
  split; [exact ex_segwit_ok|]. split; [discriminate|]. split; [vm_compute; discriminate|]. unfold in_lists.
  replace (length (before_ins true ex_segwit)) with 7%nat by (vm_compute; reflexivity). replace (length (upto_ins true ex_segwit)) with 92%nat by (vm_compute; reflexivity).
  replace (length (before_outs true ex_segwit)) with 93%nat by (vm_compute; reflexivity). replace (length (upto_outs true ex_segwit)) with 112%nat by (vm_compute; reflexivity). lia.
Qed.
Theorem C128_usable_refuted : forall t old, tx_ok t -> tx_ins t <> [] -> len (wire_bip144 t) <= 2 ^ 48 ->
  exists d rest er o, wire_bip144 t = d ++ rest /\ DeserializeInto d (of_tx old) = (Err er, o) /\ IDBytes o = Panic.
Proof.
  intros t old T N L. set (n := length (before_ins true t)).
  assert (Ne : (0 < length (concat (map wire_in (tx_ins t))))%nat).
  { destruct (tx_ins t) as [|i l]; [congruence|]. cbn [map concat]. unfold wire_in. rewrite !app_length. rewrite !le_eq. cbn [le_bytes length]. lia. }
  assert (I : in_lists true t n) by (left; unfold n, upto_ins; rewrite app_length; lia).
  assert (Hn : (n < length (wire_bip144 t))%nat).
  { unfold n, before_ins, wire_bip144, wire_body. rewrite !app_length. rewrite !le_eq. cbn [le_bytes length]. lia. }
  destruct (proj1 (C128_truncated t n old T N) L Hn) as (er & o & E & Ip). exists (firstn n (wire_bip144 t)), (skipn n (wire_bip144 t)), er, o. split; [symmetry; apply firstn_skipn|]. split; [exact E|]. now apply Ip.
Qed.
Print Assumptions C128_usable_refuted.
