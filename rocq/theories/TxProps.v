(** C30-C40, C81: transaction encodings, sizes and signature hashes. *)
From Verif Require Import GoBase BaseLemmas BufferModel BufferProofs Codec LockModel TxModel TxSpec TxProofs TxSig.
From Coq Require Import ZifyBool ZifyNat ZifyN.

(** A P2PKH-style input, a witness input, two outputs. *)
Definition ex_legacy_in : TxIn := MkIn (repeat 0xab 32) 3 5000 0xfffffffe [] None [] None [0x76] [0x76; 0xa9] [2; 7; 8].
Definition ex_witness_in : TxIn := MkIn (repeat 0xcd 32) 258 70000 0xffffffff [] None [[1; 2; 3]; []] (Some [0x76; 0xa9]) [0] [0x76] [].
Definition ex_outs : list TxOut := [MkOut 65537 [0x51]; MkOut 0 []].
Definition ex_legacy : transaction := MkTx 2 77 [ex_legacy_in; ex_legacy_in] ex_outs None None None.
Definition ex_segwit : transaction := MkTx 2 77 [ex_legacy_in; ex_witness_in] ex_outs None None None.
Ltac tx_ok_tac := unfold tx_ok, in_ok, out_ok, fits_memory; repeat (apply conj || apply Forall_cons || apply Forall_nil); vm_compute; try reflexivity; try discriminate; split; discriminate.
Lemma ex_legacy_ok : tx_ok ex_legacy. Proof. tx_ok_tac. Qed.
Lemma ex_segwit_ok : tx_ok ex_segwit. Proof. tx_ok_tac. Qed.
Lemma ex_segwit_witness : Exists is_witness (tx_ins ex_segwit). Proof. right. left. discriminate. Qed.

(** C30. *)
Theorem C30_legacy_roundtrip : forall t junk, tx_ok t -> len (SerializeNoWitness t ++ junk) <= 2 ^ 48 ->
  exists t', DeserializeNoWitness (SerializeNoWitness t ++ junk) NewTransaction = Ok t' /\ same_body t t'.
Proof. exact legacy_roundtrip. Qed.
Print Assumptions C30_legacy_roundtrip.
Example C30_example : tx_ok ex_legacy /\ len (SerializeNoWitness ex_legacy ++ [9; 9]) <= 2 ^ 48 /\
  exists t', DeserializeNoWitness (SerializeNoWitness ex_legacy ++ [9; 9]) NewTransaction = Ok t' /\ map ti_unlock (tx_ins t') = [[2; 7; 8]; [2; 7; 8]] /\ tx_outs t' = ex_outs.
Proof. split; [exact ex_legacy_ok|]. split; [vm_compute; discriminate|]. eexists. vm_compute. repeat split; reflexivity. Qed.

(** C31. *)
Theorem C31_witness_roundtrip : forall t junk, tx_ok t -> Exists is_witness (tx_ins t) -> len (Serialize t ++ junk) <= 2 ^ 48 ->
  exists t', Deserialize (Serialize t ++ junk) NewTransaction = Ok t' /\ same_body t t' /\ same_witnesses t t'.
Proof. exact bip144_roundtrip. Qed.
Print Assumptions C31_witness_roundtrip.
Example C31_example : tx_ok ex_segwit /\ Exists is_witness (tx_ins ex_segwit) /\ len (Serialize ex_segwit ++ [9]) <= 2 ^ 48 /\
  exists t', Deserialize (Serialize ex_segwit ++ [9]) NewTransaction = Ok t' /\ map ti_witness (tx_ins t') = [[]; [[1; 2; 3]; []]] /\ map ti_unlock (tx_ins t') = [[2; 7; 8]; []].
Proof. split; [exact ex_segwit_ok|]. split; [exact ex_segwit_witness|]. split; [vm_compute; discriminate|]. eexists. vm_compute. repeat split; reflexivity. Qed.

(** C32 is false, for every witness transaction: what is written back has lost the witness. *)
Theorem C32_rewrite_refuted : exists t t', tx_ok t /\ Exists is_witness (tx_ins t) /\ Deserialize (Serialize t) NewTransaction = Ok t' /\ Serialize t' <> Serialize t.
Proof. exists ex_segwit. eexists. split; [exact ex_segwit_ok|]. split; [exact ex_segwit_witness|]. split; [vm_compute; reflexivity|]. vm_compute. discriminate. Qed.
Print Assumptions C32_rewrite_refuted.
(** What comes back, always: the legacy encoding of the same transaction. *)
Theorem C32_rewrite_strips_partial : forall t junk t', tx_ok t -> Exists is_witness (tx_ins t) -> len (Serialize t ++ junk) <= 2 ^ 48 ->
  Deserialize (Serialize t ++ junk) NewTransaction = Ok t' -> Serialize t' = SerializeNoWitness t /\ SerializeNoWitness t' = SerializeNoWitness t /\ Serialize t' <> Serialize t.
Proof. exact reserialise_strips. Qed.
Print Assumptions C32_rewrite_strips_partial.
(** For the legacy encoding the bytes are preserved. *)
Theorem C32_rewrite_legacy_partial : forall t junk t', tx_ok t -> len (SerializeNoWitness t ++ junk) <= 2 ^ 48 ->
  DeserializeNoWitness (SerializeNoWitness t ++ junk) NewTransaction = Ok t' -> SerializeNoWitness t' = SerializeNoWitness t /\ Serialize t' = SerializeNoWitness t.
Proof. exact legacy_rewrite. Qed.
Print Assumptions C32_rewrite_legacy_partial.
Example C32_example : exists t', DeserializeNoWitness (SerializeNoWitness ex_legacy) NewTransaction = Ok t' /\ Serialize t' = Serialize ex_legacy.
Proof. eexists. split; [vm_compute; reflexivity|]. vm_compute. reflexivity. Qed.

(** C33 is false: a 15-byte message (13 for the legacy form) announcing 2^64-1 inputs. *)
Theorem C33_no_panic_refuted : exists d d', bytes_ok d /\ bytes_ok d' /\ len d = 15 /\ len d' = 13 /\
  Deserialize d NewTransaction = Panic /\ DeserializeNoWitness d' NewTransaction = Panic.
Proof.
  exists [1; 0; 0; 0; 0; 1; 255; 255; 255; 255; 255; 255; 255; 255; 255], [1; 0; 0; 0; 255; 255; 255; 255; 255; 255; 255; 255; 255]. split; [bytes_ok_tac|]. split; [bytes_ok_tac|]. split; [reflexivity|]. split; [reflexivity|]. split; vm_compute; reflexivity.
Qed.
Print Assumptions C33_no_panic_refuted.
(** C33: that is the only way: the input contains a 9-byte count or length above 2^43. *)
Theorem C33_panics_only_on_huge_counts_partial : forall d t, bytes_ok d -> len d <= 2 ^ 48 ->
  Deserialize d t = Panic \/ DeserializeNoWitness d t = Panic -> hostile (2 ^ 43) d.
Proof. intros d t O L [P|P]; [exact (deserialize_panics d t O L P)|exact (deserialize_nw_panics d t O L P)]. Qed.
Print Assumptions C33_panics_only_on_huge_counts_partial.
Example C33_example : exists e, Deserialize ([1; 0; 0; 0; 0; 1] ++ [253; 255; 255; 1; 2; 3]) NewTransaction = Err e.
Proof. eexists. vm_compute. reflexivity. Qed.

(** C34. *)
Theorem C34_id_covers_body : forall t t', tx_ok t -> tx_ok t' -> len (SerializeNoWitness t) <= 2 ^ 48 ->
  (SerializeNoWitness t = SerializeNoWitness t' <-> same_body t t').
Proof. exact txid_covers. Qed.
Print Assumptions C34_id_covers_body.
Theorem C34_id : forall H t t', tx_ok t -> tx_ok t' -> len (SerializeNoWitness t) <= 2 ^ 48 -> no_collision H (SerializeNoWitness t) (SerializeNoWitness t') ->
  (Hash H t = Hash H t' <-> same_body t t').
Proof.
  intros H t t' T T' L N. rewrite <- (txid_covers t t' T T' L). unfold Hash. split; [exact N|congruence].
Qed.
Print Assumptions C34_id.
(** Replacing the witness and the unlocking script of the witness input. *)
Definition ex_segwit2 : transaction :=
  MkTx 2 77 [ex_legacy_in; MkIn (repeat 0xcd 32) 258 70000 0xffffffff [] None [[8; 8]] (Some [0x76; 0xa9]) [0] [0x76] [5; 5; 5]] ex_outs None None None.
Example C34_example : SerializeNoWitness ex_segwit2 = SerializeNoWitness ex_segwit /\ Serialize ex_segwit2 <> Serialize ex_segwit /\ SerializeNoWitness ex_segwit <> SerializeNoWitness ex_legacy.
Proof. split; [reflexivity|]. split; vm_compute; discriminate. Qed.

(** C35 is false in all three parts: a witness input that carries an unlocking script makes BaseSize too large, Size
    misses the marker and flag, Vsize rounds down. *)
Theorem C35_sizes_refuted :
  (exists t, tx_ok t /\ BaseSize t <> len (SerializeNoWitness t)) /\
  (exists t, tx_ok t /\ Size t <> len (Serialize t) /\ BaseSize t = len (SerializeNoWitness t)) /\
  (exists t, tx_ok t /\ Vsize t * 4 < Weight t).
Proof.
  split; [exists ex_segwit2; split; [tx_ok_tac|vm_compute; discriminate]|]. split; exists ex_segwit; (split; [exact ex_segwit_ok|]); vm_compute; auto. split; [discriminate|reflexivity].
Qed.
Print Assumptions C35_sizes_refuted.
(** C35: the exact relation for every transaction. *)
Theorem C35_base_size_partial : forall t, tx_ok t -> BaseSize t = len (SerializeNoWitness t) + excess t.
Proof. exact base_size. Qed.
Print Assumptions C35_base_size_partial.
Theorem C35_size_partial : forall t, tx_ok t -> Size t = len (Serialize t) + excess t - (if HasWitness t then 2 else 0).
Proof. exact total_size. Qed.
Print Assumptions C35_size_partial.
(** Hence the sizes are right for transactions without witness inputs, and BaseSize also when witness inputs carry no
    unlocking script. *)
Theorem C35_no_witness_sizes_partial : forall t, tx_ok t -> Forall (fun i => ti_code i = None) (tx_ins t) -> BaseSize t = len (SerializeNoWitness t) /\ Size t = len (Serialize t) /\ Vsize t = len (Serialize t).
Proof.
  intros t T F. assert (X : excess t = 0) by (apply no_excess; apply (Forall_impl _ (P := fun i => ti_code i = None)); [auto|exact F]).
  assert (W : HasWitness t = false). { destruct (HasWitness t) eqn:W; [|reflexivity]. apply has_witness_iff in W. apply Exists_exists in W. destruct W as (i & I & Wi). rewrite Forall_forall in F. elim Wi. auto. }
  pose proof (total_size t T) as S. pose proof (base_size t T) as B. rewrite W in S. split; [lia|]. split; [lia|]. unfold Vsize, Weight. unfold WitnessSize. rewrite W. unfold Size, WitnessSize in S. rewrite W in S.
  replace (BaseSize t * 3 + (BaseSize t + 0)) with (BaseSize t * 4) by lia. rewrite Z.div_mul by lia. lia.
Qed.
Print Assumptions C35_no_witness_sizes_partial.
Theorem C35_unsigned_base_size_partial : forall t, tx_ok t -> Forall (fun i => ti_code i = None \/ ti_unlock i = []) (tx_ins t) -> BaseSize t = len (SerializeNoWitness t).
Proof. intros t T F. rewrite base_size by exact T. rewrite no_excess by exact F. lia. Qed.
Print Assumptions C35_unsigned_base_size_partial.
Example C35_example : BaseSize ex_legacy = 117 /\ Size ex_legacy = len (Serialize ex_legacy) /\ BaseSize ex_segwit = 114 /\ Size ex_segwit + 2 = len (Serialize ex_segwit).
Proof. vm_compute. repeat split. Qed.

(** C36. *)
Theorem C36_legacy_all_digest : forall H idx t, tx_ok t -> signed_ok idx t -> RawSignatureHash H idx 1 t = Ok (H (legacy_preimage idx t)).
Proof. exact legacy_digest. Qed.
Print Assumptions C36_legacy_all_digest.
Theorem C36_legacy_all_commits : forall idx t t', tx_ok t -> tx_ok t' -> signed_ok idx t -> signed_ok idx t' -> len (legacy_preimage idx t) <= 2 ^ 48 ->
  legacy_preimage idx t = legacy_preimage idx t' ->
  tx_version t = tx_version t' /\ tx_locktime t = tx_locktime t' /\ map link (tx_ins t) = map link (tx_ins t') /\ tx_outs t = tx_outs t' /\
  forall i i', index (tx_ins t) idx = Ok i -> index (tx_ins t') idx = Ok i' -> script_code i = script_code i'.
Proof. exact legacy_commits. Qed.
Print Assumptions C36_legacy_all_commits.
Example C36_example : tx_ok ex_legacy /\ signed_ok 1 ex_legacy /\ RawSignatureHash (fun x => x) 1 1 ex_legacy = Ok (legacy_preimage 1 ex_legacy) /\
  legacy_preimage 1 ex_legacy <> legacy_preimage 0 ex_legacy /\
  legacy_preimage 1 ex_legacy <> legacy_preimage 1 (AddOutput (MkOut 1 []) ex_legacy).
Proof.
  split; [exact ex_legacy_ok|]. split; [intros i E; vm_compute in E; injection E as <-; split; [bytes_ok_tac|vm_compute; discriminate]|].
  split; [vm_compute; reflexivity|]. split; vm_compute; discriminate.
Qed.

(** C37 is false for every type other than ALL: two transactions spending different coins to different outputs. *)
Theorem C37_other_types_commit_refuted : forall H ht, ht <> 1 -> exists t t', tx_ok t /\ tx_ok t' /\
  (forall i i', In i (tx_ins t) -> In i' (tx_ins t') -> ti_hash i <> ti_hash i') /\ (forall o, In o (tx_outs t) -> ~ In o (tx_outs t')) /\
  tx_ins t <> [] /\ tx_outs t <> [] /\ RawSignatureHash H 0 ht t = RawSignatureHash H 0 ht t'.
Proof.
  intros H ht N. exists (MkTx 1 0 [ex_legacy_in] [MkOut 1 []] None None None), (MkTx 1 0 [ex_witness_in] [MkOut 2 []] None None None). split; [tx_ok_tac|]. split; [tx_ok_tac|].
  split; [intros i i' [<-|[]] [<-|[]]; vm_compute; discriminate|]. split; [intros o [<-|[]] [E|[]]; discriminate|]. split; [discriminate|]. split; [discriminate|].
  now apply other_legacy_types.
Qed.
Print Assumptions C37_other_types_commit_refuted.
(** C37: all that such a digest commits to. *)
Theorem C37_other_types_partial : forall H ht idx idx' t t', ht <> 1 -> tx_version t = tx_version t' -> tx_locktime t = tx_locktime t' ->
  RawSignatureHash H idx ht t = RawSignatureHash H idx' ht t'.
Proof. exact other_legacy_types. Qed.
Print Assumptions C37_other_types_partial.
Example C37_example : RawSignatureHash (fun x => x) 0 3 ex_legacy = Ok [2; 0; 0; 0; 77; 0; 0; 0; 3; 0; 0; 0].
Proof. vm_compute. reflexivity. Qed.

(** C38. *)
Theorem C38_bip143_all : forall H idx i t, index (tx_ins t) idx = Ok i -> v0_code_ok i -> Forall out_ok (tx_outs t) -> uncached t ->
  exists t', WitnessV0SignatureHash H idx 1 t = Ok (H (bip143_preimage H idx 1 i t), t').
Proof. intros H idx i t E C F U. apply fresh_digest; auto; discriminate. Qed.
Print Assumptions C38_bip143_all.
Theorem C38_bip143_all_commits : forall H idx idx' i i' t t' h t1 t1', (forall x, len (H x) = 32) -> tx_ok t -> tx_ok t' -> v0_ok t -> v0_ok t' -> uncached t -> uncached t' ->
  index (tx_ins t) idx = Ok i -> index (tx_ins t') idx' = Ok i' ->
  no_collision H (bip143_preimage H idx 1 i t) (bip143_preimage H idx' 1 i' t') ->
  no_collision H (prevouts_bytes t) (prevouts_bytes t') -> no_collision H (sequences_bytes t) (sequences_bytes t') -> no_collision H (outputs_bytes t) (outputs_bytes t') ->
  WitnessV0SignatureHash H idx 1 t = Ok (h, t1) -> WitnessV0SignatureHash H idx' 1 t' = Ok (h, t1') ->
  tx_version t = tx_version t' /\ tx_locktime t = tx_locktime t' /\ map link (tx_ins t) = map link (tx_ins t') /\ tx_outs t = tx_outs t' /\
  link i = link i' /\ ti_value i = ti_value i' /\ nilb (ti_code i) = nilb (ti_code i').
Proof. exact bip143_all_commits. Qed.
Print Assumptions C38_bip143_all_commits.
Definition ex_h32 (x : bytes) : bytes := firstn 32 (rev x ++ repeat 7 32).
Lemma ex_h32_len x : len (ex_h32 x) = 32.
Proof. unfold ex_h32, len. rewrite firstn_length, app_length, repeat_length. lia. Qed.
Lemma ex_v0 : v0_ok ex_segwit. Proof. unfold v0_ok, v0_code_ok, out_ok, fits_memory. repeat (apply conj || apply Forall_cons || apply Forall_nil); vm_compute; try reflexivity; try discriminate; split; discriminate. Qed.
Example C38_example : v0_ok ex_segwit /\ uncached ex_segwit /\ index (tx_ins ex_segwit) 1 = Ok ex_witness_in /\
  (exists t', WitnessV0SignatureHash (fun x => x) 1 1 ex_segwit = Ok (bip143_preimage (fun x => x) 1 1 ex_witness_in ex_segwit, t')) /\
  bip143_preimage ex_h32 1 1 ex_witness_in ex_segwit <> bip143_preimage ex_h32 1 1 ex_witness_in (AddOutput (MkOut 4 []) ex_segwit).
Proof. split; [exact ex_v0|]. split; [repeat split|]. split; [reflexivity|]. split; [eexists; vm_compute; reflexivity|vm_compute; discriminate]. Qed.

(** C39 is false: an output added after the first digest is not covered by the second; and after an ANYONECANPAY digest
    a SIGHASH_ALL digest no longer depends on the other inputs. *)
Theorem C39_history_refuted : forall H,
  (exists t o h t1 t2, tx_ok t /\ uncached t /\ out_ok o /\ WitnessV0SignatureHash H 0 1 t = Ok (h, t1) /\ WitnessV0SignatureHash H 0 1 (AddOutput o t1) = Ok (h, t2)) /\
  (exists i j k t h t1 t2, tx_ok (set_ins [i; j] t) /\ tx_ok (set_ins [i; k] t) /\ uncached t /\ ti_hash j <> ti_hash k /\
     WitnessV0SignatureHash H 0 1 (history H [(0, 0x81)] (set_ins [i; j] t)) = Ok (h, t1) /\ WitnessV0SignatureHash H 0 1 (history H [(0, 0x81)] (set_ins [i; k] t)) = Ok (h, t2)).
Proof.
  intros H. split.
  - exists (MkTx 2 77 [ex_witness_in] ex_outs None None None), (MkOut 9 []). eexists _, _, _. split; [tx_ok_tac|]. split; [repeat split|]. split; [split; vm_compute; [split; [discriminate|reflexivity]|discriminate]|].
    split; [vm_compute; reflexivity|]. vm_compute. reflexivity.
  - exists ex_witness_in, ex_witness_in, ex_legacy_in, ex_segwit. eexists _, _, _. split; [tx_ok_tac|]. split; [tx_ok_tac|]. split; [repeat split|]. split; [vm_compute; discriminate|]. split; [vm_compute; reflexivity|]. vm_compute. reflexivity.
Qed.
Print Assumptions C39_history_refuted.
(** The first failure for every transaction and output; the second for every set of inputs. *)
Theorem C39_stale_outputs_partial : forall H idx ht i t o t', index (tx_ins t) idx = Ok i -> v0_code_ok i -> Forall out_ok (tx_outs t) -> out_ok o ->
  WitnessV0SignatureHash H idx ht t = Ok (H (v0_preimage H ht i t), t') -> Z.testbit ht 1 = false ->
  exists t'', WitnessV0SignatureHash H idx ht (AddOutput o t') = Ok (H (v0_preimage H ht i t), t'').
Proof. exact stale_after_add. Qed.
Print Assumptions C39_stale_outputs_partial.
(** C39: any history of digests whose types sign all inputs and outputs is harmless, for every later type. *)
Theorem C39_history_partial : forall H calls idx ht t, v0_ok t -> uncached t -> Forall (fun c => anyone (snd c) = false /\ Z.testbit (snd c) 1 = false) calls ->
  (let! (h, _) := WitnessV0SignatureHash H idx ht (history H calls t) in Ok h) = let! (h, _) := WitnessV0SignatureHash H idx ht t in Ok h.
Proof. exact history_independent. Qed.
Print Assumptions C39_history_partial.
Example C39_example : v0_ok ex_segwit /\ uncached ex_segwit /\ Forall (fun c => anyone (snd c) = false /\ Z.testbit (snd c) 1 = false) [(0, 1); (1, 1); (7, 0)] /\
  tx_prevouts (history ex_h32 [(0, 1); (1, 1); (7, 0)] ex_segwit) <> None.
Proof. split; [exact ex_v0|]. split; [repeat split|]. split; [repeat (apply Forall_cons || apply Forall_nil); split; reflexivity|vm_compute; discriminate]. Qed.

(** C40 is false for SINGLE: the digest does not change when the output that is to be signed is replaced. *)
Theorem C40_bip143_types_refuted : forall H, exists t i o o' h t1 t2, tx_ok (set_outs [o] t) /\ tx_ok (set_outs [o'] t) /\ uncached t /\ index (tx_ins t) 0 = Ok i /\ o <> o' /\
  (forall H', H' (wire_out o) <> H' (wire_out o') -> len (H' (wire_out o)) = len (H' (wire_out o')) -> bip143_preimage H' 0 3 i (set_outs [o] t) <> bip143_preimage H' 0 3 i (set_outs [o'] t)) /\
  WitnessV0SignatureHash H 0 3 (set_outs [o] t) = Ok (h, t1) /\ WitnessV0SignatureHash H 0 3 (set_outs [o'] t) = Ok (h, t2).
Proof.
  intros H. exists (MkTx 2 77 [ex_witness_in] ex_outs None None None), ex_witness_in, (MkOut 9 []), (MkOut 8 []). eexists _, _, _.
  split; [tx_ok_tac|]. split; [tx_ok_tac|]. split; [repeat split|]. split; [reflexivity|]. split; [discriminate|]. split; [|split; [vm_compute; reflexivity|]; vm_compute; reflexivity].
  intros H' N L E. apply N. unfold bip143_preimage in E. do 8 (apply app_len_inj in E; [destruct E as [_ E]|reflexivity]). cbn in E. apply app_len_inj in E; [exact (proj1 E)|exact L].
Qed.
Print Assumptions C40_bip143_types_refuted.
(** Every type with bit 1 set ignores the outputs. *)
Theorem C40_outputs_ignored_partial : forall H idx ht t outs, Z.testbit ht 1 = true -> Forall out_ok (tx_outs t) -> Forall out_ok outs ->
  (forall i, index (tx_ins t) idx = Ok i -> v0_code_ok i) ->
  (let! (h, _) := WitnessV0SignatureHash H idx ht (set_outs outs t) in Ok h) = let! (h, _) := WitnessV0SignatureHash H idx ht t in Ok h.
Proof. exact single_ignores_outputs. Qed.
Print Assumptions C40_outputs_ignored_partial.
(** C40: all other types are BIP143's. *)
Theorem C40_bip143_types_partial : forall H idx ht i t, index (tx_ins t) idx = Ok i -> v0_code_ok i -> Forall out_ok (tx_outs t) -> uncached t ->
  (single ht = true -> len (tx_outs t) <= idx) -> (Z.testbit ht 1 = true -> single ht = true \/ none ht = true) ->
  exists t', WitnessV0SignatureHash H idx ht t = Ok (H (bip143_preimage H idx ht i t), t').
Proof. exact fresh_digest. Qed.
Print Assumptions C40_bip143_types_partial.
(** NONE|ANYONECANPAY. *)
Example C40_example : (single 0x82 = true -> len (tx_outs ex_segwit) <= 1) /\ (Z.testbit 0x82 1 = true -> single 0x82 = true \/ none 0x82 = true) /\
  exists t', WitnessV0SignatureHash (fun x => x) 1 0x82 ex_segwit = Ok (bip143_preimage (fun x => x) 1 0x82 ex_witness_in ex_segwit, t').
Proof. split; [discriminate|]. split; [right; reflexivity|]. eexists. vm_compute. reflexivity. Qed.

(** C81. *)
Theorem C81_wire_format : forall t, tx_ok t -> SerializeNoWitness t = wire_legacy t /\ Serialize t = (if HasWitness t then wire_bip144 t else wire_legacy t).
Proof. intros t T. split; [now apply serialize_no_witness|now apply serialize_witness]. Qed.
Print Assumptions C81_wire_format.
Example C81_example : Serialize ex_segwit =
  [2; 0; 0; 0; 0; 1; 2] ++ repeat 0xab 32 ++ [3; 0; 0; 0; 3; 2; 7; 8; 254; 255; 255; 255] ++ repeat 0xcd 32 ++ [2; 1; 0; 0; 0; 255; 255; 255; 255] ++
  [2; 1; 0; 1; 0; 0; 0; 0; 0; 1; 0x51; 0; 0; 0; 0; 0; 0; 0; 0; 0] ++ [0; 2; 3; 1; 2; 3; 0] ++ [77; 0; 0; 0].
Proof. vm_compute. reflexivity. Qed.
