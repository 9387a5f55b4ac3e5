(** Sizes and signature hashes of transactions. *)
From Verif Require Import GoBase BaseLemmas BufferModel BufferSpec BufferProofs BufferMore Codec ScriptModel ScriptSpec ScriptProofs LockModel
  VmModel VmSpec VmProofs VmMore TxModel TxSpec TxProofs.
From Coq Require Import ZifyBool ZifyNat ZifyN.

(** ** C35: sizes. *)
Lemma prefixed_len b : len (prefixed b) = VarIntSerializeSize (len b) + len b.
Proof. rewrite prefixed_eq. unfold varbytes. now rewrite len_app, varint_len. Qed.
Lemma compact_len n : len (compact n) = VarIntSerializeSize n.
Proof. rewrite compact_eq. apply varint_len. Qed.
(** What BaseSize counts for the unlocking script of a witness input beyond the one byte that is transmitted. *)
Definition in_excess (i : TxIn) : Z := match ti_code i with Some _ => len (prefixed (ti_unlock i)) - 1 | None => 0 end.
Definition excess (t : transaction) : Z := sumZ (map in_excess (tx_ins t)).
Lemma len_concat_map {A} (enc : A -> bytes) (f : A -> Z) l : (forall x, len (enc x) = f x) -> len (concat (map enc l)) = sumZ (map f l).
Proof. intros H. induction l as [|x l IH]; [reflexivity|]. cbn [map concat sumZ fold_right]. rewrite len_app, H, IH. reflexivity. Qed.
Lemma sumZ_add {A} (f g : A -> Z) l : sumZ (map (fun x => f x + g x) l) = sumZ (map f l) + sumZ (map g l).
Proof. induction l as [|x l IH]; [reflexivity|]. cbn [map sumZ fold_right]. unfold sumZ in IH. rewrite IH. lia. Qed.
Lemma sumZ_ext {A} (f g : A -> Z) l : (forall x, f x = g x) -> sumZ (map f l) = sumZ (map g l).
Proof. intros H. f_equal. apply map_ext. exact H. Qed.
Lemma in_size i : len (ti_hash i) + 4 + VarIntSerializeSize (len (ti_unlock i)) + len (ti_unlock i) + 4 = len (wire_in i) + in_excess i.
Proof.
  unfold wire_in, in_excess. rewrite !len_app, !le_len, prefixed_len. unfold script_sig. destruct (ti_code i).
  - change (len (@nil Z)) with 0. change (VarIntSerializeSize 0) with 1. rewrite prefixed_len. lia.
  - lia.
Qed.
Lemma base_size t : tx_ok t -> BaseSize t = len (SerializeNoWitness t) + excess t.
Proof.
  intros T. rewrite serialize_no_witness by exact T. unfold BaseSize, wire_legacy, wire_body. rewrite !len_app, !le_len, !compact_len.
  rewrite (sumZ_ext _ _ (tx_ins t) in_size), sumZ_add. rewrite (len_concat_map wire_in (fun i => len (wire_in i))) by reflexivity.
  rewrite (len_concat_map wire_out (fun o => 8 + VarIntSerializeSize (len (to_script o)) + len (to_script o))) by (intros o; unfold wire_out; rewrite len_app, le_len, prefixed_len; lia).
  unfold excess. lia.
Qed.
Lemma witness_size t : WitnessSize t = if HasWitness t then len (concat (map wire_witness (tx_ins t))) else 0.
Proof.
  unfold WitnessSize. destruct (HasWitness t); [|reflexivity]. symmetry. apply len_concat_map. intros i. unfold wire_witness. rewrite len_app, compact_len. f_equal.
  apply len_concat_map. intros w. apply prefixed_len.
Qed.
Lemma total_size t : tx_ok t -> Size t = len (Serialize t) + excess t - (if HasWitness t then 2 else 0).
Proof.
  intros T. unfold Size. rewrite base_size, witness_size, serialize_no_witness, serialize_witness by exact T. destruct (HasWitness t); [|lia].
  unfold wire_legacy, wire_bip144. rewrite !len_app. change (len [0; 1]) with 2. lia.
Qed.
Lemma sumZ_zero {A} (f : A -> Z) l : Forall (fun x => f x = 0) l -> sumZ (map f l) = 0.
Proof. induction 1 as [|x l Hx _ IH]; [reflexivity|]. cbn [map sumZ fold_right]. unfold sumZ in IH. rewrite Hx, IH. reflexivity. Qed.
Lemma no_excess t : Forall (fun i => ti_code i = None \/ ti_unlock i = []) (tx_ins t) -> excess t = 0.
Proof.
  intros F. apply sumZ_zero. apply (Forall_impl _ (P := fun i => ti_code i = None \/ ti_unlock i = [])); [|exact F].
  intros i [C|U]; unfold in_excess; [now rewrite C|]. rewrite U. destruct (ti_code i); reflexivity.
Qed.

(** ** C36: legacy SIGHASH_ALL. *)
Lemma remove_codesep i : code_ok i -> match ti_redeem i with Some r => Ok r | None => RemoveOpcode (ti_finallock i) 0xab end = Ok (script_code i).
Proof. unfold code_ok, script_code. intros M. destruct (ti_redeem i); [reflexivity|]. apply remove_unknown; [exact M|reflexivity]. Qed.
Definition signed_ok (idx : Z) (t : transaction) : Prop := forall i, index (tx_ins t) idx = Ok i -> code_ok i.

Lemma sig_ins_data idx l : forall k b, Forall in_ok l -> (forall n i, nth_error l n = Some i -> k + Z.of_nat n = idx -> code_ok i) ->
  exists b', write_sig_ins idx k l b = Ok b' /\ bdata b' = bdata b ++ all_ins idx k l.
Proof.
  induction l as [|x l IH]; intros k b F C; cbn [write_sig_ins all_ins]; [exists b; now rewrite app_nil_r|].
  inversion F as [|? ? Hx Hl]; subst.
  assert (Ex : (if k =? idx then match ti_redeem x with Some r => Ok r | None => RemoveOpcode (ti_finallock x) 0xab end else Ok []) = Ok (if k =? idx then script_code x else []) /\
      len (if k =? idx then script_code x else []) < 2 ^ 64).
  { destruct (k =? idx) eqn:E; [|split; [reflexivity|change (len (@nil Z)) with 0; lia]].
    assert (Cx : code_ok x) by (apply (C 0%nat); [reflexivity|lia]). split; [now apply remove_codesep|]. destruct Cx. lia. }
  destruct Ex as [-> Ls]. cbn [rbind]. set (b1 := WriteU32 _ (WriteVarBytes _ _)). destruct (IH (k + 1) b1 Hl) as (b' & E & D).
  { intros n i Hn En. apply (C (S n)); [exact Hn|]. lia. }
  exists b'. split; [exact E|]. rewrite D. unfold b1. rewrite data_U32, data_varbytes by exact Ls. rewrite data_U32, data_bytes, prefixed_eq, !le_eq. now rewrite <- !app_assoc.
Qed.
Lemma signed_at idx t : signed_ok idx t -> forall n i, nth_error (tx_ins t) n = Some i -> 0 + Z.of_nat n = idx -> code_ok i.
Proof. intros C n i Hn E. apply C. unfold index. replace (idx <? 0) with false by lia. replace (Z.to_nat idx) with n by lia. now rewrite Hn. Qed.

Section Digest.
Variable H : bytes -> bytes.

Lemma legacy_digest idx t : tx_ok t -> signed_ok idx t -> RawSignatureHash H idx 1 t = Ok (H (legacy_preimage idx t)).
Proof.
  intros (_ & _ & Mi & Mo & Fi & Fo) C. unfold RawSignatureHash. change (1 =? 1) with true. cbv iota.
  destruct (sig_ins_data idx (tx_ins t) 0 (WriteVarInt (u64 (len (tx_ins t))) (WriteU32 (tx_version t) NewBuffer)) Fi (signed_at idx t C)) as (b' & E & D).
  rewrite E. cbn [rbind]. do 2 f_equal. unfold Bytes. rewrite !data_U32, write_outs_data, data_count, D, data_count, data_U32 by (auto; eapply mem1_lt; eauto; lia).
  change (bdata NewBuffer) with (@nil Z). cbn [app]. unfold legacy_preimage. rewrite !compact_eq, !le_eq. now rewrite <- !app_assoc.
Qed.

(** C37: every other type. *)
Lemma other_legacy_types ht idx idx' t t' : ht <> 1 -> tx_version t = tx_version t' -> tx_locktime t = tx_locktime t' ->
  RawSignatureHash H idx ht t = RawSignatureHash H idx' ht t'.
Proof. intros N V K. unfold RawSignatureHash. replace (ht =? 1) with false by lia. cbn [rbind]. now rewrite V, K. Qed.
End Digest.

(** The legacy preimage is a serialized transaction with the scripts replaced, followed by the type. *)
Fixpoint cleared (idx k : Z) (ins : list TxIn) : list TxIn :=
  match ins with
  | [] => []
  | i :: r => MkIn (ti_hash i) (ti_index i) 0 (ti_seq i) [] None [] None [] [] (if k =? idx then script_code i else []) :: cleared idx (k + 1) r
  end.
Lemma cleared_wire idx l : forall k, concat (map wire_in (cleared idx k l)) = all_ins idx k l.
Proof.
  induction l as [|i l IH]; intros k; [reflexivity|]. cbn [cleared map concat all_ins]. rewrite IH. unfold wire_in, script_sig. cbn [ti_hash ti_index ti_seq ti_code ti_unlock]. now rewrite <- !app_assoc.
Qed.
Lemma cleared_len idx l : forall k, len (cleared idx k l) = len l.
Proof. induction l as [|i l IH]; intros k; [reflexivity|]. cbn [cleared]. rewrite !len_cons. now rewrite IH. Qed.
Definition cleared_tx (idx : Z) (t : transaction) : transaction := set_ins (cleared idx 0 (tx_ins t)) t.
Lemma preimage_wire idx t : legacy_preimage idx t = wire_legacy (cleared_tx idx t) ++ le 4 1.
Proof.
  unfold legacy_preimage, wire_legacy, wire_body, cleared_tx, set_ins. cbn [tx_version tx_locktime tx_ins tx_outs]. rewrite cleared_wire, cleared_len. now rewrite <- !app_assoc.
Qed.
Lemma cleared_ok idx l : forall k, Forall in_ok l -> (forall n i, nth_error l n = Some i -> k + Z.of_nat n = idx -> code_ok i) -> Forall in_ok (cleared idx k l).
Proof.
  induction l as [|i l IH]; intros k F C; [constructor|]. inversion F as [|? ? Hi Hl]; subst. cbn [cleared]. apply Forall_cons.
  - destruct Hi as (H1 & H2 & H3 & H4 & _). unfold in_ok. cbn [ti_hash ti_index ti_seq ti_value ti_unlock ti_witness]. repeat split; try lia; try constructor.
    + unfold fits_memory. destruct (k =? idx) eqn:E; [|change (len (@nil Z)) with 0; lia]. destruct (C 0%nat i eq_refl ltac:(lia)). lia.
    + unfold fits_memory. change (len (@nil bytes)) with 0. lia.
  - apply IH; [exact Hl|]. intros n x Hn En. apply (C (S n)); [exact Hn|]. lia.
Qed.
Lemma cleared_tx_ok idx t : tx_ok t -> signed_ok idx t -> tx_ok (cleared_tx idx t).
Proof.
  intros (V & K & Mi & Mo & Fi & Fo) C. unfold tx_ok, cleared_tx, set_ins, fits_memory. cbn [tx_version tx_locktime tx_ins tx_outs]. rewrite cleared_len.
  repeat split; try tauto; try lia; try assumption. apply cleared_ok; [exact Fi|]. now apply signed_at.
Qed.
Definition link (i : TxIn) : bytes * Z * Z := (ti_hash i, ti_index i, ti_seq i).
Lemma cleared_link idx l : forall k, map link (map stripped (cleared idx k l)) = map link l.
Proof. induction l as [|i l IH]; intros k; [reflexivity|]. cbn [cleared map]. rewrite IH. reflexivity. Qed.
Lemma cleared_nth idx l : forall k n i, nth_error l n = Some i -> k + Z.of_nat n = idx -> exists j, nth_error (map stripped (cleared idx k l)) n = Some j /\ ti_unlock j = script_code i.
Proof.
  induction l as [|x l IH]; intros k n i Hn E; [now destruct n|]. destruct n as [|n]; cbn [cleared map nth_error] in *.
  - injection Hn as ->. eexists. split; [reflexivity|]. cbn. replace (k =? idx) with true by lia. reflexivity.
  - apply IH; [exact Hn|lia].
Qed.
Lemma legacy_commits idx t t' : tx_ok t -> tx_ok t' -> signed_ok idx t -> signed_ok idx t' -> len (legacy_preimage idx t) <= 2 ^ 48 ->
  legacy_preimage idx t = legacy_preimage idx t' ->
  tx_version t = tx_version t' /\ tx_locktime t = tx_locktime t' /\ map link (tx_ins t) = map link (tx_ins t') /\ tx_outs t = tx_outs t' /\
  forall i i', index (tx_ins t) idx = Ok i -> index (tx_ins t') idx = Ok i' -> script_code i = script_code i'.
Proof.
  intros T T' C C' L E. rewrite !preimage_wire in *.
  pose proof (reads_inj dec_legacy _ _ _ _ _ _ (reads_legacy _ (cleared_tx_ok idx t T C)) (reads_legacy _ (cleared_tx_ok idx t' T' C')) L E) as (R & _).
  injection R as V K I O. cbn [cleared_tx set_ins tx_version tx_locktime tx_ins tx_outs] in *.
  split; [exact V|]. split; [exact K|]. split; [rewrite <- (cleared_link idx (tx_ins t) 0), I; apply cleared_link|]. split; [exact O|].
  intros i i' Hi Hi'. unfold index in Hi, Hi'. destruct (idx <? 0) eqn:Neg; [discriminate|].
  destruct (nth_error (tx_ins t) (Z.to_nat idx)) as [x|] eqn:Ex; [|discriminate]. injection Hi as ->.
  destruct (nth_error (tx_ins t') (Z.to_nat idx)) as [x'|] eqn:Ex'; [|discriminate]. injection Hi' as ->.
  destruct (cleared_nth idx _ 0 _ _ Ex ltac:(lia)) as (j & J & <-). destruct (cleared_nth idx _ 0 _ _ Ex' ltac:(lia)) as (j' & J' & <-).
  rewrite I, J' in J. now injection J as ->.
Qed.

(** ** BIP143. *)
Lemma bit7 ht : (Z.land ht 0x80 =? 0) = negb (anyone ht).
Proof.
  unfold anyone. destruct (Z.testbit ht 7) eqn:B; cbn [negb].
  - apply Z.eqb_neq. intros E. apply (f_equal (fun z => Z.testbit z 7)) in E. rewrite Z.land_spec, B, Z.bits_0 in E. discriminate.
  - apply Z.eqb_eq. apply Z.bits_inj'. intros n Hn. rewrite Z.land_spec, Z.bits_0. change 128 with (2 ^ 7). rewrite Z.pow2_bits_eqb by lia.
    destruct (7 =? n) eqn:E; [|apply andb_false_r]. replace n with 7 by lia. now rewrite B.
Qed.
Lemma bit1 ht : negb (Z.land ht 3 =? 3) && negb (Z.land ht 2 =? 2) = negb (Z.testbit ht 1).
Proof.
  assert (B2 : Z.land ht 2 =? 2 = Z.testbit ht 1).
  { destruct (Z.testbit ht 1) eqn:B.
    - apply Z.eqb_eq. apply Z.bits_inj'. intros n Hn. rewrite Z.land_spec. change 2 with (2 ^ 1). rewrite Z.pow2_bits_eqb by lia.
      destruct (1 =? n) eqn:E; [|apply andb_false_r]. replace n with 1 by lia. now rewrite B.
    - apply Z.eqb_neq. intros E. apply (f_equal (fun z => Z.testbit z 1)) in E. rewrite Z.land_spec, B in E. discriminate. }
  rewrite B2. destruct (Z.testbit ht 1) eqn:B; [apply andb_false_r|]. rewrite andb_true_r.
  destruct (Z.land ht 3 =? 3) eqn:E; [|reflexivity]. apply Z.eqb_eq in E. apply (f_equal (fun z => Z.testbit z 1)) in E. rewrite Z.land_spec, B in E. discriminate.
Qed.
Lemma land31_bit1 ht v : Z.land ht 31 = v -> Z.testbit ht 1 = Z.testbit v 1.
Proof. intros <-. rewrite Z.land_spec. change (Z.testbit 31 1) with true. now rewrite andb_true_r. Qed.

Section Bip.
Variable H : bytes -> bytes.
Notation WHash := (WitnessV0SignatureHash H).

(** The three digests a call with type [ht] uses on given caches. *)
Definition use_prevouts (ht : Z) (t : transaction) : bytes := if anyone ht then zeros else cached (tx_prevouts t) (H (prevouts_bytes t)).
Definition use_sequence (ht : Z) (t : transaction) : bytes := if anyone ht || single ht || none ht then zeros else cached (tx_sequence t) (H (sequences_bytes t)).
Definition use_outputs (ht : Z) (t : transaction) : bytes := if Z.testbit ht 1 then zeros else cached (tx_outputs t) (H (outputs_bytes t)).
Definition v0_preimage (ht : Z) (i : TxIn) (t : transaction) : bytes :=
  le 4 (tx_version t) ++ use_prevouts ht t ++ use_sequence ht t ++
  ti_hash i ++ le 4 (ti_index i) ++ prefixed (nilb (ti_code i)) ++ le 8 (ti_value i) ++ le 4 (ti_seq i) ++
  use_outputs ht t ++ le 4 (tx_locktime t) ++ le 4 ht.
Definition v0_code_ok (i : TxIn) : Prop := fits_memory 1 (nilb (ti_code i)).

Lemma v0_digest idx ht i t : index (tx_ins t) idx = Ok i -> v0_code_ok i -> Forall out_ok (tx_outs t) ->
  WHash idx ht t = Ok (H (v0_preimage ht i t), set_caches (Some (use_prevouts ht t)) (Some (use_sequence ht t)) (Some (use_outputs ht t)) t).
Proof.
  intros E C Fo. unfold WitnessV0SignatureHash. rewrite E. cbn [rbind]. rewrite bit7, bit1.
  assert (P : (if negb (anyone ht) then cached (tx_prevouts t) (H (Bytes (fold_left (fun b i => WriteU32 (ti_index i) (WriteBytes (ti_hash i) b)) (tx_ins t) NewBuffer))) else zeroHash) = use_prevouts ht t).
  { unfold use_prevouts. destruct (anyone ht); [reflexivity|]. cbn [negb]. do 2 f_equal. unfold Bytes. rewrite (data_fold _ (fun i => ti_hash i ++ le 4 (ti_index i))); [reflexivity|].
    apply Forall_forall. intros x _ b. rewrite data_U32, data_bytes, le_eq. now rewrite <- app_assoc. }
  assert (S : (if negb (anyone ht) && negb (Z.land ht 31 =? 3) && negb (Z.land ht 31 =? 2) then cached (tx_sequence t) (H (Bytes (fold_left (fun b i => WriteU32 (ti_seq i) b) (tx_ins t) NewBuffer))) else zeroHash) = use_sequence ht t).
  { unfold use_sequence, single, none. destruct (anyone ht); [reflexivity|]. destruct (Z.land ht 31 =? 3); [reflexivity|]. destruct (Z.land ht 31 =? 2); [reflexivity|]. cbn [negb andb orb].
    do 2 f_equal. unfold Bytes. rewrite (data_fold _ (fun i => le 4 (ti_seq i))); [reflexivity|]. apply Forall_forall. intros x _ b. now rewrite data_U32, le_eq. }
  assert (O : (if negb (Z.testbit ht 1) then cached (tx_outputs t) (H (Bytes (fold_left write_out (tx_outs t) NewBuffer))) else zeroHash) = use_outputs ht t).
  { unfold use_outputs. destruct (Z.testbit ht 1); [reflexivity|]. cbn [negb]. do 2 f_equal. unfold Bytes. rewrite write_outs_data by exact Fo. reflexivity. }
  rewrite P, S, O. do 2 f_equal. f_equal. unfold Bytes. rewrite !data_U32, !data_bytes, !data_U32, !data_U64, data_varbytes by (eapply mem1_lt; [exact C|lia]).
  rewrite !data_U32, !data_bytes, data_U32. change (bdata NewBuffer) with (@nil Z). cbn [app]. unfold v0_preimage. rewrite prefixed_eq, !le_eq. now rewrite <- !app_assoc.
Qed.

(** C38 and C40: fresh transactions. *)
Lemma fresh_digest idx ht i t : index (tx_ins t) idx = Ok i -> v0_code_ok i -> Forall out_ok (tx_outs t) -> uncached t ->
  (single ht = true -> len (tx_outs t) <= idx) -> (Z.testbit ht 1 = true -> single ht = true \/ none ht = true) ->
  exists t', WHash idx ht t = Ok (H (bip143_preimage H idx ht i t), t').
Proof.
  intros E C Fo (U1 & U2 & U3) S1 S2. eexists. rewrite (v0_digest idx ht i t E C Fo). do 3 f_equal. unfold v0_preimage, bip143_preimage, use_prevouts, use_sequence, use_outputs.
  rewrite U1, U2, U3. cbn [cached]. do 9 f_equal.
  destruct (Z.testbit ht 1) eqn:B.
  - destruct (single ht) eqn:Sg.
    + cbn [negb andb]. specialize (S1 eq_refl). replace (idx <? len (tx_outs t)) with false by lia. reflexivity.
    + destruct (S2 eq_refl) as [X|X]; [discriminate|]. rewrite X. reflexivity.
  - assert (Sg : single ht = false).
    { unfold single. destruct (Z.land ht 31 =? 3) eqn:X; [|reflexivity]. apply Z.eqb_eq, land31_bit1 in X. rewrite B in X. discriminate. }
    assert (Nn : none ht = false).
    { unfold none. destruct (Z.land ht 31 =? 2) eqn:X; [|reflexivity]. apply Z.eqb_eq, land31_bit1 in X. rewrite B in X. discriminate. }
    rewrite Sg, Nn. reflexivity.
Qed.

(** SINGLE (and every type with bit 1 set) ignores the outputs. *)
Lemma single_ignores_outputs idx ht t outs : Z.testbit ht 1 = true -> Forall out_ok (tx_outs t) -> Forall out_ok outs ->
  (forall i, index (tx_ins t) idx = Ok i -> v0_code_ok i) ->
  (let! (h, _) := WHash idx ht (set_outs outs t) in Ok h) = let! (h, _) := WHash idx ht t in Ok h.
Proof.
  intros B F1 F2 C. destruct (index (tx_ins t) idx) as [i| |] eqn:E.
  - rewrite (v0_digest idx ht i t E (C i eq_refl) F1). rewrite (v0_digest idx ht i (set_outs outs t) E (C i eq_refl) F2). cbn [rbind].
    unfold v0_preimage, use_prevouts, use_sequence, use_outputs. rewrite B. reflexivity.
  - unfold WitnessV0SignatureHash. cbn [tx_ins set_outs]. rewrite E. reflexivity.
  - unfold WitnessV0SignatureHash. cbn [tx_ins set_outs]. rewrite E. reflexivity.
Qed.

(** C39.  Caches that hold what a fresh computation would give. *)
Definition holds (o : obytes) (v : bytes) : Prop := o = None \/ o = Some v.
Definition consistent (t : transaction) : Prop :=
  holds (tx_prevouts t) (H (prevouts_bytes t)) /\ holds (tx_sequence t) (H (sequences_bytes t)) /\ holds (tx_outputs t) (H (outputs_bytes t)).
Definition clean (ht : Z) : Prop := anyone ht = false /\ Z.testbit ht 1 = false.
Lemma clean_flags ht : clean ht -> anyone ht = false /\ single ht = false /\ none ht = false /\ Z.testbit ht 1 = false.
Proof.
  intros [A B]. split; [exact A|]. split; [|split; [|exact B]].
  - unfold single. destruct (Z.land ht 31 =? 3) eqn:X; [|reflexivity]. apply Z.eqb_eq, land31_bit1 in X. rewrite B in X. discriminate.
  - unfold none. destruct (Z.land ht 31 =? 2) eqn:X; [|reflexivity]. apply Z.eqb_eq, land31_bit1 in X. rewrite B in X. discriminate.
Qed.
Lemma cached_holds o v : holds o v -> cached o v = v.
Proof. intros [->| ->]; reflexivity. Qed.
Definition v0_ok (t : transaction) : Prop := Forall v0_code_ok (tx_ins t) /\ Forall out_ok (tx_outs t).
Lemma index_In {A} (l : list A) k x : index l k = Ok x -> In x l.
Proof. unfold index. destruct (k <? 0); [discriminate|]. destruct (nth_error l (Z.to_nat k)) eqn:E; [|discriminate]. intros X; injection X as ->. eapply nth_error_In; eauto. Qed.
Lemma v0_code t idx i : v0_ok t -> index (tx_ins t) idx = Ok i -> v0_code_ok i.
Proof. intros [F _] E. rewrite Forall_forall in F. apply F. eapply index_In; eauto. Qed.

(** The transaction with its caches dropped. *)
Definition forget (t : transaction) : transaction := set_caches None None None t.
Lemma consistent_digest idx ht t : v0_ok t -> consistent t ->
  (let! (h, _) := WHash idx ht t in Ok h) = let! (h, _) := WHash idx ht (forget t) in Ok h.
Proof.
  intros V (C1 & C2 & C3). destruct (index (tx_ins t) idx) as [i| |] eqn:E.
  - pose proof (v0_code t idx i V E) as Ci. rewrite (v0_digest idx ht i t E Ci (proj2 V)), (v0_digest idx ht i (forget t) E Ci (proj2 V)). cbn [rbind].
    unfold v0_preimage, use_prevouts, use_sequence, use_outputs, forget, set_caches, prevouts_bytes, sequences_bytes, outputs_bytes in *. cbn [tx_version tx_locktime tx_ins tx_outs tx_prevouts tx_sequence tx_outputs] in *.
    rewrite (cached_holds _ _ C1), (cached_holds _ _ C2), (cached_holds _ _ C3). reflexivity.
  - unfold WitnessV0SignatureHash, forget. cbn [tx_ins set_caches]. rewrite E. reflexivity.
  - unfold WitnessV0SignatureHash, forget. cbn [tx_ins set_caches]. rewrite E. reflexivity.
Qed.
Lemma clean_consistent idx ht t h t' : v0_ok t -> consistent t -> clean ht -> WHash idx ht t = Ok (h, t') -> consistent t' /\ forget t' = forget t.
Proof.
  intros V (C1 & C2 & C3) Cl E. destruct (index (tx_ins t) idx) as [i| |] eqn:Ei; [|unfold WitnessV0SignatureHash in E; rewrite Ei in E; discriminate..].
  rewrite (v0_digest idx ht i t Ei (v0_code t idx i V Ei) (proj2 V)) in E. injection E as _ <-. split; [|reflexivity].
  destruct (clean_flags ht Cl) as (A & S & N & B). unfold consistent, use_prevouts, use_sequence, use_outputs. rewrite A, S, N, B. cbn [orb].
  rewrite (cached_holds _ _ C1), (cached_holds _ _ C2), (cached_holds _ _ C3). unfold holds, prevouts_bytes, sequences_bytes, outputs_bytes, set_caches. cbn. auto.
Qed.
Lemma forget_v0 t t' : forget t' = forget t -> v0_ok t -> v0_ok t'.
Proof. unfold forget, set_caches, v0_ok. intros E. injection E as _ _ -> ->. auto. Qed.
(** Any history of signature hashes of clean types on one transaction. *)
Definition history (calls : list (Z * Z)) (t : transaction) : transaction :=
  fold_left (fun t c => match WHash (fst c) (snd c) t with Ok (_, t') => t' | _ => t end) calls t.
Lemma clean_history calls : forall t, v0_ok t -> consistent t -> Forall (fun c => clean (snd c)) calls ->
  consistent (history calls t) /\ forget (history calls t) = forget t.
Proof.
  induction calls as [|[k ht] calls IH]; intros t V C F; [split; [exact C|reflexivity]|]. inversion F as [|? ? Cl F']; subst. cbn [history fold_left fst snd] in *.
  fold (history calls) in *. destruct (WHash k ht t) as [[h t']| |] eqn:E; [|apply IH; auto..].
  destruct (clean_consistent k ht t h t' V C Cl E) as [C' Eq]. destruct (IH t' (forget_v0 t t' Eq V) C' F') as [A B]. split; [exact A|]. transitivity (forget t'); [exact B|exact Eq].
Qed.
Lemma history_independent calls idx ht t : v0_ok t -> uncached t -> Forall (fun c => clean (snd c)) calls ->
  (let! (h, _) := WHash idx ht (history calls t) in Ok h) = let! (h, _) := WHash idx ht t in Ok h.
Proof.
  intros V (U1 & U2 & U3) F. assert (C : consistent t) by (unfold consistent, holds; auto). destruct (clean_history calls t V C F) as [C' E].
  rewrite (consistent_digest idx ht (history calls t)) by (auto; eapply forget_v0; eauto). rewrite E. rewrite <- (consistent_digest idx ht t V C). reflexivity.
Qed.

(** Refutations of C39: a later output is not covered; an ANYONECANPAY call makes later SIGHASH_ALL digests ignore the other inputs. *)
Lemma stale_after_add idx ht i t o t' : index (tx_ins t) idx = Ok i -> v0_code_ok i -> Forall out_ok (tx_outs t) -> out_ok o ->
  WHash idx ht t = Ok (H (v0_preimage ht i t), t') -> Z.testbit ht 1 = false ->
  exists t'', WHash idx ht (AddOutput o t') = Ok (H (v0_preimage ht i t), t'').
Proof.
  intros E C Fo Ho W B. rewrite (v0_digest idx ht i t E C Fo) in W. injection W as <-. eexists. rewrite (v0_digest idx ht i _).
  - do 3 f_equal. unfold v0_preimage, use_prevouts, use_sequence, use_outputs, AddOutput, set_outs, set_caches.
    cbn [tx_version tx_locktime tx_ins tx_outs tx_prevouts tx_sequence tx_outputs cached]. rewrite B. destruct (anyone ht); destruct (single ht); destruct (none ht); reflexivity.
  - exact E.
  - exact C.
  - unfold AddOutput, set_outs, set_caches. cbn [tx_outs]. apply Forall_app. split; [exact Fo|]. constructor; [exact Ho|constructor].
Qed.

(** C38: the preimage determines its parts. *)
End Bip.

Lemma le_inj n v w : 0 <= v < 256 ^ Z.of_nat n -> 0 <= w < 256 ^ Z.of_nat n -> le n v = le n w -> v = w.
Proof. rewrite !le_eq. apply le_bytes_inj. Qed.
Lemma app_le_inj n v w r s : 0 <= v < 256 ^ Z.of_nat n -> 0 <= w < 256 ^ Z.of_nat n -> le n v ++ r = le n w ++ s -> v = w /\ r = s.
Proof. intros Hv Hw E. apply app_inj_len in E; [|rewrite !le_eq; now rewrite !le_bytes_length]. destruct E as [E ->]. apply le_inj in E; auto. Qed.
Lemma prefixed_inj a b r s : len a < 2 ^ 64 -> len b < 2 ^ 64 -> prefixed a ++ r = prefixed b ++ s -> a = b /\ r = s.
Proof.
  intros La Lb. rewrite !prefixed_eq. unfold varbytes. rewrite <- !app_assoc. intros E. pose proof (len_nonneg a). pose proof (len_nonneg b).
  apply varint_bytes_prefix_free in E; [|lia|lia]. destruct E as [E1 E2]. apply app_inj_len in E2; [exact E2|]. unfold len in E1. lia.
Qed.
Lemma app_len_inj (a b r s : bytes) : len a = len b -> a ++ r = b ++ s -> a = b /\ r = s.
Proof. intros L. apply app_inj_len. unfold len in L. lia. Qed.
Lemma concat_inj {A B} (P : A -> Prop) (enc : A -> bytes) (dec : A -> B) : (forall x, P x -> enc x <> []) ->
  (forall x y r s, P x -> P y -> enc x ++ r = enc y ++ s -> dec x = dec y /\ r = s) ->
  forall l m, Forall P l -> Forall P m -> concat (map enc l) = concat (map enc m) -> map dec l = map dec m.
Proof.
  intros Ne Pf. induction l as [|x l IH]; intros [|y m] Fl Fm E; cbn [map concat] in *.
  - reflexivity.
  - inversion Fm; subst. exfalso. symmetry in E. apply app_eq_nil in E. apply (Ne y); tauto.
  - inversion Fl; subst. exfalso. apply app_eq_nil in E. apply (Ne x); tauto.
  - inversion Fl; inversion Fm; subst. destruct (Pf x y _ _ ltac:(assumption) ltac:(assumption) E) as [-> E']. f_equal. apply IH; auto.
Qed.
Lemma le_not_nil n v : le (S n) v <> []. Proof. discriminate. Qed.
Lemma app_not_nil_r (a b : bytes) : b <> [] -> a ++ b <> [].
Proof. intros H E. apply app_eq_nil in E. tauto. Qed.
Lemma prevouts_inj t t' : Forall in_ok (tx_ins t) -> Forall in_ok (tx_ins t') -> prevouts_bytes t = prevouts_bytes t' ->
  map (fun i => (ti_hash i, ti_index i)) (tx_ins t) = map (fun i => (ti_hash i, ti_index i)) (tx_ins t').
Proof.
  unfold prevouts_bytes. apply (concat_inj in_ok).
  - intros x _. apply app_not_nil_r, le_not_nil.
  - intros x y r s (Lx & Ix & _) (Ly & Iy & _) E. rewrite <- !app_assoc in E. apply app_len_inj in E; [|lia]. destruct E as [-> E]. apply app_le_inj in E; [|simpl; lia..]. destruct E as [-> ->]. auto.
Qed.
Lemma sequences_inj t t' : Forall in_ok (tx_ins t) -> Forall in_ok (tx_ins t') -> sequences_bytes t = sequences_bytes t' ->
  map ti_seq (tx_ins t) = map ti_seq (tx_ins t').
Proof.
  unfold sequences_bytes. apply (concat_inj in_ok); [intros x _; apply le_not_nil|].
  intros x y r s (_ & _ & Sx & _) (_ & _ & Sy & _) E. apply app_le_inj in E; [exact E|simpl; lia..].
Qed.
Lemma outputs_inj t t' : Forall out_ok (tx_outs t) -> Forall out_ok (tx_outs t') -> outputs_bytes t = outputs_bytes t' -> tx_outs t = tx_outs t'.
Proof.
  intros F F' E. rewrite <- (map_id (tx_outs t)), <- (map_id (tx_outs t')). revert F F' E. unfold outputs_bytes. apply (concat_inj out_ok wire_out (fun o => o)).
  - intros x _. unfold wire_out. discriminate.
  - intros x y r s [Vx Sx] [Vy Sy] E. unfold wire_out in E. rewrite <- !app_assoc in E. apply app_le_inj in E; [|simpl; lia..]. destruct E as [V E].
    apply prefixed_inj in E; [|eapply mem1_lt; eauto; lia..]. destruct E as [S ->]. destruct x, y; cbn in *. split; congruence.
Qed.

Lemma all_flags : anyone 1 = false /\ single 1 = false /\ none 1 = false. Proof. repeat split. Qed.
Lemma bip143_parts H idx idx' ht i i' t t' : (forall x, len (H x) = 32) -> 0 <= ht < 2 ^ 32 -> tx_ok t -> tx_ok t' -> in_ok i -> in_ok i' -> v0_code_ok i -> v0_code_ok i' ->
  anyone ht = false -> single ht = false -> none ht = false ->
  bip143_preimage H idx ht i t = bip143_preimage H idx' ht i' t' ->
  tx_version t = tx_version t' /\ tx_locktime t = tx_locktime t' /\ ti_hash i = ti_hash i' /\ ti_index i = ti_index i' /\ nilb (ti_code i) = nilb (ti_code i') /\
  ti_value i = ti_value i' /\ ti_seq i = ti_seq i' /\
  H (prevouts_bytes t) = H (prevouts_bytes t') /\ H (sequences_bytes t) = H (sequences_bytes t') /\ H (outputs_bytes t) = H (outputs_bytes t').
Proof.
  intros L Hht (V & K & _) (V' & K' & _) (Hi1 & Hi2 & Hi3 & Hi4 & _) (Hi1' & Hi2' & Hi3' & Hi4' & _) C C' A S N E.
  unfold bip143_preimage in E. rewrite A, S, N in E. cbn [orb negb andb] in E.
  apply app_le_inj in E; [|simpl; lia..]. destruct E as [E1 E].
  apply app_len_inj in E; [|now rewrite !L]. destruct E as [E2 E]. apply app_len_inj in E; [|now rewrite !L]. destruct E as [E3 E].
  apply app_len_inj in E; [|lia]. destruct E as [E4 E]. apply app_le_inj in E; [|simpl; lia..]. destruct E as [E5 E].
  apply prefixed_inj in E; [|eapply mem1_lt; eauto; lia..]. destruct E as [E6 E]. apply app_le_inj in E; [|simpl; lia..]. destruct E as [E7 E].
  apply app_le_inj in E; [|simpl; lia..]. destruct E as [E8 E]. apply app_len_inj in E; [|now rewrite !L]. destruct E as [E9 E].
  apply app_le_inj in E; [|simpl; lia..]. destruct E as [E10 _]. repeat split; assumption.
Qed.
(** C38, second half: with no collision among the strings hashed, the digest determines the whole transaction. *)
Lemma bip143_all_commits H idx idx' i i' t t' h t1 t1' : (forall x, len (H x) = 32) -> tx_ok t -> tx_ok t' -> v0_ok t -> v0_ok t' -> uncached t -> uncached t' ->
  index (tx_ins t) idx = Ok i -> index (tx_ins t') idx' = Ok i' ->
  no_collision H (bip143_preimage H idx 1 i t) (bip143_preimage H idx' 1 i' t') ->
  no_collision H (prevouts_bytes t) (prevouts_bytes t') -> no_collision H (sequences_bytes t) (sequences_bytes t') -> no_collision H (outputs_bytes t) (outputs_bytes t') ->
  WitnessV0SignatureHash H idx 1 t = Ok (h, t1) -> WitnessV0SignatureHash H idx' 1 t' = Ok (h, t1') ->
  tx_version t = tx_version t' /\ tx_locktime t = tx_locktime t' /\ map link (tx_ins t) = map link (tx_ins t') /\ tx_outs t = tx_outs t' /\
  link i = link i' /\ ti_value i = ti_value i' /\ nilb (ti_code i) = nilb (ti_code i').
Proof.
  intros L T T' V V' U U' Ei Ei' N1 N2 N3 N4 W W'.
  destruct (fresh_digest H idx 1 i t Ei (v0_code t idx i V Ei) (proj2 V) U) as (x & X); [discriminate|discriminate|]. rewrite X in W. injection W as W <-.
  destruct (fresh_digest H idx' 1 i' t' Ei' (v0_code t' idx' i' V' Ei') (proj2 V') U') as (x' & X'); [discriminate|discriminate|]. rewrite X' in W'. injection W' as W' <-.
  pose proof T as (_ & _ & _ & _ & Fi & Fo). pose proof T' as (_ & _ & _ & _ & Fi' & Fo').
  assert (Ii : in_ok i) by (rewrite Forall_forall in Fi; apply Fi; eapply index_In; eauto). assert (Ii' : in_ok i') by (rewrite Forall_forall in Fi'; apply Fi'; eapply index_In; eauto).
  assert (E : bip143_preimage H idx 1 i t = bip143_preimage H idx' 1 i' t') by (apply N1; congruence).
  apply bip143_parts in E; try reflexivity; auto; try lia; [|exact (v0_code t idx i V Ei)|exact (v0_code t' idx' i' V' Ei')].
  destruct E as (E1 & E2 & E3 & E4 & E5 & E6 & E7 & E8 & E9 & E10).
  apply N2, prevouts_inj in E8; [|assumption..]. apply N3, sequences_inj in E9; [|assumption..]. apply N4, outputs_inj in E10; [|assumption..].
  assert (Z : forall l m : list TxIn, map (fun i => (ti_hash i, ti_index i)) l = map (fun i => (ti_hash i, ti_index i)) m -> map ti_seq l = map ti_seq m -> map link l = map link m).
  { induction l as [|a l IH]; intros [|b m] Q1 Q2; try discriminate; [reflexivity|]. cbn [map] in *. injection Q1 as A1 A2 Q1. injection Q2 as B1 Q2. f_equal; [unfold link; congruence|]. apply IH; assumption. }
  split; [exact E1|]. split; [exact E2|]. split; [now apply Z|]. split; [exact E10|]. split; [unfold link; congruence|]. split; assumption.
Qed.

(** C39: an ANYONECANPAY call leaves a cache under which SIGHASH_ALL no longer sees the other inputs. *)
Lemma poisoned_ignores_inputs H i ins1 ins2 t : v0_ok (set_ins (i :: ins1) t) -> v0_ok (set_ins (i :: ins2) t) -> uncached t ->
  forall ht, anyone ht = true ->
  (let! (h, _) := WitnessV0SignatureHash H 0 1 (history H [(0, ht)] (set_ins (i :: ins1) t)) in Ok h) =
  (let! (h, _) := WitnessV0SignatureHash H 0 1 (history H [(0, ht)] (set_ins (i :: ins2) t)) in Ok h).
Proof.
  intros V1 V2 (U1 & U2 & U3) ht A. unfold history. cbn [fold_left fst snd].
  rewrite (v0_digest H 0 ht i (set_ins (i :: ins1) t) eq_refl (v0_code _ 0 _ V1 eq_refl) (proj2 V1)).
  rewrite (v0_digest H 0 ht i (set_ins (i :: ins2) t) eq_refl (v0_code _ 0 _ V2 eq_refl) (proj2 V2)).
  match goal with |- (let! _ := WitnessV0SignatureHash H 0 1 ?a in _) = (let! _ := WitnessV0SignatureHash H 0 1 ?b in _) =>
    rewrite (v0_digest H 0 1 i a eq_refl (v0_code _ 0 _ V1 eq_refl) (proj2 V1)), (v0_digest H 0 1 i b eq_refl (v0_code _ 0 _ V2 eq_refl) (proj2 V2)) end.
  cbn [rbind]. unfold v0_preimage, use_prevouts, use_sequence, use_outputs. cbn [tx_prevouts tx_sequence tx_outputs set_caches cached]. rewrite A. cbn [orb]. reflexivity.
Qed.
