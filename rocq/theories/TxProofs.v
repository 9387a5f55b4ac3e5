(** Transaction serialization: the model writes the documented formats and reads them back. *)
From Verif Require Import GoBase BaseLemmas BufferModel BufferSpec BufferProofs BufferMore Codec ScriptModel LockModel TxModel TxSpec.
From Coq Require Import ZifyBool ZifyNat ZifyN.

Lemma le_eq n v : le n v = le_bytes n v.
Proof.
  unfold le. revert v. induction n as [|n IH]; intros v; [reflexivity|]. cbn [seq map le_bytes]. change (256 ^ Z.of_nat 0) with 1. rewrite Z.div_1_r. f_equal.
  rewrite <- IH, <- seq_shift, map_map. apply map_ext. intros k. f_equal. rewrite Z.div_div by lia. f_equal. rewrite <- Z.pow_succ_r by lia. f_equal. lia.
Qed.
Lemma compact_eq n : compact n = varint_bytes n.
Proof. unfold compact, varint_bytes. change (2 ^ 16) with 65536. change (2 ^ 32) with 4294967296.
  destruct (n <? 253); [reflexivity|]. replace (n <? 65536) with (n <=? 65535) by lia. replace (n <? 4294967296) with (n <=? 4294967295) by lia. now rewrite !le_eq. Qed.
Lemma prefixed_eq b : prefixed b = varbytes b.
Proof. unfold prefixed, varbytes. now rewrite compact_eq. Qed.
Lemma le_len n v : len (le n v) = Z.of_nat n. Proof. rewrite le_eq. apply le_bytes_len. Qed.

Lemma script_sig_eq i : (if in_has_witness i then [] else ti_unlock i) = script_sig i.
Proof. unfold in_has_witness, script_sig. now destruct (ti_code i). Qed.
Lemma script_sig_mem i : in_ok i -> fits_memory 1 (script_sig i).
Proof. intros (_ & _ & _ & _ & U & _). unfold script_sig. destruct (ti_code i); [unfold fits_memory; change (len (@nil Z)) with 0; lia|exact U]. Qed.
Lemma mem1_lt {A} (l : list A) k : fits_memory k l -> 1 <= k -> len l < 2 ^ 64.
Proof. unfold fits_memory. intros. pose proof (len_nonneg l). nia. Qed.

Lemma write_in_data b i : in_ok i -> bdata (write_in b i) = bdata b ++ wire_in i.
Proof.
  intros H. unfold write_in. rewrite script_sig_eq. rewrite data_U32, data_varbytes by (apply (mem1_lt _ 1); [now apply script_sig_mem|lia]). rewrite data_U32, data_bytes.
  unfold wire_in. rewrite prefixed_eq, !le_eq. now rewrite <- !app_assoc.
Qed.
Lemma write_out_data b o : out_ok o -> bdata (write_out b o) = bdata b ++ wire_out o.
Proof.
  intros [_ H]. unfold write_out. rewrite data_varbytes by (apply (mem1_lt _ 1); [exact H|lia]). rewrite data_U64. unfold wire_out. rewrite prefixed_eq, le_eq. now rewrite <- !app_assoc.
Qed.
Lemma write_witness_data b i : in_ok i -> bdata (write_witness b i) = bdata b ++ wire_witness i.
Proof.
  intros (_ & _ & _ & _ & _ & W & F). unfold write_witness.
  rewrite (data_fold _ prefixed). 2:{ apply (Forall_impl _ (P := fits_memory 1)); [|exact F]. intros w Hw b'. rewrite prefixed_eq. apply data_varbytes. apply (mem1_lt _ 1); [exact Hw|lia]. }
  rewrite data_count by (apply (mem1_lt _ 24); [exact W|lia]). unfold wire_witness. rewrite compact_eq. now rewrite <- app_assoc.
Qed.
Lemma write_ins_data l b : Forall in_ok l -> bdata (fold_left write_in l b) = bdata b ++ concat (map wire_in l).
Proof. intros F. apply data_fold. apply (Forall_impl _ (P := in_ok)); [|exact F]. intros i Hi b'. now apply write_in_data. Qed.
Lemma write_outs_data l b : Forall out_ok l -> bdata (fold_left write_out l b) = bdata b ++ concat (map wire_out l).
Proof. intros F. apply data_fold. apply (Forall_impl _ (P := out_ok)); [|exact F]. intros i Hi b'. now apply write_out_data. Qed.
Lemma write_wits_data l b : Forall in_ok l -> bdata (fold_left write_witness l b) = bdata b ++ concat (map wire_witness l).
Proof. intros F. apply data_fold. apply (Forall_impl _ (P := in_ok)); [|exact F]. intros i Hi b'. now apply write_witness_data. Qed.

Lemma serialize_no_witness t : tx_ok t -> SerializeNoWitness t = wire_legacy t.
Proof.
  intros (_ & _ & Mi & Mo & Fi & Fo). unfold SerializeNoWitness, Bytes. rewrite data_U32, write_outs_data, data_count, write_ins_data, data_count, data_U32 by (auto; eapply mem1_lt; eauto; lia).
  change (bdata NewBuffer) with (@nil Z). cbn [app]. unfold wire_legacy, wire_body. rewrite !compact_eq, !le_eq. now rewrite <- !app_assoc.
Qed.
Lemma serialize_witness t : tx_ok t -> Serialize t = if HasWitness t then wire_bip144 t else wire_legacy t.
Proof.
  intros (_ & _ & Mi & Mo & Fi & Fo). unfold Serialize, Bytes. destruct (HasWitness t).
  - rewrite data_U32, write_wits_data, write_outs_data, data_count, write_ins_data, data_count, !data_U8, data_U32 by (auto; eapply mem1_lt; eauto; lia).
    change (bdata NewBuffer) with (@nil Z). cbn [app]. unfold wire_bip144, wire_body. rewrite !compact_eq, !le_eq. now rewrite <- !app_assoc.
  - rewrite data_U32, write_outs_data, data_count, write_ins_data, data_count, data_U32 by (auto; eapply mem1_lt; eauto; lia).
    change (bdata NewBuffer) with (@nil Z). cbn [app]. unfold wire_legacy, wire_body. rewrite !compact_eq, !le_eq. now rewrite <- !app_assoc.
Qed.
Lemma has_witness_iff t : HasWitness t = true <-> Exists is_witness (tx_ins t).
Proof.
  unfold HasWitness. rewrite existsb_exists, Exists_exists. split; intros (i & I & W); exists i; (split; [exact I|]); unfold in_has_witness, is_witness in *; destruct (ti_code i); congruence.
Qed.

(** ** Reading back. *)
Lemma reads_mem {A} (rd : BM A) e x : (len e <= 2 ^ 48 -> reads rd e x) -> reads rd e x.
Proof. intros H pre rest F. apply H; [|exact F]. unfold fits in F. rewrite !len_app in F. pose proof (len_nonneg pre). pose proof (len_nonneg rest). lia. Qed.
Lemma reads_n {A B} (rd : BM B) (enc : A -> bytes) (dec : A -> B) l : Forall (fun x => reads rd (enc x) (dec x)) l ->
  reads (read_n (length l) rd) (concat (map enc l)) (map dec l).
Proof.
  induction 1 as [|x l Hx _ IH]; cbn [length read_n map concat]; [apply reads_ret|].
  eapply reads_bind; [exact Hx|]. eapply reads_last; [exact IH|]. reflexivity.
Qed.
Lemma reads_each {A B} (rd : A -> BM B) (enc : A -> bytes) (dec : A -> B) l : Forall (fun x => reads (rd x) (enc x) (dec x)) l ->
  reads (read_each rd l) (concat (map enc l)) (map dec l).
Proof.
  induction 1 as [|x l Hx _ IH]; cbn [read_each map concat]; [apply reads_ret|].
  eapply reads_bind; [exact Hx|]. eapply reads_last; [exact IH|]. reflexivity.
Qed.
Lemma reads_make n k {B} (m : BM B) e y : make_ok n k = true -> reads m e y -> reads (do _ <- bmake n k; m) e y.
Proof. intros M R pre rest F. unfold bbind, bmake. rewrite M. apply R. exact F. Qed.
Lemma reads_assert c s {B} (m : BM B) e y : c = true -> reads m e y -> reads (do _ <- bassert c s; m) e y.
Proof. intros -> R pre rest F. unfold bbind, bassert. apply R. exact F. Qed.

Definition stripped (i : TxIn) : TxIn := MkIn (ti_hash i) (ti_index i) 0 (ti_seq i) [] None [] None [] [] (script_sig i).
Definition carried (i : TxIn) : TxIn := with_witness (ti_witness i) (stripped i).

Lemma reads_in i : in_ok i -> reads read_in (wire_in i) (stripped i).
Proof.
  intros (L & I & S & _). unfold read_in, wire_in. rewrite prefixed_eq, !le_eq.
  eapply reads_bind; [apply reads_bytes; exact L|]. eapply reads_bind; [now apply reads_U32|]. eapply reads_bind; [apply reads_varbytes|].
  eapply reads_last; [now apply reads_U32|]. intros b. now rewrite !nilb_nilify.
Qed.
Lemma reads_out o : out_ok o -> reads read_out (wire_out o) o.
Proof.
  intros [V _]. unfold read_out, wire_out. rewrite prefixed_eq, !le_eq. eapply reads_bind; [now apply reads_U64|]. eapply reads_last; [apply reads_varbytes|].
  intros b. rewrite nilb_nilify. now destruct o.
Qed.
Lemma reads_item w : reads read_item (prefixed w) w.
Proof. rewrite prefixed_eq. unfold read_item. eapply reads_last; [apply reads_varbytes|]. intros b. now rewrite nilb_nilify. Qed.
Lemma reads_witness i j : in_ok i -> reads (read_witness j) (wire_witness i) (with_witness (ti_witness i) j).
Proof.
  intros (_ & _ & _ & _ & _ & W & _). unfold read_witness, wire_witness. rewrite compact_eq.
  eapply reads_bind; [apply reads_varint; split; [apply len_nonneg|eapply mem1_lt; eauto; lia]|].
  apply reads_make; [unfold make_ok, fits_memory in *; pose proof (len_nonneg (ti_witness i)); lia|].
  rewrite to_nat_len. rewrite <- (map_id (ti_witness i)) at 3. eapply reads_last; [apply (reads_n read_item prefixed (fun w => w))|].
  - apply Forall_forall. intros w _. apply reads_item.
  - intros b. reflexivity.
Qed.

Lemma len_in_pos {A} (enc : A -> bytes) l k : (forall x, k <= len (enc x)) -> k * len l <= len (concat (map enc l)).
Proof.
  intros H. induction l as [|x l IH]; [cbn; change (len (@nil A)) with 0; change (len (@nil Z)) with 0; lia|].
  cbn [map concat]. rewrite len_app, len_cons. specialize (H x). lia.
Qed.
Lemma reads_ins l : Forall in_ok l -> fits_memory 8 l -> reads (read_ins []) (compact (len l) ++ concat (map wire_in l)) (map stripped l).
Proof.
  intros F M. unfold read_ins. rewrite compact_eq. unfold fits_memory in M. pose proof (len_nonneg l).
  eapply reads_bind; [apply reads_varint; lia|]. destruct (0 <? len l) eqn:P.
  - apply reads_make; [unfold make_ok; lia|]. rewrite i64_id, to_nat_len by lia. apply reads_n. apply (Forall_impl _ (P := in_ok)); [|exact F]. apply reads_in.
  - assert (E : l = []) by (apply len_zero; lia). subst l. apply reads_ret.
Qed.
Lemma reads_outs l : Forall out_ok l -> fits_memory 8 l -> reads (read_outs []) (compact (len l) ++ concat (map wire_out l)) l.
Proof.
  intros F M. unfold read_outs. rewrite compact_eq. unfold fits_memory in M. pose proof (len_nonneg l).
  eapply reads_bind; [apply reads_varint; lia|]. destruct (0 <? len l) eqn:P.
  - apply reads_make; [unfold make_ok; lia|]. rewrite i64_id, to_nat_len by lia. rewrite <- (map_id l) at 3. apply (reads_n read_out wire_out (fun o => o)). apply (Forall_impl _ (P := out_ok)); [|exact F]. apply reads_out.
  - assert (E : l = []) by (apply len_zero; lia). subst l. apply reads_ret.
Qed.

(** The two decoders as readers, on a fresh receiver. *)
Definition dec_legacy : BM transaction :=
  do v <- ReadU32; do ins <- read_ins []; do outs <- read_outs []; do lt <- ReadU32; bret (MkTx v lt ins outs None None None).
Definition dec_bip144 : BM transaction :=
  do v <- ReadU32; do marker <- ReadU8; do _ <- bassert (marker =? 0x00) "witness.marker.error"; do flag <- ReadU8;
  do _ <- bassert (flag =? 0x01) "witness.flag.error"; do ins <- read_ins []; do outs <- read_outs [];
  do ins <- read_each read_witness ins; do lt <- ReadU32; bret (MkTx v lt ins outs None None None).
Lemma reads_legacy t : tx_ok t -> reads dec_legacy (wire_legacy t) (MkTx (tx_version t) (tx_locktime t) (map stripped (tx_ins t)) (tx_outs t) None None None).
Proof.
  intros (V & K & Mi & Mo & Fi & Fo). unfold dec_legacy, wire_legacy, wire_body. rewrite !le_eq.
  replace ((compact (len (tx_ins t)) ++ concat (map wire_in (tx_ins t)) ++ compact (len (tx_outs t)) ++ concat (map wire_out (tx_outs t))) ++ le_bytes 4 (tx_locktime t))
    with ((compact (len (tx_ins t)) ++ concat (map wire_in (tx_ins t))) ++ (compact (len (tx_outs t)) ++ concat (map wire_out (tx_outs t))) ++ le_bytes 4 (tx_locktime t)) by (now rewrite <- !app_assoc).
  eapply reads_bind; [now apply reads_U32|]. eapply reads_bind; [now apply reads_ins|]. eapply reads_bind; [now apply reads_outs|].
  eapply reads_last; [now apply reads_U32|]. reflexivity.
Qed.
Lemma read_each_stripped l : Forall in_ok l -> reads (read_each read_witness (map stripped l)) (concat (map wire_witness l)) (map carried l).
Proof.
  induction 1 as [|x l Hx _ IH]; cbn [read_each map concat]; [apply reads_ret|].
  eapply reads_bind; [now apply (reads_witness x (stripped x))|]. eapply reads_last; [exact IH|]. reflexivity.
Qed.
Lemma reads_bip144 t : tx_ok t -> reads dec_bip144 (wire_bip144 t) (MkTx (tx_version t) (tx_locktime t) (map carried (tx_ins t)) (tx_outs t) None None None).
Proof.
  intros (V & K & Mi & Mo & Fi & Fo). unfold dec_bip144, wire_bip144, wire_body. rewrite !le_eq.
  replace ([0; 1] ++ (compact (len (tx_ins t)) ++ concat (map wire_in (tx_ins t)) ++ compact (len (tx_outs t)) ++ concat (map wire_out (tx_outs t))) ++ concat (map wire_witness (tx_ins t)) ++ le_bytes 4 (tx_locktime t))
    with ([0] ++ [1] ++ (compact (len (tx_ins t)) ++ concat (map wire_in (tx_ins t))) ++ (compact (len (tx_outs t)) ++ concat (map wire_out (tx_outs t))) ++ concat (map wire_witness (tx_ins t)) ++ le_bytes 4 (tx_locktime t)) by (now rewrite <- !app_assoc).
  eapply reads_bind; [now apply reads_U32|]. eapply reads_bind; [apply reads_U8|]. apply reads_assert; [reflexivity|]. eapply reads_bind; [apply reads_U8|]. apply reads_assert; [reflexivity|].
  eapply reads_bind; [now apply reads_ins|]. eapply reads_bind; [now apply reads_outs|]. eapply reads_bind; [now apply read_each_stripped|].
  eapply reads_last; [now apply reads_U32|]. reflexivity.
Qed.

Lemma reads_run {A} (rd : BM A) e x rest : reads rd e x -> len (e ++ rest) <= 2 ^ 48 -> fst (rd (NewBufferReader (e ++ rest))) = Ok x.
Proof. intros R L. rewrite NewBufferReader_rbuf. rewrite R by exact L. reflexivity. Qed.

Lemma view_stripped i : in_view (stripped i) = in_view i. Proof. reflexivity. Qed.
Lemma map_view_stripped l : map in_view (map stripped l) = map in_view l.
Proof. rewrite map_map. apply map_ext. reflexivity. Qed.

(** C30. *)
Lemma legacy_roundtrip t junk : tx_ok t -> len (SerializeNoWitness t ++ junk) <= 2 ^ 48 ->
  exists t', DeserializeNoWitness (SerializeNoWitness t ++ junk) NewTransaction = Ok t' /\ same_body t t'.
Proof.
  intros T L. rewrite serialize_no_witness in * by exact T. eexists. split; [apply (reads_run dec_legacy); [now apply reads_legacy|exact L]|].
  unfold same_body. cbn [tx_version tx_locktime tx_ins tx_outs]. rewrite map_view_stripped. auto.
Qed.
(** C31. *)
Lemma bip144_roundtrip t junk : tx_ok t -> Exists is_witness (tx_ins t) -> len (Serialize t ++ junk) <= 2 ^ 48 ->
  exists t', Deserialize (Serialize t ++ junk) NewTransaction = Ok t' /\ same_body t t' /\ same_witnesses t t'.
Proof.
  intros T W L. apply has_witness_iff in W. rewrite serialize_witness, W in * by exact T. eexists. split; [apply (reads_run dec_bip144); [now apply reads_bip144|exact L]|].
  unfold same_body, same_witnesses. cbn [tx_version tx_locktime tx_ins tx_outs]. rewrite !map_map. repeat split; apply map_ext; reflexivity.
Qed.

Lemma wire_legacy_body t t' : same_body t t' -> wire_legacy t = wire_legacy t'.
Proof.
  intros (V & K & I & O). unfold wire_legacy, wire_body. rewrite V, K, O.
  assert (Li : len (tx_ins t) = len (tx_ins t')) by (rewrite <- (len_map in_view (tx_ins t)), I; apply len_map).
  assert (Ei : map wire_in (tx_ins t) = map wire_in (tx_ins t')).
  { pose (w := fun v : bytes * Z * bytes * Z => let '(h, n, s, q) := v in h ++ le 4 n ++ prefixed s ++ le 4 q).
    assert (X : forall l, map wire_in l = map w (map in_view l)) by (intros l; rewrite map_map; apply map_ext; reflexivity).
    now rewrite !X, I. }
  now rewrite Li, Ei.
Qed.
(** C34. *)
Lemma txid_covers t t' : tx_ok t -> tx_ok t' -> len (SerializeNoWitness t) <= 2 ^ 48 ->
  (SerializeNoWitness t = SerializeNoWitness t' <-> same_body t t').
Proof.
  intros T T' L. rewrite !serialize_no_witness in * by assumption. split; [|apply wire_legacy_body].
  intros E. pose proof (reads_inj dec_legacy (wire_legacy t) (wire_legacy t') _ _ [] [] (reads_legacy t T) (reads_legacy t' T')) as X.
  rewrite !app_nil_r in X. destruct (X L E) as (R & _). injection R as V K I O. unfold same_body. repeat split; auto.
  rewrite <- !(map_view_stripped (tx_ins _)). now rewrite I.
Qed.

(** ** C32: writing back. *)
Lemma carried_code l : existsb in_has_witness (map carried l) = false.
Proof. induction l as [|x l IH]; [reflexivity|exact IH]. Qed.
Lemma carried_ok i : in_ok i -> in_ok (carried i).
Proof.
  intros H. pose proof (script_sig_mem i H) as S. destruct H as (H1 & H2 & H3 & H4 & H5 & H6 & H7). unfold in_ok. cbn [ti_hash ti_index ti_seq ti_value ti_unlock ti_witness carried stripped with_witness].
  repeat split; try tauto; try lia.
Qed.
Lemma reserialise_strips t junk t' : tx_ok t -> Exists is_witness (tx_ins t) -> len (Serialize t ++ junk) <= 2 ^ 48 ->
  Deserialize (Serialize t ++ junk) NewTransaction = Ok t' -> Serialize t' = SerializeNoWitness t /\ SerializeNoWitness t' = SerializeNoWitness t /\ Serialize t' <> Serialize t.
Proof.
  intros T W L D. destruct (bip144_roundtrip t junk T W L) as (t2 & D2 & B & _). rewrite D in D2. injection D2 as <-.
  pose proof W as W'. apply has_witness_iff in W'.
  assert (T' : tx_ok t' /\ HasWitness t' = false).
  { rewrite serialize_witness, W' in * by exact T.
    assert (R : Deserialize (wire_bip144 t ++ junk) NewTransaction = Ok (MkTx (tx_version t) (tx_locktime t) (map carried (tx_ins t)) (tx_outs t) None None None)) by (apply (reads_run dec_bip144); [now apply reads_bip144|exact L]).
    rewrite R in D. injection D as <-. destruct T as (V & K & Mi & Mo & Fi & Fo). split; [|apply carried_code].
    unfold tx_ok, fits_memory. cbn [tx_version tx_locktime tx_ins tx_outs]. rewrite len_map. repeat split; try tauto; try lia; try assumption.
    rewrite Forall_map. apply (Forall_impl _ (P := in_ok)); [|exact Fi]. apply carried_ok. }
  destruct T' as [T' N]. rewrite (serialize_witness t') by exact T'. rewrite N. rewrite !serialize_no_witness by assumption. rewrite (wire_legacy_body t t' B).
  split; [reflexivity|]. split; [reflexivity|]. rewrite serialize_witness, W' by exact T. rewrite <- (wire_legacy_body t t' B). intros E.
  apply (f_equal len) in E. unfold wire_legacy, wire_bip144 in E. rewrite !len_app in E. change (len [0; 1]) with 2 in E. pose proof (len_nonneg (concat (map wire_witness (tx_ins t)))). lia.
Qed.
(** For the format without witness, reading and writing back is the identity. *)
Lemma stripped_ok i : in_ok i -> in_ok (stripped i).
Proof.
  intros H. pose proof (script_sig_mem i H) as S. destruct H as (H1 & H2 & H3 & H4 & H5 & H6 & H7). unfold in_ok. cbn [ti_hash ti_index ti_seq ti_value ti_unlock ti_witness stripped].
  repeat split; try tauto; try lia; try constructor. unfold fits_memory. change (len (@nil bytes)) with 0. lia.
Qed.
Lemma legacy_rewrite t junk t' : tx_ok t -> len (SerializeNoWitness t ++ junk) <= 2 ^ 48 ->
  DeserializeNoWitness (SerializeNoWitness t ++ junk) NewTransaction = Ok t' -> SerializeNoWitness t' = SerializeNoWitness t /\ Serialize t' = SerializeNoWitness t.
Proof.
  intros T L D. destruct (legacy_roundtrip t junk T L) as (t2 & D2 & B). rewrite D in D2. injection D2 as <-.
  assert (T' : tx_ok t' /\ HasWitness t' = false).
  { rewrite serialize_no_witness in * by exact T.
    assert (R : DeserializeNoWitness (wire_legacy t ++ junk) NewTransaction = Ok (MkTx (tx_version t) (tx_locktime t) (map stripped (tx_ins t)) (tx_outs t) None None None)) by (apply (reads_run dec_legacy); [now apply reads_legacy|exact L]).
    rewrite R in D. injection D as <-. destruct T as (V & K & Mi & Mo & Fi & Fo). split.
    - unfold tx_ok, fits_memory. cbn [tx_version tx_locktime tx_ins tx_outs]. rewrite len_map. repeat split; try tauto; try lia; try assumption.
      rewrite Forall_map. apply (Forall_impl _ (P := in_ok)); [|exact Fi]. apply stripped_ok.
    - unfold HasWitness. cbn [tx_ins]. clear. induction (tx_ins t) as [|x l IH]; [reflexivity|exact IH]. }
  destruct T' as [T' N]. rewrite (serialize_witness t') by exact T'. rewrite N, !serialize_no_witness by assumption. now rewrite (wire_legacy_body t t' B).
Qed.

(** ** C33: untrusted bytes. *)
Lemma tame_n Q {A} (rd : BM A) n : suffix_closed Q -> tame Q rd -> tame Q (read_n n rd).
Proof. intros C T. induction n as [|n IH]; cbn [read_n]; [apply tame_ret|]. apply tame_bind; [exact C|exact T|]. intros x. apply tame_bind; [exact C|exact IH|]. intros xs. apply tame_ret. Qed.
Lemma tame_each Q {A B} (rd : A -> BM B) l : suffix_closed Q -> (forall a, tame Q (rd a)) -> tame Q (read_each rd l).
Proof. intros C T. induction l as [|a l IH]; cbn [read_each]; [apply tame_ret|]. apply tame_bind; [exact C|apply T|]. intros x. apply tame_bind; [exact C|exact IH|]. intros xs. apply tame_ret. Qed.
Lemma tame_assert Q c e : tame Q (bassert c e).
Proof. unfold bassert. destruct c; [apply tame_ret|apply tame_fail]. Qed.
Lemma moves_make n k : moves (bmake n k).
Proof. unfold bmake. destruct (make_ok n k); [apply tame_ret|apply moves_panic]. Qed.
Lemma tame_make Q n k : make_ok n k = true -> tame Q (bmake n k).
Proof. intros M. unfold bmake. rewrite M. apply tame_ret. Qed.

Definition LIM : Z := 2 ^ 43.
Notation T := (tame (hostile LIM)).
Ltac tame_step := lazymatch goal with
  | |- tame _ (bbind _ _) => apply tame_bind; [first [apply hostile_suffix|now intros ? ?]| |intros ?]
  | |- tame _ ReadU32 => apply (tame_fixed _ _ _ fixed_ReadU32)
  | |- tame _ ReadU64 => apply (tame_fixed _ _ _ fixed_ReadU64)
  | |- tame _ ReadU8 => apply (tame_fixed _ _ _ fixed_ReadU8)
  | |- tame _ (bret _) => apply tame_ret
  | |- tame _ (bassert _ _) => apply tame_assert
  | |- tame _ (ReadBytes _) => apply tame_bytes; lia
  | |- tame (hostile _) ReadVarBytes => apply tame_varbytes; unfold LIM; lia
  end.
Lemma tame_in : T read_in. Proof. unfold read_in. repeat tame_step. Qed.
Lemma tame_out : T read_out. Proof. unfold read_out. repeat tame_step. Qed.
Lemma tame_item : T read_item. Proof. unfold read_item. repeat tame_step. Qed.
Lemma tame_witness i : T (read_witness i).
Proof.
  unfold read_witness. apply tame_count; [unfold LIM; lia| |].
  - intros v Hv. unfold LIM in Hv. apply tame_bind; [apply hostile_suffix|apply tame_make; unfold make_ok; lia|]. intros _. apply tame_bind; [apply hostile_suffix|apply tame_n; [apply hostile_suffix|apply tame_item]|]. intros ws. apply tame_ret.
  - intros v _. apply moves_bind; [apply moves_make|]. intros _. apply moves_bind; [apply tame_n; [now intros ? ?|apply (tame_moves _ _ tame_item)]|]. intros ws. apply tame_ret.
Qed.
Lemma tame_ins old : T (read_ins old).
Proof.
  unfold read_ins. apply tame_count; [unfold LIM; lia| |].
  - intros v Hv. unfold LIM in Hv. destruct (0 <? v); [|apply tame_ret]. apply tame_bind; [apply hostile_suffix|apply tame_make; unfold make_ok; lia|]. intros _. apply tame_n; [apply hostile_suffix|apply tame_in].
  - intros v _. destruct (0 <? v); [|apply tame_ret]. apply moves_bind; [apply moves_make|]. intros _. apply tame_n; [now intros ? ?|apply (tame_moves _ _ tame_in)].
Qed.
Lemma tame_outs old : T (read_outs old).
Proof.
  unfold read_outs. apply tame_count; [unfold LIM; lia| |].
  - intros v Hv. unfold LIM in Hv. destruct (0 <? v); [|apply tame_ret]. apply tame_bind; [apply hostile_suffix|apply tame_make; unfold make_ok; lia|]. intros _. apply tame_n; [apply hostile_suffix|apply tame_out].
  - intros v _. destruct (0 <? v); [|apply tame_ret]. apply moves_bind; [apply moves_make|]. intros _. apply tame_n; [now intros ? ?|apply (tame_moves _ _ tame_out)].
Qed.
Lemma tame_run {A} Q (rd : BM A) d : tame Q rd -> bytes_ok d -> len d <= 2 ^ 48 -> fst (rd (NewBufferReader d)) = Panic -> Q d.
Proof. intros Tm O L. rewrite NewBufferReader_rbuf. destruct (Tm [] d L O) as (r & e & t & _ & -> & P). exact P. Qed.
Lemma deserialize_panics d t : bytes_ok d -> len d <= 2 ^ 48 -> Deserialize d t = Panic -> hostile (2 ^ 43) d.
Proof.
  intros O L. unfold Deserialize. apply tame_run; [|exact O|exact L]. change (2 ^ 43) with LIM.
  repeat first [tame_step|apply tame_ins|apply tame_outs|apply (tame_each _ read_witness _ (hostile_suffix _) tame_witness)].
Qed.
Lemma deserialize_nw_panics d t : bytes_ok d -> len d <= 2 ^ 48 -> DeserializeNoWitness d t = Panic -> hostile (2 ^ 43) d.
Proof.
  intros O L. unfold DeserializeNoWitness. apply tame_run; [|exact O|exact L]. change (2 ^ 43) with LIM.
  repeat first [tame_step|apply tame_ins|apply tame_outs].
Qed.
