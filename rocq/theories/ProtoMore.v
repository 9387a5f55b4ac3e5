(** Message limits, hostile peers, and streams written by many. *)
From Verif Require Import GoBase BaseLemmas BufferModel BufferSpec BufferProofs BufferMore Codec TxModel TxProofs ProtoModel ProtoSpec ProtoProofs ProtoStream ProtoConc.

(** ** Limits. *)
(** The list after a sequence of Add calls; one that fails leaves it as it was. *)
Definition adds {A} (add : list A -> list A -> res (list A)) (calls : list (list A)) : list A :=
  fold_left (fun l c => match add c l with Ok l' => l' | _ => l end) calls [].
Lemma adds_bound {A} (add : list A -> list A -> res (list A)) (P : list A -> Prop) (Q : list A -> Prop) : P [] -> (forall c l l', Q c -> P l -> add c l = Ok l' -> P l') ->
  forall calls, Forall Q calls -> P (adds add calls).
Proof.
  intros P0 H. unfold adds. assert (G : forall calls l, P l -> Forall Q calls -> P (fold_left (fun l c => match add c l with Ok l' => l' | _ => l end) calls l)); [|intros; apply G; assumption].
  induction calls as [|c r IH]; intros l Hl F; cbn [fold_left]; [exact Hl|]. inversion F; subst. apply IH; [|assumption]. destruct (add c l) eqn:E; eauto.
Qed.
Lemma getdata_limit calls : len (adds GetData_AddInvVect calls) <= 50000.
Proof.
  apply (adds_bound GetData_AddInvVect (fun l => len l <= 50000) (fun _ => True)); [rewrite len_nil; lia| |apply Forall_forall; auto].
  intros c l l' _ H. unfold GetData_AddInvVect, MaxInvPerMsg. destruct (50000 <? len l + len c) eqn:E; [discriminate|]. intros X. injection X as <-. rewrite len_app. lia.
Qed.
Lemma inv_limit k calls : 1 <= k -> Forall (fun c => len c <= k) calls -> len (adds Inv_AddInvVect calls) <= 49999 + k.
Proof.
  intros K. apply (adds_bound Inv_AddInvVect (fun l => len l <= 49999 + k) (fun c => len c <= k)); [rewrite len_nil; lia|].
  intros c l l' Hc H. unfold Inv_AddInvVect, MaxInvPerMsg. destruct (50000 <? len l + 1) eqn:E; [discriminate|]. intros X. injection X as <-. rewrite len_app. lia.
Qed.
Lemma headers_limit k calls : 1 <= k -> Forall (fun c => len c <= k) calls -> len (adds AddBlockHeader calls) <= 1999 + k.
Proof.
  intros K. apply (adds_bound AddBlockHeader (fun l => len l <= 1999 + k) (fun c => len c <= k)); [rewrite len_nil; lia|].
  intros c l l' Hc H. unfold AddBlockHeader, MaxBlockHeadersPerMsg. destruct (2000 <? len l + 1) eqn:E; [discriminate|]. intros X. injection X as <-. rewrite len_app. lia.
Qed.
Lemma inv_any c : adds Inv_AddInvVect [c] = c. Proof. reflexivity. Qed.
Lemma headers_any c : adds AddBlockHeader [c] = c. Proof. reflexivity. Qed.
Lemma read_n_length {A} (rd : BM A) n b l b' : read_n n rd b = (Ok l, b') -> length l = n.
Proof.
  revert b l b'. induction n as [|n IH]; intros b l b' E; cbn [read_n] in E; [injection E as <- _; reflexivity|]. unfold bbind in E. destruct (rd b) as [[x| |] b1]; try discriminate.
  destruct (read_n n rd b1) as [[xs| |] b2] eqn:R; try discriminate. injection E as <- _. cbn [length]. f_equal. eapply IH, R.
Qed.
Lemma read_invs_limit l0 d l : bytes_ok d -> len d <= 2 ^ 48 -> run (read_invs l0) d = Ok l -> len l <= len l0 + 50000.
Proof.
  intros O L. unfold run, read_invs, bbind. rewrite NewBufferReader_rbuf. destruct (ReadVarInt_any [] d L O) as [(e & t & v & _ & _ & V & ->)|(e & t & _ & ->)]; [|discriminate].
  unfold MaxInvPerMsg. destruct (50000 <? v) eqn:E; [discriminate|]. destruct (read_n (Z.to_nat (i64 v)) read_inv (rbuf ([] ++ e) t)) as [[r| |] b2] eqn:R2; try discriminate.
  intros X. cbn in X. injection X as <-. apply read_n_length in R2. rewrite len_app. unfold len at 2. rewrite R2, i64_id by lia. lia.
Qed.
Lemma decode_limit d l : bytes_ok d -> len d <= 2 ^ 48 -> Decode (Inv []) d = Ok (Inv l) \/ Decode (GetData []) d = Ok (GetData l) -> len l <= 50000.
Proof.
  intros O L. cbn [Decode]. destruct (run (read_invs []) d) as [r| |] eqn:E; intros [X|X]; try discriminate; cbn in X; assert (r = l) by congruence; subst r;
    apply (read_invs_limit [] d l O L) in E; rewrite len_nil in E; lia.
Qed.
Definition zero_header : BlockHeader := MkHeader 0 (repeat 0 32) (repeat 0 32) 0 0 0.
Lemma zero_header_ok : header_ok zero_header. Proof. unfold header_ok, fits_in, hash_ok. cbn. lia. Qed.
Lemma zero_headers_len n : len (concat (map (fun h => header_layout h ++ [0]) (repeat zero_header n))) = 81 * Z.of_nat n.
Proof. induction n as [|n IH]; [reflexivity|]. cbn [repeat map concat]. rewrite len_app, IH. change (len (header_layout zero_header ++ [0])) with 81. lia. Qed.
Lemma decode_headers_any n : Z.of_nat n <= 2 ^ 40 -> Decode (Headers []) (Encode (Headers (repeat zero_header n))) = Ok (Headers (repeat zero_header n)).
Proof.
  intros N. assert (L : len (repeat zero_header n) = Z.of_nat n) by (unfold len; now rewrite repeat_length). apply (message_roundtrip (Headers (repeat zero_header n))).
  - apply Forall_forall. intros h I. apply repeat_spec in I. subst. exact zero_header_ok.
  - cbn [in_memory]. lia.
  - rewrite encode_layout by (cbn [in_memory]; lia). cbn [with_locator layout]. rewrite len_app, zero_headers_len, L, compact_is, varint_len by lia. unfold VarIntSerializeSize. repeat match goal with |- context[if ?c then _ else _] => destruct c end; lia.
Qed.

(** ** A hostile peer. *)
Lemma tame_rbytes Q n : suffix_closed Q -> 0 <= n < 2 ^ 62 -> tame Q (read_bytes n).
Proof. intros C H. unfold read_bytes. apply tame_bind; [exact C|now apply tame_bytes|]. intros x. apply tame_ret. Qed.
Lemma tame_varstring lim : 2 ^ 32 <= lim < 2 ^ 62 -> tame (hostile lim) ReadVarString.
Proof. intros H. unfold ReadVarString. apply tame_bind; [apply hostile_suffix|now apply tame_varbytes|]. intros x. apply tame_ret. Qed.
Definition never (_ : bytes) : Prop := False.
Lemma never_closed : suffix_closed never. Proof. intros e t []. Qed.
Ltac tame_step C := first [apply tame_ret | apply tame_fail | eapply tame_fixed; first [apply fixed_ReadU8|apply fixed_ReadU16|apply fixed_ReadU32|apply fixed_ReadU64] | apply tame_varint | apply tame_rbytes; [exact C|lia] | apply tame_varstring; lia
  | apply tame_n; [exact C|] | apply tame_bind; [exact C| |intros ?]].
Lemma tame_version : tame (hostile (2 ^ 48)) read_version.
Proof. unfold read_version. repeat tame_step (hostile_suffix (2 ^ 48)). Qed.
Lemma tame_reject r : tame (hostile (2 ^ 48)) (read_reject r).
Proof. unfold read_reject. repeat tame_step (hostile_suffix (2 ^ 48)). destruct (has_hash x); repeat tame_step (hostile_suffix (2 ^ 48)). Qed.
Lemma tame_invs l : tame never (read_invs l).
Proof. unfold read_invs, read_inv. repeat tame_step never_closed. destruct (MaxInvPerMsg <? x); repeat tame_step never_closed. Qed.
Lemma tame_headers l : tame never (read_headers l).
Proof. unfold read_headers, read_header. repeat tame_step never_closed. Qed.
Lemma tame_getheaders g : tame never (read_getheaders g).
Proof. unfold read_getheaders. repeat tame_step never_closed. Qed.
Lemma run_tame Q {A} (rd : BM A) d : tame Q rd -> bytes_ok d -> len d <= 2 ^ 48 -> run rd d = Panic -> Q d.
Proof.
  intros T O L. unfold run. rewrite NewBufferReader_rbuf. destruct (T [] d L O) as (r & e & t & _ & R & P). rewrite R. cbn [fst]. exact P.
Qed.
Lemma decode_panics c d : bytes_ok d -> len d <= 2 ^ 48 -> Decode (makeEmptyMessage c) d = Panic -> (c = str_bytes "version" \/ c = str_bytes "reject") /\ hostile (2 ^ 48) d.
Proof.
  intros O L. unfold makeEmptyMessage.
  destruct (list_Z_eqb c CommandVersion) eqn:E1.
  { apply zlist_eqb in E1. cbn [Decode]. destruct (run read_version d) eqn:R; try discriminate. intros _. split; [now left|]. exact (run_tame _ _ d tame_version O L R). }
  destruct (list_Z_eqb c CommandVersionAck) eqn:E2; [discriminate|].
  destruct (list_Z_eqb c CommandInventory) eqn:E3. { cbn [Decode]. destruct (run (read_invs []) d) eqn:R; try discriminate. intros _. destruct (run_tame _ _ d (tame_invs []) O L R). }
  destruct (list_Z_eqb c CommandGetData) eqn:E4. { cbn [Decode]. destruct (run (read_invs []) d) eqn:R; try discriminate. intros _. destruct (run_tame _ _ d (tame_invs []) O L R). }
  destruct (list_Z_eqb c CommandGetHeaders) eqn:E5. { cbn [Decode]. destruct (run (read_getheaders empty_getheaders) d) eqn:R; try discriminate. intros _. destruct (run_tame _ _ d (tame_getheaders _) O L R). }
  destruct (list_Z_eqb c CommandTx) eqn:E6; [discriminate|].
  destruct (list_Z_eqb c CommandHeaders) eqn:E7. { cbn [Decode]. destruct (run (read_headers []) d) eqn:R; try discriminate. intros _. destruct (run_tame _ _ d (tame_headers []) O L R). }
  destruct (list_Z_eqb c CommandReject) eqn:E8; [|discriminate].
  apply zlist_eqb in E8. cbn [Decode]. destruct (run (read_reject empty_reject) d) eqn:R; try discriminate. intros _. split; [now right|]. exact (run_tame _ _ d (tame_reject _) O L R).
Qed.
Lemma read_panics sha256 r r' : reader_wf r -> bytes_ok (content r) -> ReadMessage sha256 r = (Panic, r') ->
  exists magic command size check data, content r = frame_bytes magic command size check data ++ content r' /\ length magic = 4%nat /\ length command = 12%nat /\ length size = 4%nat /\ length check = 4%nat /\ le_value size = len data /\
    (TrimRight0 command = str_bytes "version" \/ TrimRight0 command = str_bytes "reject") /\ hostile (2 ^ 48) data.
Proof.
  intros W O E. destruct (read_cases sha256 r W O) as [(r1 & E1)|(magic & command & size & check & data & rest & C & Hm & Hc & Hs & Hk & Hd)]; [congruence|].
  destruct (read_frame sha256 r magic command size check data rest W C Hm Hc Hs Hk Hd) as (r1 & W1 & C1 & E1). rewrite E in E1. destruct (list_Z_eqb check (checksum sha256 data)) eqn:K; [|discriminate].
  injection E1 as E1 ->. unfold frame_bytes in C. rewrite C in O. rewrite <- !app_assoc in O. rewrite !bytes_ok_app in O. destruct O as (_ & _ & O3 & _ & O5 & _).
  pose proof (le_value_range size O3) as B. unfold len in B. rewrite Hs in B. change (256 ^ Z.of_nat 4) with (2 ^ 32) in B. symmetry in E1. destruct (decode_panics _ data O5 ltac:(lia) E1) as [P1 P2].
  exists magic, command, size, check, data. rewrite C1. split; [exact C|]. auto 10.
Qed.
(** The reject message that does it. *)
Definition bomb : bytes := 255 :: le 8 (2 ^ 63).
Lemma bomb_panics sha256 magic : (forall b, (4 <= length (sha256 b))%nat) -> length magic = 4%nat ->
  exists r', ReadMessage sha256 (MkReader [] [frame_bytes magic (command_field (str_bytes "reject")) (le 4 9) (firstn 4 (sha256 (sha256 bomb))) bomb]) = (Panic, r').
Proof.
  intros H M. set (r := MkReader [] _).
  assert (C : content r = frame_bytes magic (command_field (str_bytes "reject")) (le 4 9) (firstn 4 (sha256 (sha256 bomb))) bomb ++ []) by reflexivity.
  assert (W : reader_wf r). { constructor; [|constructor]. unfold frame_bytes. destruct magic; [discriminate M|discriminate]. }
  destruct (read_frame sha256 r _ _ _ _ _ [] W C M eq_refl eq_refl) as (r' & _ & _ & E); [rewrite firstn_length; specialize (H (sha256 bomb)); lia|reflexivity|].
  exists r'. rewrite E. unfold checksum. rewrite (proj2 (zlist_eqb _ _) eq_refl). reflexivity.
Qed.

(** ** The receiver of what many goroutines send. *)
Lemma sequence_prefix sha256 magic : (forall b, (4 <= length (sha256 b))%nat) -> length magic = 4%nat -> forall ms r rest, Forall sendable ms -> reader_wf r -> content r = concat (map (Frame sha256 magic) ms) ++ rest ->
  ReadLoop sha256 (length ms) r = (map arrives ms, Ok tt).
Proof.
  intros H M. induction ms as [|m ms IH]; intros r rest S W C; cbn [length map concat ReadLoop] in *; [reflexivity|].
  inversion S as [|? ? S1 S2]; subst. rewrite <- app_assoc in C. destruct (read_one sha256 H magic M r m _ W S1 C) as (r' & W' & C' & E). rewrite E, (IH r' rest S2 W' C'). reflexivity.
Qed.
Lemma sent_begun tr s : exec start tr s -> Forall (begun tr) (sent tr).
Proof.
  assert (G : forall pre s0, locked s0 -> wired pre s0 -> exec s0 tr s -> Forall (begun (pre ++ tr)) (sent tr)).
  { intros pre s0 L W R. revert pre L W. induction R as [s|s e s' tr s'' S R IH]; intros pre L W; [constructor|].
    assert (IH' : Forall (begun (pre ++ e :: tr)) (sent tr)). { replace (pre ++ e :: tr) with ((pre ++ [e]) ++ tr) by now rewrite <- app_assoc. apply IH; [eapply locked_step; eauto|eapply wired_step; eauto]. }
    destruct e as [| | |t f [|]| | | |]; cbn [sent]; try exact IH'. constructor; [|exact IH'].
    assert (B : begun pre f). { destruct W as (_ & B & _). inversion S; subst; cbn [threads] in *; eauto. }
    destruct B as [u I]. exists u. apply in_or_app. now left. }
  intros R. exact (G [] start (proj1 start_ok) (proj2 start_ok) R).
Qed.
Lemma delivered sha256 magic : (forall b, (4 <= length (sha256 b))%nat) -> length magic = 4%nat -> forall tr s r,
  exec start tr s -> (forall t f, In (Call t f) tr -> exists m, sendable m /\ f = Frame sha256 magic m) -> reader_wf r -> content r = wire s ->
  exists ms, Forall sendable ms /\ sent tr = map (Frame sha256 magic) ms /\ ReadLoop sha256 (length ms) r = (map arrives ms, Ok tt).
Proof.
  intros H M tr s r R C W E. destruct (frames_contiguous tr s R) as (p & q & Wr & _). pose proof (sent_begun tr s R) as B.
  assert (X : exists ms, Forall sendable ms /\ sent tr = map (Frame sha256 magic) ms).
  { clear -B C. induction B as [|f l [t I] B IH]; [exists []; split; [constructor|reflexivity]|]. destruct IH as (ms & S & ->). destruct (C t f I) as (m & Sm & ->). exists (m :: ms). split; [now constructor|reflexivity]. }
  destruct X as (ms & S & X). exists ms. split; [exact S|]. split; [exact X|]. apply (sequence_prefix sha256 magic H M ms r p S W). now rewrite E, Wr, X.
Qed.

(** The stream as Bitcoin frames it. *)
Lemma frame_is sha256 magic m : sendable m -> Frame sha256 magic m = frame_layout sha256 magic m.
Proof.
  intros S. pose proof (own_commands m S) as [Lc _]. destruct S as (O & L & _). pose proof (memory m O ltac:(lia)) as Mm. unfold Frame, frame_layout, checksum, command_field. rewrite (encode_layout m Mm) in *.
  rewrite firstn_all2 by lia. unfold Bytes. rewrite data_U32, le_is. cbn [bdata NewBuffer app]. pose proof (len_nonneg (layout port_le (with_locator m))). unfold u32. rewrite Z.mod_small by lia. now rewrite <- app_assoc.
Qed.
