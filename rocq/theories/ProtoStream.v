(** Framing: what ReadMessage makes of a stream. *)
From Verif Require Import GoBase BaseLemmas BufferModel BufferSpec BufferProofs BufferMore Codec TxModel TxProofs ProtoModel ProtoSpec ProtoProofs.

(** ** A message that was encoded is in memory. *)
Lemma grow_fold {A} (w : buffer -> A -> buffer) k l : (forall b x, len (bdata b) + k <= len (bdata (w b x))) -> 0 <= k -> forall b, len (bdata b) + k * len l <= len (bdata (fold_left w l b)).
Proof. intros H K. induction l as [|x l IH]; intros b; cbn [fold_left]; [rewrite len_nil; lia|]. rewrite len_cons. specialize (H b x). specialize (IH (w b x)). lia. Qed.
Lemma grow_varint v b : len (bdata b) <= len (bdata (WriteVarInt v b)).
Proof. pose proof (write_value_grow (VVarInt v) b) as H. cbn [payload write_value] in H. lia. Qed.
Lemma grow_varstring v b : len (bdata b) + len v <= len (bdata (WriteVarString v b)).
Proof. exact (write_value_grow (VVarString v) b). Qed.
Lemma memory m : msg_ok m -> len (Encode m) <= 2 ^ 48 -> in_memory m.
Proof.
  destruct m; cbn [msg_ok in_memory Encode]; try (intros; exact I); unfold Bytes.
  - intros _. unfold write_version. rewrite data_U8, data_U32, !len_app. match goal with |- context[WriteVarString ?a ?b] => pose proof (grow_varstring a b) as G; pose proof (len_nonneg (bdata b)) end.
    pose proof (len_nonneg (le_bytes 4 (mv_last v))). change (len [mv_relay v]) with 1. lia.
  - intros [_ H] _. lia.
  - intros [_ H] _. lia.
  - intros (_ & H & _). unfold write_getheaders. rewrite data_bytes, len_app. intros L.
    assert (G : len (gh_locators g) <= len (gh_locators (settle_gh g)) /\ Forall hash_ok (gh_locators (settle_gh g))).
    { unfold settle_gh. destruct (len (gh_locators g) =? 0); [|split; [lia|exact H]]. unfold AddBlockLocatorHash. cbn [gh_locators]. rewrite len_app. split; [pose proof (len_nonneg [repeat 0 32]); lia|]. apply Forall_app. split; [exact H|]. constructor; [reflexivity|constructor]. }
    destruct G as [G1 G2]. set (l := gh_locators (settle_gh g)) in *. clearbody l.
    rewrite (data_fold _ (fun x : bytes => x)) in L by (apply Forall_forall; intros; apply data_bytes). rewrite map_id, len_app in L.
    assert (len l <= len (concat l)). { clear -G2. induction G2 as [|x l Hx F IH]; cbn [concat]; [discriminate|]. rewrite len_cons, len_app. apply len_of in Hx. lia. }
    pose proof (len_nonneg (gh_stop (settle_gh g))). match type of L with len ?b + _ + _ <= _ => pose proof (len_nonneg b) end. lia.
  - intros _ L. pose proof (grow_fold write_header 1 l) as G. assert (G' : forall b x, len (bdata b) + 1 <= len (bdata (write_header b x))).
    { intros b x. rewrite write_header_data, !len_app. change (len [0]) with 1. pose proof (len_nonneg (header_layout x)). lia. }
    specialize (G G' ltac:(lia) (WriteVarInt (u64 (len l)) NewBuffer)). pose proof (len_nonneg (bdata (WriteVarInt (u64 (len l)) NewBuffer))). lia.
  - intros _. unfold write_reject. intros L.
    assert (len (bdata (WriteVarString (rj_reason r) (WriteU8 (rj_code r) (WriteVarString (rj_cmd r) NewBuffer)))) <= 2 ^ 48).
    { destruct (has_hash (rj_cmd r)); [|exact L]. rewrite data_bytes, len_app in L. pose proof (len_nonneg (rj_hash r)). lia. }
    pose proof (grow_varstring (rj_reason r) (WriteU8 (rj_code r) (WriteVarString (rj_cmd r) NewBuffer))) as G. rewrite data_U8, len_app in G. change (len [rj_code r]) with 1 in G.
    pose proof (grow_varstring (rj_cmd r) NewBuffer) as G2. change (len (bdata NewBuffer)) with 0 in G2. pose proof (len_nonneg (rj_cmd r)). pose proof (len_nonneg (rj_reason r)). lia.
Qed.

(** ** Reading from the network. *)
Lemma content_nil c : content (MkReader [] c) = concat c. Proof. reflexivity. Qed.
Lemma take_drop (l : bytes) n : firstn n l ++ skipn n l = l. Proof. apply firstn_skipn. Qed.
Lemma conn_read_spec n conn : 0 < n -> Forall (fun c => c <> []) conn ->
  match conn_read n conn with
  | None => conn = []
  | Some (d, c) => d <> [] /\ len d <= n /\ concat conn = d ++ concat c /\ Forall (fun c => c <> []) c
  end.
Proof.
  intros N F. destruct conn as [|c r]; cbn [conn_read]; [reflexivity|]. inversion F as [|? ? Hc Fr]; subst. destruct (len c <=? n) eqn:E; [split; [exact Hc|]; split; [lia|]; split; [reflexivity|exact Fr]|].
  assert (L : (Z.to_nat n < length c)%nat) by (unfold len in E; lia). assert (P : length (firstn (Z.to_nat n) c) = Z.to_nat n) by (rewrite firstn_length; lia).
  split; [intros X; rewrite X in P; cbn in P; lia|]. split; [unfold len; lia|]. split; [cbn [concat]; now rewrite app_assoc, take_drop|]. constructor; [|exact Fr].
  intros X. assert (length (skipn (Z.to_nat n) c) = 0)%nat by now rewrite X. rewrite skipn_length in *. lia.
Qed.
Lemma firstn_ne (l : bytes) n : l <> [] -> 0 < n -> firstn (Z.to_nat n) l <> []. Proof. intros H N. destruct l as [|x l]; [congruence|]. destruct (Z.to_nat n) eqn:E; [lia|]. discriminate. Qed.
Lemma firstn_le (l : bytes) n : 0 <= n -> len (firstn (Z.to_nat n) l) <= n. Proof. intros N. unfold len. rewrite firstn_length. lia. Qed.
Lemma bufio_read_spec n r : 0 < n -> reader_wf r ->
  match bufio_read n r with
  | None => content r = []
  | Some (d, r') => d <> [] /\ len d <= n /\ content r = d ++ content r' /\ reader_wf r'
  end.
Proof.
  intros N W. destruct r as [b c]. unfold bufio_read, reader_wf, content in *. cbn [r_buf r_conn] in *. destruct b as [|x b].
  - destruct (bufferSize <=? n) eqn:E.
    + pose proof (conn_read_spec n c N W) as H. destruct (conn_read n c) as [[d c']|]; [|now subst]. cbn [r_buf r_conn app]. exact H.
    + pose proof (conn_read_spec bufferSize c eq_refl W) as H. destruct (conn_read bufferSize c) as [[d c']|]; [|now subst]. destruct H as (H1 & H2 & H3 & H4). cbn [r_buf r_conn app].
      split; [now apply firstn_ne|]. split; [apply firstn_le; lia|]. split; [now rewrite H3, app_assoc, take_drop|exact H4].
  - cbn [r_buf r_conn]. split; [now apply firstn_ne|]. split; [apply firstn_le; lia|]. split; [now rewrite app_assoc, take_drop|exact W].
Qed.
Lemma read_full_spec fuel : forall n r, 0 <= n <= Z.of_nat fuel -> reader_wf r ->
  exists r', reader_wf r' /\
  (n <= len (content r) /\ read_full fuel n r = (Ok (firstn (Z.to_nat n) (content r)), r') /\ content r' = skipn (Z.to_nat n) (content r) \/
   len (content r) < n /\ read_full fuel n r = (Err "unexpected EOF", r')).
Proof.
  induction fuel as [|f IH]; intros n r N W.
  - exists r. split; [exact W|]. left. replace n with 0 by lia. split; [apply len_nonneg|]. split; reflexivity.
  - cbn [read_full]. destruct (n <=? 0) eqn:E; [exists r; split; [exact W|]; left; replace n with 0 by lia; split; [apply len_nonneg|]; split; reflexivity|].
    pose proof (bufio_read_spec n r ltac:(lia) W) as B. destruct (bufio_read n r) as [[d r1]|]; [|exists r; split; [exact W|]; right; rewrite B; split; [rewrite len_nil; lia|reflexivity]].
    destruct B as (D & Dn & C & W1). assert (D1 : 1 <= len d) by (destruct d; [congruence|rewrite len_cons; pose proof (len_nonneg d); lia]).
    destruct (IH (n - len d) r1 ltac:(lia) W1) as (r2 & W2 & [(L & R & C2)|(L & R)]); exists r2; (split; [exact W2|]); rewrite R, C, len_app.
    + left. split; [lia|]. assert (Q : Z.to_nat n = (length d + Z.to_nat (n - len d))%nat) by (unfold len in *; lia). rewrite Q, firstn_app_2. split; [reflexivity|]. rewrite skipn_app, skipn_all2 by lia. cbn [app]. rewrite C2. f_equal. lia.
    + right. split; [lia|reflexivity].
Qed.
Lemma ReadFull_ok n r d t : reader_wf r -> content r = d ++ t -> len d = n -> exists r', reader_wf r' /\ content r' = t /\ ReadFull n r = (Ok d, r').
Proof.
  intros W C L. pose proof (len_nonneg d). destruct (read_full_spec (Z.to_nat n) n r ltac:(lia) W) as (r' & W' & [(_ & R & C')|(X & _)]).
  - exists r'. split; [exact W'|]. assert (Q : Z.to_nat n = length d) by (unfold len in L; lia). unfold ReadFull. rewrite R, C', C, Q. rewrite skipn_app, firstn_app, firstn_all, skipn_all, Nat.sub_diag. cbn [firstn skipn app]. now rewrite app_nil_r.
  - rewrite C, len_app in X. pose proof (len_nonneg t). lia.
Qed.
Lemma ReadFull_cases n r : 0 <= n -> reader_wf r ->
  (exists d t r', content r = d ++ t /\ len d = n /\ reader_wf r' /\ content r' = t /\ ReadFull n r = (Ok d, r')) \/
  (len (content r) < n /\ exists r', ReadFull n r = (Err "unexpected EOF", r')).
Proof.
  intros N W. destruct (read_full_spec (Z.to_nat n) n r ltac:(lia) W) as (r' & W' & [(L & R & C')|(L & R)]).
  - left. exists (firstn (Z.to_nat n) (content r)), (skipn (Z.to_nat n) (content r)), r'. split; [symmetry; apply take_drop|]. split; [unfold len in *; rewrite firstn_length; lia|]. auto.
  - right. split; [exact L|]. now exists r'.
Qed.

Lemma le32_is d : le32 d = le_value d. Proof. induction d as [|x d IH]; cbn [le32 fold_right le_value]; [reflexivity|]. unfold le32 in IH. now rewrite IH. Qed.

Section S.
Variable sha256 : bytes -> bytes.
Notation checksum := (checksum sha256). Notation ReadMessage := (ReadMessage sha256).
(** A frame in the stream, of any shape. *)
Definition frame_bytes (magic command size check data : bytes) : bytes := magic ++ command ++ size ++ check ++ data.
Lemma read_frame r magic command size check data rest : reader_wf r -> content r = frame_bytes magic command size check data ++ rest ->
  length magic = 4%nat -> length command = 12%nat -> length size = 4%nat -> length check = 4%nat -> le_value size = len data ->
  exists r', reader_wf r' /\ content r' = rest /\
    ReadMessage r = (if list_Z_eqb check (checksum data) then Decode (makeEmptyMessage (TrimRight0 command)) data else Err "stream.read.payload.checksum.mismatch", r').
Proof.
  intros W C Hm Hc Hs Hk Hd. unfold frame_bytes in C. rewrite <- !app_assoc in C. unfold ReadMessage.
  destruct (ReadFull_ok 4 r magic _ W C (len_of _ _ Hm)) as (r1 & W1 & C1 & ->).
  destruct (ReadFull_ok 12 r1 command _ W1 C1 (len_of _ _ Hc)) as (r2 & W2 & C2 & ->).
  destruct (ReadFull_ok 4 r2 size _ W2 C2 (len_of _ _ Hs)) as (r3 & W3 & C3 & ->).
  destruct (ReadFull_ok 4 r3 check _ W3 C3 (len_of _ _ Hk)) as (r4 & W4 & C4 & ->).
  rewrite le32_is, Hd. destruct (ReadFull_ok (len data) r4 data rest W4 C4 eq_refl) as (r5 & W5 & C5 & ->).
  exists r5. split; [exact W5|]. split; [exact C5|]. destruct (list_Z_eqb check (checksum data)); reflexivity.
Qed.
(** A stream either begins with a frame or ends too soon. *)
Lemma read_cases r : reader_wf r -> bytes_ok (content r) ->
  (exists r', ReadMessage r = (Err "unexpected EOF", r')) \/
  (exists magic command size check data rest, content r = frame_bytes magic command size check data ++ rest /\
     length magic = 4%nat /\ length command = 12%nat /\ length size = 4%nat /\ length check = 4%nat /\ le_value size = len data).
Proof.
  intros W O. unfold ReadMessage.
  destruct (ReadFull_cases 4 r ltac:(lia) W) as [(d1 & t1 & r1 & E1 & L1 & W1 & C1 & ->)|(_ & r1 & ->)]; [|left; now exists r1].
  destruct (ReadFull_cases 12 r1 ltac:(lia) W1) as [(d2 & t2 & r2 & E2 & L2 & W2 & C2 & ->)|(_ & r2 & ->)]; [|left; now exists r2].
  destruct (ReadFull_cases 4 r2 ltac:(lia) W2) as [(d3 & t3 & r3 & E3 & L3 & W3 & C3 & ->)|(_ & r3 & ->)]; [|left; now exists r3].
  destruct (ReadFull_cases 4 r3 ltac:(lia) W3) as [(d4 & t4 & r4 & E4 & L4 & W4 & C4 & ->)|(_ & r4 & ->)]; [|left; now exists r4].
  rewrite C1 in E2. rewrite C2 in E3. rewrite C3 in E4. rewrite E2, E3, E4 in E1. rewrite E1 in O.
  assert (O3 : bytes_ok d3) by (rewrite !bytes_ok_app in O; tauto). pose proof (le_value_range d3 O3) as P. rewrite le32_is.
  destruct (ReadFull_cases (le_value d3) r4 ltac:(lia) W4) as [(d5 & t5 & r5 & E5 & L5 & W5 & C5 & ->)|(_ & r5 & ->)]; [|left; now exists r5].
  rewrite C4 in E5. rewrite E5 in E1. right. exists d1, d2, d3, d4, d5, t5. split; [rewrite E1; unfold frame_bytes; now rewrite <- !app_assoc|].
  repeat split; try (apply Nat2Z.inj; assumption). congruence.
Qed.
(** Every message read had a matching checksum, and is what its payload decodes to. *)
Lemma read_sound r m r' : reader_wf r -> bytes_ok (content r) -> ReadMessage r = (Ok m, r') ->
  exists magic command size check data, content r = frame_bytes magic command size check data ++ content r' /\
     length magic = 4%nat /\ length command = 12%nat /\ length size = 4%nat /\ le_value size = len data /\ check = firstn 4 (sha256 (sha256 data)) /\
     Decode (makeEmptyMessage (TrimRight0 command)) data = Ok m.
Proof.
  intros W O E. destruct (read_cases r W O) as [(r1 & E1)|(magic & command & size & check & data & rest & C & Hm & Hc & Hs & Hk & Hd)]; [congruence|].
  destruct (read_frame r magic command size check data rest W C Hm Hc Hs Hk Hd) as (r1 & W1 & C1 & E1). rewrite E in E1. destruct (list_Z_eqb check (checksum data)) eqn:K; [|discriminate].
  injection E1 as E1 ->. exists magic, command, size, check, data. rewrite C1. apply zlist_eqb in K. repeat (split; [first [assumption|now symmetry]|]). now symmetry.
Qed.
Lemma bad_checksum r magic command size check data rest : reader_wf r -> content r = frame_bytes magic command size check data ++ rest ->
  length magic = 4%nat -> length command = 12%nat -> length size = 4%nat -> length check = 4%nat -> le_value size = len data ->
  check <> firstn 4 (sha256 (sha256 data)) -> exists r', ReadMessage r = (Err "stream.read.payload.checksum.mismatch", r').
Proof.
  intros W C Hm Hc Hs Hk Hd N. destruct (read_frame r magic command size check data rest W C Hm Hc Hs Hk Hd) as (r1 & _ & _ & E1). exists r1. rewrite E1.
  destruct (list_Z_eqb check (checksum data)) eqn:K; [|reflexivity]. apply zlist_eqb in K. contradiction.
Qed.
End S.

(** ** Commands. *)
Lemma drop_zeros_app n l : drop_zeros (repeat 0 n ++ l) = drop_zeros l. Proof. induction n as [|n IH]; cbn [repeat app drop_zeros]; [reflexivity|exact IH]. Qed.
Lemma rev_repeat (n : nat) : rev (repeat 0 n) = repeat 0 n.
Proof. induction n as [|n IH]; [reflexivity|]. cbn [repeat rev]. rewrite IH. clear IH. induction n as [|n IH]; [reflexivity|]. cbn [repeat app]. now rewrite IH. Qed.
Lemma trim_field c : wire_command c -> TrimRight0 (command_field c) = c.
Proof.
  intros [L N]. unfold TrimRight0, command_field. rewrite firstn_all2 by lia. rewrite rev_app_distr, rev_repeat, drop_zeros_app.
  destruct (rev c) as [|x r] eqn:E; [apply (f_equal (@rev Z)) in E; rewrite rev_involutive in E; now subst|]. apply (f_equal (@rev Z)) in E. rewrite rev_involutive in E. cbn [rev] in E.
  assert (X : x <> 0) by (intros ->; exact (N _ E)). cbn [drop_zeros]. destruct x; try congruence; cbn [rev]; now symmetry.
Qed.
Lemma field_length c : length (command_field c) = 12%nat.
Proof. unfold command_field. rewrite app_length, firstn_length, repeat_length. lia. Qed.
Ltac no_zero := intros a E; apply (f_equal (@rev Z)) in E; rewrite rev_app_distr in E; cbn in E; discriminate.
Lemma own_commands m : sendable m -> wire_command (Command m).
Proof. destruct m; intros (_ & _ & S); try (split; [cbn; lia|no_zero]). exact (proj1 S). Qed.
Lemma unknown c : ~ In c known -> makeEmptyMessage c = Unhandle c.
Proof.
  intros N. assert (A : forall x, In x known -> list_Z_eqb c x = false) by (intros x I; destruct (list_Z_eqb c x) eqn:E; [apply zlist_eqb in E; now subst|reflexivity]).
  unfold makeEmptyMessage. rewrite !A by (unfold known; cbn [map In]; tauto). reflexivity.
Qed.
Lemma empty_of m : sendable m -> makeEmptyMessage (Command m) = match m with Ping _ => Unhandle (str_bytes "ping") | Pong _ => Unhandle (str_bytes "pong") | _ => fresh m end.
Proof. destruct m; intros (_ & _ & S); try reflexivity. exact (unknown c (proj2 S)). Qed.

Section T.
Variable sha256 : bytes -> bytes.
Hypothesis sha_len : forall b, (4 <= length (sha256 b))%nat.
Variable magic : bytes.
Hypothesis magic_len : length magic = 4%nat.
Lemma frame_shape m : len (Encode m) < 2 ^ 32 -> Frame sha256 magic m = frame_bytes magic (command_field (Command m)) (le_bytes 4 (len (Encode m))) (checksum sha256 (Encode m)) (Encode m).
Proof. intros L. unfold Frame, frame_bytes, Bytes. rewrite data_U32. cbn [bdata NewBuffer app]. pose proof (len_nonneg (Encode m)). unfold u32. now rewrite Z.mod_small by lia. Qed.
Lemma arrival m : sendable m -> Decode (makeEmptyMessage (Command m)) (Encode m) = Ok (arrives m).
Proof.
  intros S. rewrite (empty_of m S). pose proof S as (O & L & _). assert (R : Decode (fresh m) (Encode m) = Ok (with_locator m)) by (apply message_roundtrip; [exact O|apply memory; [exact O|lia]|lia]).
  destruct m; try exact R; reflexivity.
Qed.
Lemma read_one r m rest : reader_wf r -> sendable m -> content r = Frame sha256 magic m ++ rest -> exists r', reader_wf r' /\ content r' = rest /\ ReadMessage sha256 r = (Ok (arrives m), r').
Proof.
  intros W S C. pose proof S as (O & L & _). rewrite frame_shape in C by exact L. pose proof (len_nonneg (Encode m)).
  destruct (read_frame sha256 r _ _ _ _ _ rest W C magic_len (field_length _) (le_bytes_length 4 _)) as (r' & W' & C' & E).
  - unfold checksum. rewrite firstn_length. specialize (sha_len (sha256 (Encode m))). lia.
  - apply le_value_le_bytes. change (256 ^ Z.of_nat 4) with (2 ^ 32). lia.
  - exists r'. split; [exact W'|]. split; [exact C'|]. rewrite E, (proj2 (zlist_eqb _ _) eq_refl), trim_field by now apply own_commands. now rewrite arrival.
Qed.
Lemma read_end r : content r = [] -> reader_wf r -> exists r', ReadMessage sha256 r = (Err "unexpected EOF", r').
Proof.
  intros C W. unfold ReadMessage. destruct (ReadFull_cases 4 r ltac:(lia) W) as [(d & t & r1 & E & L & _)|(_ & r1 & ->)]; [|now exists r1].
  rewrite C in E. symmetry in E. apply app_eq_nil in E. destruct E as [-> _]. rewrite len_nil in L. lia.
Qed.
Lemma sequence ms : forall r, Forall sendable ms -> reader_wf r -> content r = concat (map (Frame sha256 magic) ms) -> forall k, ReadLoop sha256 (length ms + S k) r = (map arrives ms, Err "unexpected EOF").
Proof.
  induction ms as [|m ms IH]; intros r S W C k; cbn [length Nat.add map concat] in *.
  - cbn [ReadLoop]. destruct (read_end r C W) as (r' & ->). reflexivity.
  - inversion S as [|? ? S1 S2]; subst. destruct (read_one r m _ W S1 C) as (r' & W' & C' & E). cbn [ReadLoop]. rewrite E, (IH r' S2 W' C' k). reflexivity.
Qed.
End T.
