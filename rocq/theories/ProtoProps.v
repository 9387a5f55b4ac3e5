(** C74-C79, C86, C87: protocol messages, streams and connections. *)
From Verif Require Import GoBase BaseLemmas BufferModel BufferSpec BufferProofs Codec ProtoModel ProtoSpec ProtoProofs ProtoStream ProtoConc ProtoMore.

Definition toy_sha (b : bytes) : bytes := repeat (fold_left (fun a x => (a * 31 + x + 1) mod 251) b 7) 32.
Definition my_magic : bytes := [249; 190; 180; 217].
Definition my_version : MsgVersion := MkVersion 70015 1 1554000000 0 (str_bytes "::ffff:127.0.0.1") 8333 0 (str_bytes "::ffff:127.0.0.1") 8333 0 (str_bytes "/toku/") 1 1.
Definition my_inv : list InvVect := [MkInv 1 (repeat 7 32); MkInv 2 (repeat 9 32)].
Definition my_reject : MsgReject := MkReject (str_bytes "tx") 0x10 (str_bytes "bad") (repeat 5 32).

(** C74 is false: a port above 65535, and a reject message for a transaction made by NewMsgReject, which has no hash. *)
Theorem C74_messages_roundtrip_refuted :
  (exists v v', Decode (fresh (Version v)) (Encode (Version v)) = Ok (Version v') /\ mv_port_you v = 70000 /\ mv_port_you v' = 4464) /\
  (exists r e, rj_cmd r = str_bytes "tx" /\ rj_hash r = [] /\ Decode (fresh (Reject r)) (Encode (Reject r)) = Err e) /\
  (exists g g', gh_stop g <> repeat 0 32 /\ Decode (fresh (GetHeaders g)) (Encode (GetHeaders g)) = Ok (GetHeaders g') /\ gh_stop g' = repeat 0 32).
Proof.
  split; [|split].
  - exists (MkVersion 70015 1 0 0 (repeat 0 16) 70000 0 (repeat 0 16) 8333 0 [] 1 1), (MkVersion 70015 1 0 0 (repeat 0 16) 4464 0 (repeat 0 16) 8333 0 [] 1 1). repeat split; vm_compute; reflexivity.
  - exists (MkReject (str_bytes "tx") 16 (str_bytes "bad") []), "error.seek"%string. repeat split; vm_compute; reflexivity.
  - exists (MkGetHeaders 70015 [repeat 1 32] (repeat 2 32)), (MkGetHeaders 70015 [repeat 1 32] (repeat 0 32)). split; [discriminate|]. split; vm_compute; reflexivity.
Qed.
Print Assumptions C74_messages_roundtrip_refuted.
(** C74 for messages whose fields fit the wire; a getheaders message without locators comes back with the zero one. *)
Theorem C74_messages_roundtrip_partial : forall m, msg_ok m -> len (Encode m) <= 2 ^ 48 -> Decode (fresh m) (Encode m) = Ok (with_locator m).
Proof. intros m O L. apply message_roundtrip; [exact O|now apply memory|exact L]. Qed.
Print Assumptions C74_messages_roundtrip_partial.
Example C74_example : msg_ok (Version my_version) /\ msg_ok (Inv my_inv) /\ msg_ok (Reject my_reject) /\ Decode (Reject empty_reject) (Encode (Reject my_reject)) = Ok (Reject my_reject) /\ len (Encode (Inv my_inv)) = 73.
Proof.
  split; [unfold msg_ok, version_ok, fits_in; cbn; lia|]. split; [split; [unfold my_inv; repeat (apply Forall_cons; [split; [unfold fits_in; cbn; lia|reflexivity]|]); apply Forall_nil|vm_compute; discriminate]|].
  split; [split; [unfold fits_in; cbn; lia|split; [reflexivity|intros N; exfalso; apply N; now right]]|]. split; vm_compute; reflexivity.
Qed.

(** C75 is false of five types of message. *)
Theorem C75_size_refuted :
  Size VerAck <> len (Encode VerAck) /\ (forall r, len (rj_cmd r) < 2 ^ 64 -> len (rj_reason r) < 2 ^ 64 -> reject_ok r -> Size (Reject r) <> len (Encode (Reject r))) /\
  (forall c, c <> [] -> Size (Unhandle c) <> len (Encode (Unhandle c))) /\ (exists g, Size (GetHeaders g) <> len (Encode (GetHeaders g))).
Proof.
  split; [discriminate|]. split; [|split].
  - intros r H1 H2 O. rewrite (reject_size r H1 H2 O). pose proof (compact_len (len (rj_cmd r)) (conj (len_nonneg _) H1)). pose proof (compact_len (len (rj_reason r)) (conj (len_nonneg _) H2)). lia.
  - intros [|x c] N; [congruence|]. cbn [Size Encode]. rewrite len_cons, len_nil. pose proof (len_nonneg c). lia.
  - exists (MkGetHeaders 1 [] (repeat 0 32)). vm_compute. discriminate.
Qed.
Print Assumptions C75_size_refuted.
(** C75 for the rest; for getheaders once it has a locator. *)
Theorem C75_size_partial : forall m, msg_ok m -> len (Encode m) <= 2 ^ 48 ->
  match m with VerAck | Reject _ | Unhandle _ => False | GetHeaders g => gh_locators g <> [] | _ => True end -> Size m = len (Encode m).
Proof. intros m O L H. apply sizes; [now apply memory|]. destruct m; auto. split; [exact H|]. destruct O as (_ & _ & ->). reflexivity. Qed.
Print Assumptions C75_size_partial.
(** By how much a reject message's size is off. *)
Theorem C75_reject_size : forall r, len (rj_cmd r) < 2 ^ 64 -> len (rj_reason r) < 2 ^ 64 -> reject_ok r ->
  len (Encode (Reject r)) = Size (Reject r) + len (compact (len (rj_cmd r))) + len (compact (len (rj_reason r))).
Proof. exact reject_size. Qed.
Print Assumptions C75_reject_size.
Example C75_example : Size (Version my_version) = 92 /\ len (Encode (Version my_version)) = 92 /\ Size (Reject my_reject) = 38 /\ len (Encode (Reject my_reject)) = 40.
Proof. repeat split; vm_compute; reflexivity. Qed.

(** C76: any sequence of messages, cut into pieces of any sizes by the network, arrives in order and complete ... *)
Theorem C76_sequences_arrive_partial : forall sha256, (forall b, (4 <= length (sha256 b))%nat) -> forall magic, length magic = 4%nat -> forall ms r k,
  Forall sendable ms -> Forall (fun m => match m with Ping _ | Pong _ => False | _ => True end) ms -> reader_wf r -> content r = concat (map (Frame sha256 magic) ms) ->
  ReadLoop sha256 (length ms + S k) r = (map with_locator ms, Err "unexpected EOF").
Proof.
  intros sha256 H magic M ms r k S N W C. rewrite (sequence sha256 H magic M ms r S W C k). f_equal. clear -N. induction N as [|m ms Hm N IH]; [reflexivity|]. cbn [map]. rewrite IH. f_equal. destruct m; reflexivity || contradiction.
Qed.
Print Assumptions C76_sequences_arrive_partial.
(** ... with pings and pongs, they arrive without their nonces ... *)
Theorem C76_all_sequences : forall sha256, (forall b, (4 <= length (sha256 b))%nat) -> forall magic, length magic = 4%nat -> forall ms r k,
  Forall sendable ms -> reader_wf r -> content r = concat (map (Frame sha256 magic) ms) -> ReadLoop sha256 (length ms + S k) r = (map arrives ms, Err "unexpected EOF").
Proof. intros sha256 H magic M ms r k S W C. exact (sequence sha256 H magic M ms r S W C k). Qed.
Print Assumptions C76_all_sequences.
(** ... so C76 is false of pings: the message that arrives has the command and nothing else. *)
Theorem C76_sequences_arrive_refuted : forall sha256, (forall b, (4 <= length (sha256 b))%nat) -> forall magic, length magic = 4%nat -> forall n, 0 <= n < 2 ^ 64 ->
  exists r, content r = Frame sha256 magic (Ping n) /\ ReadLoop sha256 2 r = ([Unhandle (str_bytes "ping")], Err "unexpected EOF").
Proof.
  intros sha256 H magic M n N. exists (MkReader [] [Frame sha256 magic (Ping n)]). split; [apply app_nil_r|].
  apply (sequence sha256 H magic M [Ping n]) with (k := 0%nat).
  - constructor; [|constructor]. split; [exact N|]. split; [|exact I]. cbn [Encode]. unfold Bytes. rewrite data_U64, len_app. cbn [bdata NewBuffer]. rewrite le_bytes_len, len_nil. lia.
  - constructor; [|constructor]. destruct magic as [|x g]; [discriminate|]. discriminate.
  - reflexivity.
Qed.
Print Assumptions C76_sequences_arrive_refuted.
Definition my_stream : bytes := concat (map (Frame toy_sha my_magic) [Version my_version; VerAck; Ping 5; Tx [1; 2; 3]]).
Example C76_example : Forall sendable [Version my_version; VerAck; Ping 5; Tx [1; 2; 3]] /\
  ReadLoop toy_sha 9 (MkReader [249] [firstn 99 (skipn 1 my_stream); skipn 100 my_stream]) = ([Version my_version; VerAck; Unhandle (str_bytes "ping"); Tx [1; 2; 3]], Err "unexpected EOF").
Proof.
  split; [|vm_compute; reflexivity]. repeat constructor; try exact I; try (vm_compute; reflexivity); try (unfold fits_in; cbn; lia); vm_compute; discriminate.
Qed.

(** C77, checksums: a frame whose checksum is wrong is refused, and what is read had a right one. *)
Theorem C77_checksum : forall sha256 r magic command size check data rest, reader_wf r -> content r = magic ++ command ++ size ++ check ++ data ++ rest ->
  length magic = 4%nat -> length command = 12%nat -> length size = 4%nat -> length check = 4%nat -> le_value size = len data ->
  check <> firstn 4 (sha256 (sha256 data)) -> exists r', ReadMessage sha256 r = (Err "stream.read.payload.checksum.mismatch", r').
Proof. intros sha256 r magic command size check data rest W C. apply bad_checksum with (rest := rest); [exact W|]. unfold frame_bytes. now rewrite <- !app_assoc. Qed.
Print Assumptions C77_checksum.
Theorem C77_read_sound : forall sha256 r m r', reader_wf r -> bytes_ok (content r) -> ReadMessage sha256 r = (Ok m, r') ->
  exists magic command size check data, content r = (magic ++ command ++ size ++ check ++ data) ++ content r' /\ length magic = 4%nat /\ length command = 12%nat /\ length size = 4%nat /\ le_value size = len data /\
    check = firstn 4 (sha256 (sha256 data)) /\ Decode (makeEmptyMessage (TrimRight0 command)) data = Ok m.
Proof. exact read_sound. Qed.
Print Assumptions C77_read_sound.
(** C77 is false of the magic: the result is the same whatever it is. *)
Theorem C77_magic_refuted : forall sha256, (forall b, (4 <= length (sha256 b))%nat) -> forall magic, length magic = 4%nat -> forall m r, sendable m -> reader_wf r -> content r = Frame sha256 magic m ->
  exists r', ReadMessage sha256 r = (Ok (arrives m), r').
Proof. intros sha256 H magic M m r S W C. destruct (read_one sha256 H magic M r m [] W S) as (r' & _ & _ & E); [now rewrite app_nil_r|]. now exists r'. Qed.
Print Assumptions C77_magic_refuted.
Example C77_example : fst (ReadMessage toy_sha (MkReader [] [Frame toy_sha [1; 2; 3; 4] VerAck])) = Ok VerAck /\
  fst (ReadMessage toy_sha (MkReader [] [my_magic ++ command_field (str_bytes "tx") ++ [1; 0; 0; 0] ++ [9; 9; 9; 9]; [65]])) = Err "stream.read.payload.checksum.mismatch" /\ firstn 4 (toy_sha (toy_sha [65])) <> [9; 9; 9; 9].
Proof. split; [vm_compute; reflexivity|]. split; [vm_compute; reflexivity|]. vm_compute. discriminate. Qed.

(** C78: getdata's limit holds; the others' do not. *)
Theorem C78_getdata_limit : forall calls, len (adds GetData_AddInvVect calls) <= 50000.
Proof. exact getdata_limit. Qed.
Print Assumptions C78_getdata_limit.
Theorem C78_limits_refuted : (forall l, adds Inv_AddInvVect [l] = l) /\ (forall l, adds AddBlockHeader [l] = l) /\
  (forall n, Z.of_nat n <= 2 ^ 40 -> exists l, length l = n /\ Decode (Headers []) (Encode (Headers l)) = Ok (Headers l)).
Proof. split; [exact inv_any|]. split; [exact headers_any|]. intros n N. exists (repeat zero_header n). split; [apply repeat_length|now apply decode_headers_any]. Qed.
Print Assumptions C78_limits_refuted.
(** With at most k items a call the overshoot is at most k - 1, so none with one item a call; and Decode keeps the limit of inv and getdata. *)
Theorem C78_limits_partial : forall k, 1 <= k ->
  (forall calls, Forall (fun c => len c <= k) calls -> len (adds Inv_AddInvVect calls) <= 50000 + (k - 1)) /\
  (forall calls, Forall (fun c => len c <= k) calls -> len (adds AddBlockHeader calls) <= 2000 + (k - 1)) /\
  (forall d l, bytes_ok d -> len d <= 2 ^ 48 -> Decode (Inv []) d = Ok (Inv l) \/ Decode (GetData []) d = Ok (GetData l) -> len l <= 50000).
Proof. intros k K. split; [|split; [|exact decode_limit]]; intros calls F; [pose proof (inv_limit k calls K F)|pose proof (headers_limit k calls K F)]; lia. Qed.
Print Assumptions C78_limits_partial.
Example C78_example : len (adds AddBlockHeader [repeat zero_header 1999; repeat zero_header 3; [zero_header]]) = 2002 /\ len (adds GetData_AddInvVect [my_inv; my_inv]) = 4 /\ Forall (fun c : list InvVect => len c <= 2) [my_inv; my_inv].
Proof. split; [vm_compute; reflexivity|]. split; [vm_compute; reflexivity|]. repeat (apply Forall_cons; [vm_compute; discriminate|]). apply Forall_nil. Qed.

(** C79, first half: under every schedule the wire holds the frames of the successful Sends, whole and in the order they returned, then at most a part of one other. *)
Theorem C79_frames_contiguous : forall tr s, exec start tr s -> exists p q, wire s = concat (sent tr) ++ p /\ (p = [] \/ begun tr (p ++ q)).
Proof. exact frames_contiguous. Qed.
Print Assumptions C79_frames_contiguous.
(** So the peer reads the messages of the successful Sends, in that order. *)
Theorem C79_delivered : forall sha256 magic, (forall b, (4 <= length (sha256 b))%nat) -> length magic = 4%nat -> forall tr s r,
  exec start tr s -> (forall t f, In (Call t f) tr -> exists m, sendable m /\ f = Frame sha256 magic m) -> reader_wf r -> content r = wire s ->
  exists ms, Forall sendable ms /\ sent tr = map (Frame sha256 magic) ms /\ ReadLoop sha256 (length ms) r = (map arrives ms, Ok tt).
Proof. exact delivered. Qed.
Print Assumptions C79_delivered.
(** The second half is false: the read loop holds the mutex while it waits for the peer, and until a message comes or the read fails no Send returns. *)
Theorem C79_send_progress_refuted : forall (t : nat) (f : bytes), (1 <= t)%nat -> exists tr s, exec start tr s /\ Forall silent tr /\ waiting t s /\
  forall tr' s', Forall silent tr' -> exec s tr' s' -> waiting t s' /\ forall u g ok, ~ In (Return u g ok) tr'.
Proof. exact silent_peer_blocks. Qed.
Print Assumptions C79_send_progress_refuted.
(** There is no deadlock: with the read's deadline, and no help from the peer, a waiting Send can go on and succeed. *)
Theorem C79_send_progress_partial : forall tr s t f, exec start tr s -> broken s = false -> threads s t = Waits f -> exists tr' s', exec s (tr' ++ [Return t f true]) s' /\ ~ In Received tr'.
Proof. exact can_send. Qed.
Print Assumptions C79_send_progress_partial.
Example C79_example : exists s, exec start [Call 1 [1; 2; 3]; Call 2 [4; 5]; Acquire 2; Write 2 [4]; Write 2 [5]; Return 2 [4; 5] true; RLock; Received; Acquire 1; Write 1 [1; 2]] s /\ wire s = [4; 5; 1; 2].
Proof.
  eexists. split.
  - repeat (econstructor; [first [apply s_call; [reflexivity|discriminate] | eapply s_acquire; reflexivity | eapply s_write with (d := [4]); [reflexivity|discriminate] | eapply s_write with (d := [5]); [reflexivity|discriminate]
      | eapply s_write with (d := [1; 2]); [reflexivity|discriminate] | eapply s_return; reflexivity | apply s_rlock | apply s_received]|]). constructor.
  - reflexivity.
Qed.

(** C86 is false: nine bytes in a reject message, correctly framed, crash the reader. *)
Theorem C86_peer_cannot_crash_refuted : forall sha256 (magic : bytes), (forall b, (4 <= length (sha256 b))%nat) -> length magic = 4%nat ->
  exists r r', length (content r) = 33%nat /\ ReadMessage sha256 r = (Panic, r').
Proof.
  intros sha256 magic H M. destruct (bomb_panics sha256 magic H M) as (r' & E). eexists _, r'. split; [|exact E]. unfold content, frame_bytes. cbn [r_buf r_conn concat app]. rewrite app_nil_r, !app_length, firstn_length, M. specialize (H (sha256 bomb)). cbn [length command_field str_bytes bomb]. rewrite Nat.min_l by lia. reflexivity.
Qed.
Print Assumptions C86_peer_cannot_crash_refuted.
(** Only version and reject messages with a length above 2^48 in them can. *)
Theorem C86_peer_cannot_crash_partial : forall sha256 r r', reader_wf r -> bytes_ok (content r) -> ReadMessage sha256 r = (Panic, r') ->
  exists magic command size check data, content r = (magic ++ command ++ size ++ check ++ data) ++ content r' /\ length magic = 4%nat /\ length command = 12%nat /\ length size = 4%nat /\ length check = 4%nat /\ le_value size = len data /\
    (TrimRight0 command = str_bytes "version" \/ TrimRight0 command = str_bytes "reject") /\
    exists a e b, data = a ++ 255 :: e ++ b /\ length e = 8%nat /\ 2 ^ 48 < le_value e.
Proof. exact read_panics. Qed.
Print Assumptions C86_peer_cannot_crash_partial.
Example C86_example : fst (ReadMessage toy_sha (MkReader [] [my_magic ++ command_field (str_bytes "reject") ++ [9; 0; 0; 0] ++ firstn 4 (toy_sha (toy_sha bomb)); bomb])) = Panic /\ bomb = [255; 0; 0; 0; 0; 0; 0; 0; 128].
Proof. split; vm_compute; reflexivity. Qed.

(** C87 is false: Bitcoin's ports are big-endian. *)
Theorem C87_wire_format_refuted : exists v, version_ok v /\ Encode (Version v) <> layout port_be (Version v).
Proof. exists my_version. split; [unfold version_ok, fits_in; cbn; lia|]. vm_compute. discriminate. Qed.
Print Assumptions C87_wire_format_refuted.
(** Everything else is laid out as it should be: the messages, their frames, and what a block's hash is the hash of. *)
Theorem C87_wire_format_partial :
  (forall m, msg_ok m -> len (Encode m) <= 2 ^ 48 -> Encode m = layout port_le (with_locator m)) /\
  (forall m port, match m with Version _ => False | _ => True end -> layout port m = layout port_le m) /\
  (forall sha256 magic m, sendable m -> Frame sha256 magic m = frame_layout sha256 magic m) /\
  (forall dsha h, BlockHash dsha h = dsha (header_layout h)).
Proof.
  split; [intros m O L; apply encode_layout; now apply memory|]. split; [intros m port N; destruct m; reflexivity || contradiction|]. split; [exact frame_is|].
  intros dsha h. unfold BlockHash, header_layout, Bytes. rewrite !data_U32, !data_bytes, data_U32, !le_is. rewrite <- !app_assoc. reflexivity.
Qed.
Print Assumptions C87_wire_format_partial.
Example C87_example : layout port_be (Ping 258) = [2; 1; 0; 0; 0; 0; 0; 0] /\ port_be 8333 = [32; 141] /\ port_le 8333 = [141; 32].
Proof. repeat split; vm_compute; reflexivity. Qed.
