(** C114: what the peer-to-peer reader accepts. *)
From Verif Require Import GoBase BaseLemmas BufferModel BufferSpec BufferProofs Codec TxModel TxReadSpec TxReadProofs ProtoModel ProtoSpec ProtoReadSpec ProtoReadProofs.
Local Open Scope Z_scope.

(** C114: a decoder accepts exactly the payloads of its message. *)
Theorem C114_decodes_exactly : forall c d m, bytes_ok d -> len d <= 2 ^ 43 -> (Decode (makeEmptyMessage c) d = Ok m <-> accepts c d m).
Proof. exact decode_iff. Qed.
Print Assumptions C114_decodes_exactly.
(** C114: ReadMessage returns a message, and leaves [rest] in the stream, just when the stream is a frame with the name,
    the length and the checksum of an acceptable payload, followed by [rest]; however the bytes arrive. *)
Theorem C114_reads_exactly : forall sha256 r m rest, (forall b, (4 <= length (sha256 b))%nat) -> reader_wf r -> bytes_ok (content r) ->
  ((exists r', ReadMessage sha256 r = (Ok m, r') /\ content r' = rest) <->
   exists magic field c size data, content r = magic ++ field ++ size ++ firstn 4 (sha256 (sha256 data)) ++ data ++ rest /\ length magic = 4%nat /\ names field c /\ word 4 size (len data) /\ accepts c data m).
Proof. exact read_iff. Qed.
Print Assumptions C114_reads_exactly.

(** Against Bitcoin's format: a headers or getheaders message that claims 2^63 entries or more, and has none, is read as
    an empty list; a list should have as many entries as it says. *)
Theorem C114_counts_refuted : forall n, 2 ^ 63 <= n < 2 ^ 64 -> Decode (makeEmptyMessage (str_bytes "headers")) (255 :: le_bytes 8 n) = Ok (Headers []) /\
  Decode (makeEmptyMessage (str_bytes "getheaders")) ([1; 0; 0; 0] ++ 255 :: le_bytes 8 n) = Ok (GetHeaders (MkGetHeaders 1 [] (repeat 0 32))) /\ ~ counted a_header (255 :: le_bytes 8 n) [].
Proof.
  intros n B. assert (O : bytes_ok (255 :: le_bytes 8 n)) by (apply bytes_ok_cons; split; [split; [discriminate|reflexivity]|apply le_bytes_ok]).
  assert (V : le_value (le_bytes 8 n) = n) by (apply le_value_le_bytes; change (256 ^ Z.of_nat 8) with (2 ^ 64); lia).
  assert (S : size (255 :: le_bytes 8 n) n) by (rewrite <- V at 2; apply size_9; [apply le_bytes_length|apply le_bytes_ok]).
  assert (L : len (255 :: le_bytes 8 n) = 9) by (unfold len; cbn [length]; now rewrite le_bytes_length).
  generalize dependent (le_bytes 8 n). intros w8 O V S L. split; [|split].
  - apply C114_decodes_exactly; [exact O|rewrite L; discriminate|]. rewrite <- (app_nil_r (255 :: _)). constructor. apply (tally_huge _ _ n); [exact S|lia].
  - apply C114_decodes_exactly; [apply bytes_ok_app; split; [bytes_ok_tac|exact O]|rewrite len_app, L; discriminate|]. rewrite <- (app_nil_r (_ ++ _)). constructor.
    constructor; [exact (word_le 4 [1; 0; 0; 0] eq_refl ltac:(bytes_ok_tac))|apply (tally_huge _ _ n); [exact S|lia]].
  - intros C. remember (255 :: w8) as w eqn:W. remember [] as l eqn:El in C. destruct C as [c e l' S' M]. subst l'. change (len []) with 0 in S'. inversion M; subst e. rewrite app_nil_r in W. subst c.
    inversion S' as [m Hm E1 E2|f Lf Of E1 E2|f Lf Of E1 E2|f Lf Of E1 E2]; try congruence. assert (f = w8) by congruence. subst f. lia.
Qed.
Print Assumptions C114_counts_refuted.
(** A getheaders message may lack its stop hash, and one that has it loses it. *)
Theorem C114_stop_hash_refuted : forall v stop, 0 <= v < 2 ^ 32 -> length stop = 32%nat -> bytes_ok stop ->
  Decode (makeEmptyMessage (str_bytes "getheaders")) (le_bytes 4 v ++ [0]) = Ok (GetHeaders (MkGetHeaders v [] (repeat 0 32))) /\
  Decode (makeEmptyMessage (str_bytes "getheaders")) (le_bytes 4 v ++ [0] ++ stop) = Ok (GetHeaders (MkGetHeaders v [] (repeat 0 32))).
Proof.
  intros v stop B L O. assert (V : le_value (le_bytes 4 v) = v) by (apply le_value_le_bytes; change (256 ^ Z.of_nat 4) with (2 ^ 32); lia).
  assert (A : a_locator (le_bytes 4 v ++ [0]) (MkGetHeaders v [] (repeat 0 32))).
  { rewrite <- V at 2. constructor; [constructor; [apply le_bytes_length|apply le_bytes_ok]|]. constructor 1. apply (counted_app (blob 32) [0] [] []); [apply (size_1 0); split; [discriminate|reflexivity]|constructor]. }
  assert (L4 : len (le_bytes 4 v) = 4) by (unfold len; now rewrite le_bytes_length).
  split; (apply C114_decodes_exactly; [rewrite !bytes_ok_app; pose proof (le_bytes_ok 4 v); assert (bytes_ok [0]) by bytes_ok_tac; tauto| |]).
  - rewrite len_app, L4. discriminate.
  - rewrite <- (app_nil_r (_ ++ _)). now constructor.
  - rewrite !len_app, L4. unfold len. rewrite L. discriminate.
  - rewrite app_assoc. now constructor.
Qed.
Print Assumptions C114_stop_hash_refuted.
(** An inv message with one entry and a byte too many; one whose count is too large for its bytes; and one with two frames' worth of stream. *)
Example C114_example : let d := [1] ++ [2; 0; 0; 0] ++ repeat 9 32 ++ [77] in let sha := fun b : bytes => [1; 2; 3; 4] in
  bytes_ok d /\ Decode (makeEmptyMessage (str_bytes "inv")) d = Ok (Inv [MkInv 2 (repeat 9 32)]) /\
  (exists e, Decode (makeEmptyMessage (str_bytes "inv")) (2 :: skipn 1 d) = Err e) /\
  (exists r', ReadMessage sha (MkReader [0] [[0; 0; 0] ++ str_bytes "inv" ++ repeat 0 9; [38; 0; 0; 0; 1; 2; 3; 4] ++ d ++ [5; 5]]) = (Ok (Inv [MkInv 2 (repeat 9 32)]), r') /\ content r' = [5; 5]) /\
  names (str_bytes "inv" ++ repeat 0 9) (str_bytes "inv").
Proof.
  split; [apply bytes_ok_forallb; vm_compute; reflexivity|]. split; [vm_compute; reflexivity|]. split; [eexists; vm_compute; reflexivity|]. split; [eexists; split; vm_compute; reflexivity|].
  split; [reflexivity|]. split; [now exists 9%nat|]. intros a E. apply (f_equal (@rev Z)) in E. rewrite rev_app_distr in E. discriminate E.
Qed.
