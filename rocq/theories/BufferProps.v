(** Property theorems C01-C04 (byte buffer). *)
From Verif Require Import GoBase BaseLemmas BufferModel BufferSpec BufferProofs BufferMore.

(** C01. *)
Theorem C01_fixed_width_roundtrip :
  wire_faithful 1 WriteU8 ReadU8 /\ wire_faithful 2 WriteU16 ReadU16 /\
  wire_faithful 4 WriteU32 ReadU32 /\ wire_faithful 8 WriteU64 ReadU64.
Proof. exact fixed_width_roundtrip. Qed.
Print Assumptions C01_fixed_width_roundtrip.
(** A 4-byte value read back between other bytes. *)
Example C01_example :
  ReadU32 (Buf 2 8 (Bytes (WriteBytes [9; 9] (WriteU32 0x01020304 (WriteBytes [7; 7] NewBuffer)))))
  = (Ok 0x01020304, Buf 6 8 [7; 7; 4; 3; 2; 1; 9; 9]).
Proof. reflexivity. Qed.

(** C02: round trip at any position; length as reported. *)
Theorem C02_varint_roundtrip : forall v, 0 <= v < 2 ^ 64 -> exists e,
  len e = VarIntSerializeSize v /\ bytes_ok e /\
  (forall b, Bytes (WriteVarInt v b) = Bytes b ++ e /\ Seek (WriteVarInt v b) = Seek b /\
             Len (WriteVarInt v b) = Len b + len e) /\
  (forall b consumed rest, at_cursor b consumed (e ++ rest) -> len (consumed ++ e ++ rest) <= 2 ^ 48 ->
     exists b', ReadVarInt b = (Ok v, b') /\ at_cursor b' (consumed ++ e) rest).
Proof. exact varint_roundtrip. Qed.
Print Assumptions C02_varint_roundtrip.

(** C02: no byte string that reads as [v] is shorter than the one written. *)
Theorem C02_varint_minimal : forall d b' v,
  bytes_ok d -> len d <= 2 ^ 48 -> ReadVarInt (NewBufferReader d) = (Ok v, b') ->
  VarIntSerializeSize v <= Seek b'.
Proof. exact varint_minimal. Qed.
Print Assumptions C02_varint_minimal.

(** C02: different values have different encodings, and neither is a prefix of the other. *)
Theorem C02_varint_prefix_free : forall v w r s, 0 <= v < 2 ^ 64 -> 0 <= w < 2 ^ 64 ->
  Bytes (WriteVarInt v NewBuffer) ++ r = Bytes (WriteVarInt w NewBuffer) ++ s -> v = w /\ r = s.
Proof. exact varint_prefix_free. Qed.
Print Assumptions C02_varint_prefix_free.
Example C02_example :
  Bytes (WriteVarInt 0xfd NewBuffer) = [0xfd; 0xfd; 0] /\ Bytes (WriteVarInt 0xffff NewBuffer) = [0xfd; 0xff; 0xff] /\
  Bytes (WriteVarInt 0x10000 NewBuffer) = [0xfe; 0; 0; 1; 0] /\
  ReadVarInt (NewBufferReader [0xfe; 1; 0; 0; 0]) = (Ok 1, Buf 5 5 [0xfe; 1; 0; 0; 0]).
Proof. repeat split. Qed.

(** C03. *)
Theorem C03_buffer_is_a_queue : forall xs, Forall value_ok xs ->
  len (Bytes (write_values xs NewBuffer)) <= 2 ^ 48 ->
  exists b', read_values (map shape_of xs) (NewBufferReader (Bytes (write_values xs NewBuffer))) = (Ok xs, b') /\
             End b' = true /\ Remaining b' = Ok [].
Proof. exact buffer_is_a_queue. Qed.
Print Assumptions C03_buffer_is_a_queue.
Example C03_example :
  fst (read_values [SVarBytes; SU16; SBytes 2; SVarInt]
    (NewBufferReader (Bytes (write_values [VVarBytes [1;2;3]; VU16 515; VBytes [5;6]; VVarInt 70000] NewBuffer))))
  = Ok [VVarBytes [1;2;3]; VU16 515; VBytes [5;6]; VVarInt 70000].
Proof. reflexivity. Qed.

(** C04 is false: a nine-byte input makes ReadVarBytes panic (declared length 2^64 - 1 becomes -1). *)
Theorem C04_read_untrusted_refuted : exists d, bytes_ok d /\ fst (ReadVarBytes (NewBufferReader d)) = Panic.
Proof. exact read_untrusted_refuted. Qed.
Print Assumptions C04_read_untrusted_refuted.

(** C04, exactly when: ReadVarBytes panics iff cursor plus declared length reaches 2^63. *)
Theorem C04_varbytes_panics_iff : forall b b' l, reader_ok b -> ReadVarInt b = (Ok l, b') ->
  (fst (ReadVarBytes b) = Panic <-> 2 ^ 63 <= Seek b' + l).
Proof. exact varbytes_panics_iff. Qed.
Print Assumptions C04_varbytes_panics_iff.

(** C04 for every sequence of reads whose lengths are chosen by the caller: no panic, cursor in bounds, data untouched.
    Missing from the full statement: ReadVarBytes and ReadVarString. *)
Theorem C04_read_untrusted_partial : forall ss b, reader_ok b -> Forall caller_sized ss ->
  let (r, b') := read_values ss b in r <> Panic /\ reader_ok b' /\ Bytes b' = Bytes b.
Proof. exact read_untrusted_partial. Qed.
Print Assumptions C04_read_untrusted_partial.
Example C04_example : fst (read_values [SU32; SBytes 3] (NewBufferReader [1;2;3;4;5])) = Err "error.seek".
Proof. reflexivity. Qed.
