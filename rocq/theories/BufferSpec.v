(** What a user expects of the byte buffer, stated without the model's own helpers. *)
From Verif Require Import GoBase BufferModel.

(** Number denoted by a little-endian byte string. *)
Fixpoint le_value (bs : bytes) : Z :=
  match bs with
  | [] => 0
  | b :: r => b + 256 * le_value r
  end.

(** The buffer seen as "bytes already consumed, bytes still to read". *)
Definition at_cursor (b : buffer) (consumed rest : bytes) : Prop :=
  Bytes b = consumed ++ rest /\ Seek b = len consumed /\ Len b = len (consumed ++ rest).

(** Typed values a caller can store, and the call that stores each. *)
Inductive value :=
| VU8 (v : Z) | VU16 (v : Z) | VU32 (v : Z) | VU64 (v : Z) | VVarInt (v : Z)
| VBytes (v : bytes) | VVarBytes (v : bytes) | VVarString (v : bytes).

(** The argument fits the Go parameter type (and, for byte strings, the address space). *)
Definition value_ok (x : value) : Prop :=
  match x with
  | VU8 v => 0 <= v < 2 ^ 8
  | VU16 v => 0 <= v < 2 ^ 16
  | VU32 v => 0 <= v < 2 ^ 32
  | VU64 v => 0 <= v < 2 ^ 64
  | VVarInt v => 0 <= v < 2 ^ 64
  | VBytes v | VVarBytes v | VVarString v => bytes_ok v
  end.

Definition write_value (x : value) (b : buffer) : buffer :=
  match x with
  | VU8 v => WriteU8 v b
  | VU16 v => WriteU16 v b
  | VU32 v => WriteU32 v b
  | VU64 v => WriteU64 v b
  | VVarInt v => WriteVarInt v b
  | VBytes v => WriteBytes v b
  | VVarBytes v => WriteVarBytes v b
  | VVarString v => WriteVarString v b
  end.

(** The read call that mirrors a stored value; a raw byte string is read by its length. *)
Inductive shape :=
| SU8 | SU16 | SU32 | SU64 | SVarInt | SBytes (n : Z) | SVarBytes | SVarString.

Definition shape_of (x : value) : shape :=
  match x with
  | VU8 _ => SU8 | VU16 _ => SU16 | VU32 _ => SU32 | VU64 _ => SU64 | VVarInt _ => SVarInt
  | VBytes v => SBytes (len v) | VVarBytes _ => SVarBytes | VVarString _ => SVarString
  end.

Definition read_value (s : shape) : BM value :=
  match s with
  | SU8 => do v <- ReadU8; bret (VU8 v)
  | SU16 => do v <- ReadU16; bret (VU16 v)
  | SU32 => do v <- ReadU32; bret (VU32 v)
  | SU64 => do v <- ReadU64; bret (VU64 v)
  | SVarInt => do v <- ReadVarInt; bret (VVarInt v)
  | SBytes n => do v <- ReadBytes n; bret (VBytes (nilb v))
  | SVarBytes => do v <- ReadVarBytes; bret (VVarBytes (nilb v))
  | SVarString => do v <- ReadVarString; bret (VVarString v)
  end.

Fixpoint read_values (ss : list shape) : BM (list value) :=
  match ss with
  | [] => bret []
  | s :: r => do v <- read_value s; do vs <- read_values r; bret (v :: vs)
  end.

Fixpoint write_values (xs : list value) (b : buffer) : buffer :=
  match xs with
  | [] => b
  | x :: r => write_values r (write_value x b)
  end.

(** A reader state a program can be in: cursor inside data that fits in memory. *)
Definition reader_ok (b : buffer) : Prop :=
  0 <= Seek b <= len (Bytes b) /\ Len b = len (Bytes b) /\ len (Bytes b) <= 2 ^ 48 /\ bytes_ok (Bytes b).

(** C01.  A [w]-byte integer: writing appends [w] little-endian bytes and touches nothing else; reading those bytes
    anywhere gives the integer back and moves the cursor past them. *)
Definition wire_faithful (w : Z) (write : Z -> buffer -> buffer) (read : BM Z) : Prop :=
  forall v, 0 <= v < 256 ^ w ->
    (forall b, exists e,
        Bytes (write v b) = Bytes b ++ e /\ len e = w /\ bytes_ok e /\ le_value e = v /\
        Seek (write v b) = Seek b /\ Len (write v b) = Len b + w) /\
    (forall e b consumed rest,
        len e = w -> bytes_ok e -> le_value e = v ->
        at_cursor b consumed (e ++ rest) -> len (consumed ++ e ++ rest) <= 2 ^ 48 ->
        exists b', read b = (Ok v, b') /\ at_cursor b' (consumed ++ e) rest).

(** C04.  Read calls whose length does not come from the input. *)
Definition caller_sized (s : shape) : Prop :=
  match s with
  | SBytes n => 0 <= n < 2 ^ 62
  | SVarBytes | SVarString => False
  | _ => True
  end.
