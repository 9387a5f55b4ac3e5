(** Model of /repo/xbase/buffer.go: the byte buffer used by every codec of the library. *)
From Verif Require Import GoBase.

(** xbase/buffer.go:13-17 [type Buffer struct]. *)
Record buffer := Buf { bseek : Z; blength : Z; bdata : bytes }.

(** A call on a buffer: result and the buffer afterwards. *)
Definition BM (A : Type) := buffer -> res A * buffer.
Definition bret {A} (a : A) : BM A := fun b => (Ok a, b).
Definition bbind {A B} (m : BM A) (f : A -> BM B) : BM B := fun b =>
  match m b with
  | (Ok a, b') => f a b'
  | (Err e, b') => (Err e, b')
  | (Panic, b') => (Panic, b')
  end.
Definition bfail {A} (e : string) : BM A := fun b => (Err e, b).
Definition bpanic {A} : BM A := fun b => (Panic, b).
Notation "'do' x '<-' m ';' k" := (bbind m (fun x => k))
  (at level 200, x pattern, m at level 100, k at level 200, right associativity).

(** xbase/buffer.go:20-22. *)
Definition NewBuffer : buffer := Buf 0 0 [].
(** xbase/buffer.go:25-30. *)
Definition NewBufferReader (d : bytes) : buffer := Buf 0 (len d) d.

(** xbase/buffer.go:32-37 [check]; [seek + l] is int64 arithmetic and wraps. True = no error. *)
Definition check (b : buffer) (l : Z) : bool := negb (blength b <? i64 (bseek b + l)).

(** xbase/buffer.go:40-43. *)
Definition WriteU8 (v : Z) (b : buffer) : buffer :=
  Buf (bseek b) (blength b + 1) (bdata b ++ [v]).
(** xbase/buffer.go:46-53. *)
Definition ReadU8 : BM Z := fun b =>
  if check b 1 then
    match index (bdata b) (bseek b) with
    | Ok v => (Ok v, Buf (bseek b + 1) (blength b) (bdata b))
    | _ => (Panic, b)
    end
  else (Err "error.seek", b).

(** xbase/buffer.go:56-60; the argument is a uint32. *)
Definition WriteU16 (v : Z) (b : buffer) : buffer :=
  Buf (bseek b) (blength b + 2) ((bdata b ++ [u8 v]) ++ [u8 (Z.shiftr v 8)]).
(** xbase/buffer.go:63-72. *)
Definition ReadU16 : BM Z := fun b =>
  if check b 2 then
    match index (bdata b) (bseek b), index (bdata b) (bseek b + 1) with
    | Ok b0, Ok b1 =>
        (Ok (Z.lor b0 (u32 (Z.shiftl b1 8))), Buf (bseek b + 2) (blength b) (bdata b))
    | _, _ => (Panic, b)
    end
  else (Err "error.seek", b).

(** xbase/buffer.go:75-81. *)
Definition WriteU32 (v : Z) (b : buffer) : buffer :=
  Buf (bseek b) (blength b + 4)
    ((((bdata b ++ [u8 v]) ++ [u8 (Z.shiftr v 8)]) ++ [u8 (Z.shiftr v 16)]) ++ [u8 (Z.shiftr v 24)]).
(** xbase/buffer.go:84-95. *)
Definition ReadU32 : BM Z := fun b =>
  if check b 4 then
    match index (bdata b) (bseek b), index (bdata b) (bseek b + 1),
          index (bdata b) (bseek b + 2), index (bdata b) (bseek b + 3) with
    | Ok b0, Ok b1, Ok b2, Ok b3 =>
        (Ok (Z.lor (Z.lor (Z.lor b0 (u32 (Z.shiftl b1 8))) (u32 (Z.shiftl b2 16))) (u32 (Z.shiftl b3 24))),
         Buf (bseek b + 4) (blength b) (bdata b))
    | _, _, _, _ => (Panic, b)
    end
  else (Err "error.seek", b).

(** xbase/buffer.go:98-108. *)
Definition WriteU64 (v : Z) (b : buffer) : buffer :=
  Buf (bseek b) (blength b + 8)
    ((((((((bdata b ++ [u8 v]) ++ [u8 (Z.shiftr v 8)]) ++ [u8 (Z.shiftr v 16)]) ++ [u8 (Z.shiftr v 24)])
      ++ [u8 (Z.shiftr v 32)]) ++ [u8 (Z.shiftr v 40)]) ++ [u8 (Z.shiftr v 48)]) ++ [u8 (Z.shiftr v 56)]).
(** xbase/buffer.go:111-126. *)
Definition ReadU64 : BM Z := fun b =>
  if check b 8 then
    match index (bdata b) (bseek b), index (bdata b) (bseek b + 1),
          index (bdata b) (bseek b + 2), index (bdata b) (bseek b + 3),
          index (bdata b) (bseek b + 4), index (bdata b) (bseek b + 5),
          index (bdata b) (bseek b + 6), index (bdata b) (bseek b + 7) with
    | Ok b0, Ok b1, Ok b2, Ok b3, Ok b4, Ok b5, Ok b6, Ok b7 =>
        (Ok (Z.lor (Z.lor (Z.lor (Z.lor (Z.lor (Z.lor (Z.lor b0 (u64 (Z.shiftl b1 8)))
              (u64 (Z.shiftl b2 16))) (u64 (Z.shiftl b3 24))) (u64 (Z.shiftl b4 32)))
              (u64 (Z.shiftl b5 40))) (u64 (Z.shiftl b6 48))) (u64 (Z.shiftl b7 56))),
         Buf (bseek b + 8) (blength b) (bdata b))
    | _, _, _, _, _, _, _, _ => (Panic, b)
    end
  else (Err "error.seek", b).

(** xbase/buffer.go:129-143. *)
Definition WriteVarInt (v : Z) (b : buffer) : buffer :=
  if v <? 0xfd then WriteU8 (u8 v) b
  else if v <=? 0xffff then WriteU16 (u32 v) (WriteU8 0xfd b)
  else if v <=? 0xffffffff then WriteU32 (u32 v) (WriteU8 0xfe b)
  else WriteU64 v (WriteU8 0xff b).
(** xbase/buffer.go:146-176. *)
Definition ReadVarInt : BM Z :=
  do first <- ReadU8;
  if first =? 0xfd then ReadU16
  else if first =? 0xfe then ReadU32
  else if first =? 0xff then ReadU64
  else bret first.

(** xbase/buffer.go:180-199. *)
Definition VarIntSerializeSize (val : Z) : Z :=
  if val <? 0xfd then 1
  else if val <=? 0xffff then 3
  else if val <=? 0xffffffff then 5
  else 9.

(** xbase/buffer.go:202-205. *)
Definition WriteBytes (v : bytes) (b : buffer) : buffer :=
  Buf (bseek b) (blength b + len v) (bdata b ++ v).
(** xbase/buffer.go:208-220; [None] is Go's nil slice. *)
Definition ReadBytes (l : Z) : BM obytes := fun b =>
  if l =? 0 then (Ok None, b)
  else if check b l then
    if make_ok l 1 then
      match slice (bdata b) (bseek b) (i64 (bseek b + l)) with
      | Ok v => (Ok (Some v), Buf (bseek b + l) (blength b) (bdata b))
      | _ => (Panic, b)
      end
    else (Panic, b)
  else (Err "error.seek", b).

(** xbase/buffer.go:223-227. *)
Definition WriteVarBytes (v : bytes) (b : buffer) : buffer :=
  WriteBytes v (WriteVarInt (u64 (len v)) b).
(** xbase/buffer.go:230-236; the length is converted with [int(len)]. *)
Definition ReadVarBytes : BM obytes :=
  do l <- ReadVarInt; ReadBytes (i64 l).

(** xbase/buffer.go:239-241: a string is its bytes. *)
Definition WriteVarString (v : bytes) (b : buffer) : buffer := WriteVarBytes v b.
(** xbase/buffer.go:244-250. *)
Definition ReadVarString : BM bytes :=
  do d <- ReadVarBytes; bret (nilb d).

(** xbase/buffer.go:253-255. *)
Definition Bytes (b : buffer) : bytes := bdata b.
(** xbase/buffer.go:258-263. *)
Definition Remaining (b : buffer) : res bytes :=
  if make_ok (blength b - bseek b) 1 then slice (bdata b) (bseek b) (blength b) else Panic.
(** xbase/buffer.go:266-268. *)
Definition Seek (b : buffer) : Z := bseek b.
(** xbase/buffer.go:271-273. *)
Definition Len (b : buffer) : Z := blength b.
(** xbase/buffer.go:276-278. *)
Definition End (b : buffer) : bool := blength b <=? bseek b.
(** xbase/buffer.go:281-285. *)
Definition Reset (b : buffer) : buffer := Buf 0 0 [].
