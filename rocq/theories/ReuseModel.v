(** Model of buffers in memory: what /repo/xbase/buffer.go and /repo/xvm/scriptbuilder.go hand out and write again.

    A buffer is the slice [data]; [seek] and [length] do not matter for writing and are left out (BufferModel has them).
    Every [append] of a method is one element of the list of chunks it writes. *)
From Verif Require Import GoBase BufferModel ScriptNumModel ScriptModel MemModel.

(** buffer.go:40-43, 56-60, 75-81, 98-108 and 202-205: the appends of one call. *)
Definition w_u8 (v : Z) : list bytes := [[v]].
Definition w_u16 (v : Z) : list bytes := [[u8 v]; [u8 (Z.shiftr v 8)]].
Definition w_u32 (v : Z) : list bytes := [[u8 v]; [u8 (Z.shiftr v 8)]; [u8 (Z.shiftr v 16)]; [u8 (Z.shiftr v 24)]].
Definition w_u64 (v : Z) : list bytes :=
  [[u8 v]; [u8 (Z.shiftr v 8)]; [u8 (Z.shiftr v 16)]; [u8 (Z.shiftr v 24)];
   [u8 (Z.shiftr v 32)]; [u8 (Z.shiftr v 40)]; [u8 (Z.shiftr v 48)]; [u8 (Z.shiftr v 56)]].
Definition w_bytes (v : bytes) : list bytes := [v].
(** buffer.go:129-143 and 223-227. *)
Definition w_varint (v : Z) : list bytes :=
  if v <? 0xfd then w_u8 (u8 v)
  else if v <=? 0xffff then w_u8 0xfd ++ w_u16 (u32 v)
  else if v <=? 0xffffffff then w_u8 0xfe ++ w_u32 (u32 v)
  else w_u8 0xff ++ w_u64 v.
Definition w_varbytes (v : bytes) : list bytes := w_varint (u64 (len v)) ++ w_bytes v.
(** scriptbuilder.go:43-88 and 91-94. *)
Definition w_data (data : bytes) : list bytes :=
  let l := len data in
  let long :=
    (if l <? 0x4c then w_u8 (u8 (0x01 - 1 + l))
     else if l <=? 0xff then w_u8 0x4c ++ w_u8 (u8 l)
     else if l <=? 0xffff then w_u8 0x4d ++ w_u16 (u32 l)
     else w_u8 0x4e ++ w_u32 (u32 l)) ++ w_bytes data in
  match data with
  | [] => w_u8 0
  | [x] => if x =? 0 then w_u8 0 else if x <=? 16 then w_u8 (u8 (0x51 - 1 + x)) else if x =? 0x81 then w_u8 0x4f else long
  | _ => long
  end.
Definition w_op (op : Z) : list bytes := w_u8 op.

(** A program using buffers: [BNew] is NewBuffer, [BWrite i cs] a method of buffer [i] which appends [cs], [BReset i] is
    Reset (buffer.go:281-285), [BTake i] a call of Bytes or Script (buffer.go:253-255, scriptbuilder.go:122-124) whose
    result the program keeps. *)
Inductive bop := BNew | BWrite (i : nat) (cs : list bytes) | BReset (i : nat) | BTake (i : nat).

Section Run.
Variable grow : nat -> nat -> nat.
Fixpoint appends (h : @heap Z) (s : slice) (cs : list bytes) : @heap Z * slice :=
  match cs with [] => (h, s) | c :: r => let (h', s') := go_append 0 grow h s c in appends h' s' r end.

(** The memory, the buffers and the slices taken (latest first), each with what it held when it was taken. *)
Record world := World { w_heap : @heap Z; w_bufs : list slice; w_out : list (slice * bytes) }.
Definition buf_op (w : world) (o : bop) : world :=
  let 'World h bs out := w in
  match o with
  | BNew => World h (bs ++ [empty_slice]) out
  | BWrite i cs =>
      match nth_error bs i with
      | Some s => let (h', s') := appends h s cs in World h' (upd i s' bs) out
      | None => w
      end
  | BReset i => match nth_error bs i with Some s => World h (upd i (slice_to s 0) bs) out | None => w end
  | BTake i => match nth_error bs i with Some s => World h bs ((s, read h s) :: out) | None => w end
  end.
Definition buf_run (w : world) (os : list bop) : world := fold_left buf_op os w.
End Run.
