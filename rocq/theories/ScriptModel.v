(** Model of /repo/xvm/instruction.go, scriptreader.go and scriptbuilder.go. *)
From Verif Require Import GoBase BufferModel ScriptNumModel.

(** instruction.go:16-19.  The opcode record is determined by its value; a nil and an empty [data] are not
    distinguished ([ReadBytes] returns nil for length 0, and nothing but the disassembler looks). *)
Record instruction := Instr { iop : Z; idata : bytes }.

(** instruction.go:94-220: the [length] field of the table, [None] for an opcode that is not in it. *)
Definition op_length (op : Z) : option Z :=
  if op =? 0 then Some 1
  else if (1 <=? op) && (op <=? 75) then Some (op + 1)
  else if op =? 0x4c then Some (-1)
  else if op =? 0x4d then Some (-2)
  else if op =? 0x4e then Some (-4)
  else if (0x51 <=? op) && (op <=? 0x60) then Some 1
  else if existsb (Z.eqb op)
    [0x63; 0x64; 0x67; 0x68; 0x6a;                        (* IF NOTIF ELSE ENDIF RETURN *)
     0x6e; 0x6f; 0x75; 0x76; 0x7c; 0x82;                  (* 2DUP 3DUP DROP DUP SWAP SIZE *)
     0x87; 0x88; 0x93; 0xa9; 0xac; 0xad; 0xae; 0xaf]      (* EQUAL EQUALVERIFY ADD HASH160 CHECK... *)
  then Some 1
  else None.

(** scriptreader.go:31-95. [None] is the nil instruction at the end of the script. *)
Definition NextInstruction : BM (option instruction) := fun b =>
  if End b then (Ok None, b) else
  (do rop <- ReadU8;
   match op_length rop with
   | None => bfail "script.instruction.unknown"
   | Some n =>
       if n =? 1 then bret (Some (Instr rop []))
       else if 1 <? n then do data <- ReadBytes (n - 1); bret (Some (Instr rop (nilb data)))
       else if n <? 0 then
         do l <- (if n =? -1 then ReadU8 else if n =? -2 then ReadU16 else if n =? -4 then ReadU32
                  else bfail "script.opcode.size.malformed");
         do data <- ReadBytes l; bret (Some (Instr rop (nilb data)))
       else bret (Some (Instr rop []))
   end) b.

(** scriptreader.go:98-111.  Every successful round consumes a byte, so [length script + 1] rounds are enough;
    running out of rounds is reported as [Panic] and proved impossible. *)
Fixpoint all_loop (fuel : nat) (instrs : list instruction) (b : buffer) : res (list instruction) :=
  match fuel with
  | O => Panic
  | S f => match NextInstruction b with
           | (Ok None, _) => Ok instrs
           | (Ok (Some i), b') => all_loop f (instrs ++ [i]) b'
           | (Err e, _) => Err e
           | (Panic, _) => Panic
           end
  end.
Definition AllInstructions (script : bytes) : res (list instruction) :=
  all_loop (S (length script)) [] (NewBufferReader script).

(** instruction.go:34-65; [op_length] of an instruction that was parsed is never [None]. *)
Definition instr_bytes (i : instruction) : bytes :=
  match op_length (iop i) with
  | None => []
  | Some n =>
      if n =? 1 then [iop i]
      else
        let l := len (idata i) in
        let mid :=
          if n <? 0 then
            if n =? -1 then [u8 l]
            else if n =? -2 then [u8 (Z.land l 0xff); u8 (Z.land (Z.shiftr l 8) 0xff)]
            else if n =? -4 then [u8 (Z.land l 0xff); u8 (Z.land (Z.shiftr l 8) 0xff);
                                  u8 (Z.land (Z.shiftr l 16) 0xff); u8 (Z.land (Z.shiftr l 24) 0xff)]
            else []
          else [] in
        ([iop i] ++ mid) ++ idata i
  end.

(** instruction.go:76-89. *)
Definition isConditional (i : instruction) : bool :=
  (iop i =? 0x63) || (iop i =? 0x64) || (iop i =? 0x67) || (iop i =? 0x68).

(** scriptreader.go:136-154. *)
Definition RemoveOpcode (buf : bytes) (opcode : Z) : res bytes :=
  match AllInstructions buf with
  | Err _ => Ok buf
  | Panic => Panic
  | Ok instrs => Ok (fold_left (fun rets i => if iop i =? opcode then rets else rets ++ instr_bytes i) instrs [])
  end.

(** scriptbuilder.go:43-91; the builder is its buffer (its [err] is only set by [Load]). *)
Definition AddData (data : bytes) (b : buffer) : buffer :=
  let l := len data in
  let push b :=
    WriteBytes data
      (if l <? 0x4c then WriteU8 (u8 (0 + l)) b
       else if l <=? 0xff then WriteU8 (u8 l) (WriteU8 0x4c b)
       else if l <=? 0xffff then WriteU16 (u32 l) (WriteU8 0x4d b)
       else WriteU32 (u32 l) (WriteU8 0x4e b)) in
  match data with
  | [] => WriteU8 0 b
  | [d0] => if d0 =? 0 then WriteU8 0 b
            else if d0 <=? 16 then WriteU8 (u8 (0x50 + d0)) b
            else if d0 =? 0x81 then WriteU8 0x4f b
            else WriteBytes data (WriteU8 (u8 (0 + l)) b)
  | _ => push b
  end.

(** scriptbuilder.go:94-97. *)
Definition AddOp (op : Z) (b : buffer) : buffer := WriteU8 op b.

(** scriptbuilder.go:100-110; [byte(OP_1 + val - 1)] wraps. *)
Definition AddInt64 (val : Z) (b : buffer) : res buffer :=
  if val =? 0 then Ok (WriteU8 0 b)
  else if (val =? -1) || ((1 <=? val) && (val <=? 16)) then Ok (WriteU8 (u8 (0x51 + val - 1)) b)
  else let! d := num_bytes val in Ok (AddData d b).

(** scriptbuilder.go:36-40 and 122-124. *)
Definition NewScriptBuilder : buffer := NewBuffer.
Definition Script (b : buffer) : bytes := Bytes b.
