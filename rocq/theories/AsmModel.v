(** Model of the text side of scripts: /repo/xvm/scriptbuilder.go 113-166 and /repo/xvm/scriptreader.go 113-133. *)
From Verif Require Import GoBase BufferModel ScriptNumModel ScriptModel HexModel Bip39Model.
Local Open Scope string_scope.

(** instruction.go:94-220: the [value] and [name] fields of the table. *)
Definition op_table : list (Z * string) :=
  [(0, "OP_0"); (1, "OP_DATA_1"); (2, "OP_DATA_2"); (3, "OP_DATA_3"); (4, "OP_DATA_4"); (5, "OP_DATA_5");
   (6, "OP_DATA_6"); (7, "OP_DATA_7"); (8, "OP_DATA_8"); (9, "OP_DATA_9"); (10, "OP_DATA_10");
   (11, "OP_DATA_11"); (12, "OP_DATA_12"); (13, "OP_DATA_13"); (14, "OP_DATA_14"); (15, "OP_DATA_15");
   (16, "OP_DATA_16"); (17, "OP_DATA_17"); (18, "OP_DATA_18"); (19, "OP_DATA_19"); (20, "OP_DATA_20");
   (21, "OP_DATA_21"); (22, "OP_DATA_22"); (23, "OP_DATA_23"); (24, "OP_DATA_24"); (25, "OP_DATA_25");
   (26, "OP_DATA_26"); (27, "OP_DATA_27"); (28, "OP_DATA_28"); (29, "OP_DATA_29"); (30, "OP_DATA_30");
   (31, "OP_DATA_31"); (32, "OP_DATA_32"); (33, "OP_DATA_33"); (34, "OP_DATA_34"); (35, "OP_DATA_35");
   (36, "OP_DATA_36"); (37, "OP_DATA_37"); (38, "OP_DATA_38"); (39, "OP_DATA_39"); (40, "OP_DATA_40");
   (41, "OP_DATA_41"); (42, "OP_DATA_42"); (43, "OP_DATA_43"); (44, "OP_DATA_44"); (45, "OP_DATA_45");
   (46, "OP_DATA_46"); (47, "OP_DATA_47"); (48, "OP_DATA_48"); (49, "OP_DATA_49"); (50, "OP_DATA_50");
   (51, "OP_DATA_51"); (52, "OP_DATA_52"); (53, "OP_DATA_53"); (54, "OP_DATA_54"); (55, "OP_DATA_55");
   (56, "OP_DATA_56"); (57, "OP_DATA_57"); (58, "OP_DATA_58"); (59, "OP_DATA_59"); (60, "OP_DATA_60");
   (61, "OP_DATA_61"); (62, "OP_DATA_62"); (63, "OP_DATA_63"); (64, "OP_DATA_64"); (65, "OP_DATA_65");
   (66, "OP_DATA_66"); (67, "OP_DATA_67"); (68, "OP_DATA_68"); (69, "OP_DATA_69"); (70, "OP_DATA_70");
   (71, "OP_DATA_71"); (72, "OP_DATA_72"); (73, "OP_DATA_73"); (74, "OP_DATA_74"); (75, "OP_DATA_75");
   (0x4c, "OP_PUSHDATA1"); (0x4d, "OP_PUSHDATA2"); (0x4e, "OP_PUSHDATA4"); (0x51, "OP_1"); (0x52, "OP_2");
   (0x53, "OP_3"); (0x54, "OP_4"); (0x55, "OP_5"); (0x56, "OP_6"); (0x57, "OP_7"); (0x58, "OP_8");
   (0x59, "OP_9"); (0x5a, "OP_10"); (0x5b, "OP_11"); (0x5c, "OP_12"); (0x5d, "OP_13"); (0x5e, "OP_14");
   (0x5f, "OP_15"); (0x60, "OP_16"); (0x63, "OP_IF"); (0x64, "OP_NOTIF"); (0x67, "OP_ELSE");
   (0x68, "OP_ENDIF"); (0x6a, "OP_RETURN"); (0x6e, "OP_2DUP"); (0x6f, "OP_3DUP"); (0x76, "OP_DUP");
   (0x75, "OP_DROP"); (0x82, "OP_SIZE"); (0x7c, "OP_SWAP"); (0x87, "OP_EQUAL"); (0x88, "OP_EQUALVERIFY");
   (0x93, "OP_ADD"); (0xa9, "OP_HASH160"); (0xac, "OP_CHECKSIG"); (0xad, "OP_CHECKSIGVERIFY");
   (0xae, "OP_CHECKMULTISIG"); (0xaf, "OP_CHECKMULTISIGVERIFY")].

Local Open Scope Z_scope.
Definition op_name (op : Z) : bytes :=
  match find (fun p => fst p =? op) op_table with Some (_, n) => str_bytes n | None => [] end.

(** instruction.go:222-232: the names, with the four that [init] adds.  The Go map is filled in no particular
    order; no name is used twice. *)
Definition op_aliases : list (Z * string) :=
  [(0x00, "OP_FALSE"%string); (0x51, "OP_TRUE"%string); (0xb1, "OP_NOP2"%string); (0xb2, "OP_NOP3"%string)].
Definition opcodesByName (token : bytes) : option Z :=
  match find (fun p => list_Z_eqb (str_bytes (snd p)) token) (op_aliases ++ op_table) with
  | Some (op, _) => Some op
  | None => None
  end.

(** strconv.ParseInt(s, 10, 64): an optional sign and at least one decimal digit, in the range of int64. *)
Definition digit (c : Z) : bool := (48 <=? c) && (c <=? 57).
Definition parse_digits (neg : bool) (ds : bytes) : option Z :=
  if (0 <? len ds) && forallb digit ds then
    let v := fold_left (fun acc c => acc * 10 + (c - 48)) ds 0 in
    if neg then if v <=? 2 ^ 63 then Some (- v) else None
    else if v <? 2 ^ 63 then Some v else None
  else None.
Definition ParseInt64 (s : bytes) : option Z :=
  match s with
  | c :: r => if c =? 43 then parse_digits false r else if c =? 45 then parse_digits true r else parse_digits false s
  | [] => None
  end.

(** What hex.DecodeString returns besides an error: the bytes decoded before it. *)
Fixpoint hex_prefix (s : bytes) : bytes :=
  match s with
  | a :: b :: r =>
      match fromHexChar a, fromHexChar b with
      | Some x, Some y => Z.lor (Z.shiftl x 4) y :: hex_prefix r
      | _, _ => []
      end
  | _ => []
  end.

(** scriptbuilder.go:132-137. *)
Definition parseHex (tok : bytes) : res bytes :=
  match tok with
  | 48 :: 120 :: r => hex_decode r
  | _ => Err "not.a.hex.number"
  end.

(** scriptbuilder.go:144-162: one round of the loop; [None] is the token that ends it. *)
Definition load_token (token : bytes) (b : buffer) : res (option buffer) :=
  match opcodesByName token with
  | Some op => Ok (Some (AddOp op b))
  | None =>
      match ParseInt64 token with
      | Some num => let! b' := AddInt64 num b in Ok (Some b')
      | None =>
          match parseHex token with
          | Ok bts => Ok (Some (WriteBytes bts b))
          | Panic => Panic
          | Err _ =>
              let tlen := len token in
              if (2 <? tlen) && (hd 0 token =? 39) && (last token 0 =? 39)
              then Ok (Some (AddData (hex_prefix (removelast (tl token))) b))
              else Ok None
          end
      end
  end.

Fixpoint load_loop (tokens : list bytes) (b : buffer) : res (buffer * bool) :=
  match tokens with
  | [] => Ok (b, true)
  | t :: ts =>
      match load_token t b with
      | Ok (Some b') => load_loop ts b'
      | Ok None => Ok (b, false)
      | Err e => Err e
      | Panic => Panic
      end
  end.

(** scriptbuilder.go:141-143: newlines and tabs become spaces; scriptbuilder.go:140-166: Load.  The flag is false
    when [err] was set. *)
Definition white (c : Z) : Z := if (c =? 10) || (c =? 9) then 32 else c.
Definition LoadScript (script : bytes) (b : buffer) : res (buffer * bool) := load_loop (Split (map white script)) b.

(** scriptbuilder.go:36-40, 140-166 and 120-124: NewScriptBuilder().Load(text).Script(). *)
Definition assemble (text : bytes) : res bytes :=
  let! (b, good) := LoadScript text NewScriptBuilder in
  if good : bool then Ok (Script b) else Err "unknow.token".

(** scriptreader.go:119-133.  The text of an error is an argument: it is what is returned for a script that does
    not parse. *)
Definition instr_words (i : instruction) : list bytes :=
  op_name (iop i) :: match idata i with [] => [] | d => [hex_encode d] end.
Definition DisasmString (error_text : string -> bytes) (script : bytes) : res bytes :=
  match AllInstructions script with
  | Err e => Ok (error_text e)
  | Panic => Panic
  | Ok instrs => Ok (Join (flat_map instr_words instrs))
  end.
