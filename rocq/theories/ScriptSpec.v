(** The script wire format, stated from the protocol's push rules rather than from the reader. *)
From Verif Require Import GoBase BufferSpec ScriptModel.

(** Supported one-byte instructions. *)
Definition plain_opcodes : list Z :=
  [0x00; 0x51; 0x52; 0x53; 0x54; 0x55; 0x56; 0x57; 0x58; 0x59; 0x5a; 0x5b; 0x5c; 0x5d; 0x5e; 0x5f; 0x60;
   0x63; 0x64; 0x67; 0x68; 0x6a; 0x6e; 0x6f; 0x75; 0x76; 0x7c; 0x82; 0x87; 0x88; 0x93; 0xa9; 0xac; 0xad; 0xae; 0xaf].

(** [encodes i e]: the bytes [e] are one instruction, [i]. *)
Inductive encodes : instruction -> bytes -> Prop :=
| enc_plain op : In op plain_opcodes -> encodes (Instr op []) [op]
| enc_direct op data : 1 <= op <= 75 -> len data = op -> encodes (Instr op data) (op :: data)
| enc_push1 n data : len data = n -> n < 2 ^ 8 -> encodes (Instr 0x4c data) (0x4c :: n :: data)
| enc_push2 l data : length l = 2%nat -> bytes_ok l -> le_value l = len data -> encodes (Instr 0x4d data) (0x4d :: l ++ data)
| enc_push4 l data : length l = 4%nat -> bytes_ok l -> le_value l = len data -> encodes (Instr 0x4e data) (0x4e :: l ++ data).

(** [script_of is d]: the script [d] is the instructions [is] one after the other. *)
Inductive script_of : list instruction -> bytes -> Prop :=
| so_nil : script_of [] []
| so_cons i e is d : encodes i e -> script_of is d -> script_of (i :: is) (e ++ d).

(** Scripts that exist in memory. *)
Definition in_memory (d : bytes) : Prop := bytes_ok d /\ len d <= 2 ^ 48.
