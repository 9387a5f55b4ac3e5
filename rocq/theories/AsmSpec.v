(** The assembly language for scripts, stated without the assembler. *)
From Verif Require Import GoBase BufferSpec ScriptNumSpec.
Local Open Scope Z_scope.

(** Names of the opcodes: the direct pushes and the numbers by formula, the others one by one. *)
Fixpoint decimal_up (fuel : nat) (n : Z) : bytes :=
  match fuel with
  | O => []
  | S f => if n <? 10 then [48 + n] else decimal_up f (n / 10) ++ [48 + n mod 10]
  end.
Inductive named : bytes -> Z -> Prop :=
| n_data n : 1 <= n <= 75 -> named (str_bytes "OP_DATA_" ++ decimal_up 3 n) n
| n_small n : 1 <= n <= 16 -> named (str_bytes "OP_" ++ decimal_up 3 n) (0x50 + n)
| n_other s op : In (s, op)
    [("OP_0", 0); ("OP_FALSE", 0); ("OP_TRUE", 0x51); ("OP_PUSHDATA1", 0x4c); ("OP_PUSHDATA2", 0x4d);
     ("OP_PUSHDATA4", 0x4e); ("OP_IF", 0x63); ("OP_NOTIF", 0x64); ("OP_ELSE", 0x67); ("OP_ENDIF", 0x68);
     ("OP_RETURN", 0x6a); ("OP_2DUP", 0x6e); ("OP_3DUP", 0x6f); ("OP_DROP", 0x75); ("OP_DUP", 0x76);
     ("OP_SWAP", 0x7c); ("OP_SIZE", 0x82); ("OP_EQUAL", 0x87); ("OP_EQUALVERIFY", 0x88); ("OP_ADD", 0x93);
     ("OP_HASH160", 0xa9); ("OP_CHECKSIG", 0xac); ("OP_CHECKSIGVERIFY", 0xad); ("OP_CHECKMULTISIG", 0xae);
     ("OP_CHECKMULTISIGVERIFY", 0xaf); ("OP_NOP2", 0xb1); ("OP_NOP3", 0xb2)]%string -> named (str_bytes s) op.

(** Decimal digits, most significant first. *)
Inductive digits : bytes -> Z -> Prop :=
| d_one c : 48 <= c <= 57 -> digits [c] (c - 48)
| d_more ds v c : digits ds v -> 48 <= c <= 57 -> digits (ds ++ [c]) (10 * v + (c - 48)).
Inductive number : bytes -> Z -> Prop :=
| num_plain ds v : digits ds v -> number ds v
| num_plus ds v : digits ds v -> number (43 :: ds) v
| num_minus ds v : digits ds v -> number (45 :: ds) (- v).

(** Pairs of hexadecimal digits. *)
Inductive hexdigit : Z -> Z -> Prop :=
| h_digit n : 0 <= n <= 9 -> hexdigit (48 + n) n
| h_lower n : 10 <= n <= 15 -> hexdigit (97 + (n - 10)) n
| h_upper n : 10 <= n <= 15 -> hexdigit (65 + (n - 10)) n.
Inductive hexes : bytes -> bytes -> Prop :=
| hx_nil : hexes [] []
| hx_cons a b x y t d : hexdigit a x -> hexdigit b y -> hexes t d -> hexes (a :: b :: t) (16 * x + y :: d).

(** The shortest push of a string: a number opcode, the length, or the length after an opcode. *)
Inductive shortest_push : bytes -> bytes -> Prop :=
| sp_empty : shortest_push [] [0]
| sp_zero : shortest_push [0] [0]
| sp_small n : 1 <= n <= 16 -> shortest_push [n] [0x50 + n]
| sp_minus : shortest_push [0x81] [0x4f]
| sp_direct d : 1 <= len d <= 75 -> (forall n, d = [n] -> 17 <= n /\ n <> 0x81) -> shortest_push d (len d :: d)
| sp_1 d : 76 <= len d <= 255 -> shortest_push d (0x4c :: len d :: d)
| sp_2 d l : 256 <= len d <= 65535 -> length l = 2%nat -> bytes_ok l -> le_value l = len d ->
    shortest_push d (0x4d :: l ++ d)
| sp_4 d l : 65536 <= len d -> length l = 4%nat -> bytes_ok l -> le_value l = len d ->
    shortest_push d (0x4e :: l ++ d).

(** What one word stands for. *)
Inductive means : bytes -> bytes -> Prop :=
| m_op w op : named w op -> means w [op]
| m_num w v d e : number w v -> - 2 ^ 63 < v < 2 ^ 63 -> bytes_ok d -> num_value d = v -> num_minimal d ->
    shortest_push d e -> means w e
| m_hex h d : hexes h d -> means (48 :: 120 :: h) d
| m_data h d e : hexes h d -> d <> [] -> shortest_push d e -> means (39 :: h ++ [39]) e.

(** Words with one blank between any two. *)
Definition blank (c : Z) : Prop := c = 32 \/ c = 10 \/ c = 9.
Inductive text_of : list bytes -> bytes -> Prop :=
| t_one w : Forall (fun c => ~ blank c) w -> text_of [w] w
| t_more w c ws t : Forall (fun c => ~ blank c) w -> blank c -> text_of ws t -> text_of (w :: ws) (w ++ c :: t).
