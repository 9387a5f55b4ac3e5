(** What scripts mean, stated without the engine. *)
From Verif Require Import GoBase BufferSpec ScriptNumSpec ScriptModel ScriptSpec.

(** An instruction that only pushes the constant [d]. *)
Inductive pushes : instruction -> bytes -> Prop :=
| push_empty : pushes (Instr 0 []) []
| push_data op d : 1 <= op <= 0x4e -> pushes (Instr op d) d
| push_small n : 1 <= n <= 16 -> pushes (Instr (0x50 + n) []) [n].

(** [enc_num v n]: [v] is the shortest byte string denoting [n]. *)
Definition enc_num (v : bytes) (n : Z) : Prop := bytes_ok v /\ num_value v = n /\ num_minimal v.

(** A stack item usable as a number: minimal and at most 4 bytes. *)
Definition num_item (v : bytes) (n : Z) : Prop := enc_num v n /\ len v <= 4.

(** Documented effect of the data opcodes on the stack, top first. *)
Inductive effect (H : bytes -> bytes) : Z -> list bytes -> list bytes -> Prop :=
| eff_dup x s : effect H 0x76 (x :: s) (x :: x :: s)
| eff_2dup x y s : effect H 0x6e (x :: y :: s) (x :: y :: x :: y :: s)
| eff_3dup x y z s : effect H 0x6f (x :: y :: z :: s) (x :: y :: z :: x :: y :: z :: s)
| eff_drop x s : effect H 0x75 (x :: s) s
| eff_swap x y s : effect H 0x7c (x :: y :: s) (y :: x :: s)
| eff_size x s v : enc_num v (len x) -> effect H 0x82 (x :: s) (v :: x :: s)
| eff_equal_t x s : effect H 0x87 (x :: x :: s) ([1] :: s)
| eff_equal_f x y s : x <> y -> effect H 0x87 (x :: y :: s) ([] :: s)
| eff_equalverify x s : effect H 0x88 (x :: x :: s) s
| eff_add x y s v a b : num_item x a -> num_item y b -> enc_num v (a + b) -> effect H 0x93 (x :: y :: s) (v :: s)
| eff_hash160 x s : effect H 0xa9 (x :: s) (H x :: s)
| eff_false s : effect H 0x00 s ([] :: s)
| eff_const n s : 1 <= n <= 16 -> effect H (0x50 + n) s ([n] :: s).
Definition data_opcodes : list Z :=
  [0x76; 0x6e; 0x6f; 0x75; 0x7c; 0x82; 0x87; 0x88; 0x93; 0xa9; 0x00;
   0x51; 0x52; 0x53; 0x54; 0x55; 0x56; 0x57; 0x58; 0x59; 0x5a; 0x5b; 0x5c; 0x5d; 0x5e; 0x5f; 0x60].

(** A signature with its hash-type byte is valid for a key. *)
Definition valid_sig (hasher : Z -> res bytes) (verifier : bytes -> bytes -> bytes -> res unit) (sig key : bytes) : Prop :=
  exists der ht h, sig = der ++ [ht] /\ hasher ht = Ok h /\ verifier h der key = Ok tt.

(** The signatures can be matched, in order, with a subsequence of the keys. *)
Inductive matched {A B} (valid : A -> B -> Prop) : list A -> list B -> Prop :=
| m_nil ks : matched valid [] ks
| m_take s ss k ks : valid s k -> matched valid ss ks -> matched valid (s :: ss) (k :: ks)
| m_skip ss k ks : matched valid ss ks -> matched valid ss (k :: ks).

(** Structured programs: a sequence of plain instructions and conditionals, with or without ELSE. *)
Inductive prog :=
| PNil
| POp (i : instruction) (rest : prog)
| PIf (negated : bool) (yes : prog) (no : option prog) (rest : prog).

(** The flat script of a structured program. *)
Fixpoint flatten (p : prog) : list instruction :=
  match p with
  | PNil => []
  | POp i r => i :: flatten r
  | PIf neg y no r =>
      Instr (if neg then 0x64 else 0x63) [] :: flatten y ++
      (match no with None => [] | Some n => Instr 0x67 [] :: flatten n end) ++ Instr 0x68 [] :: flatten r
  end.

(** No conditional instruction outside the structure. *)
Fixpoint plain_prog (p : prog) : Prop :=
  match p with
  | PNil => True
  | POp i r => ~ In (iop i) [0x63; 0x64; 0x67; 0x68] /\ plain_prog r
  | PIf _ y no r => plain_prog y /\ match no with None => True | Some n => plain_prog n end /\ plain_prog r
  end.

(** Structured execution: a plain instruction acts on the stack by [act]; a conditional pops its condition, which must
    be empty (false) or 01 (true), and runs the selected branch only. *)
Fixpoint structured {S} (act : instruction -> S -> res S) (pop : S -> option (bytes * S)) (p : prog) (s : S) : option S :=
  match p with
  | PNil => Some s
  | POp i r => match act i s with Ok s' => structured act pop r s' | _ => None end
  | PIf neg y no r =>
      match pop s with
      | Some (c, s1) =>
          let branch (b : bool) :=
            if b then structured act pop y s1
            else match no with None => Some s1 | Some n => structured act pop n s1 end in
          let after b := match branch b with Some s2 => structured act pop r s2 | None => None end in
          match c with
          | [] => after neg
          | [x] => if x =? 1 then after (negb neg) else None
          | _ => None
          end
      | None => None
      end
  end.
