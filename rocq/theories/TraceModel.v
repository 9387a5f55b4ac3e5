(** Model of the debugging side of the engine: /repo/xvm/trace.go, engine.go 45-52, 67-113 and 134-176, stack.go 190-204,
    scriptreader.go 114-116.

    [lastStack] and [lastOp], which nothing reads, are left out. *)
From Verif Require Import GoBase BufferModel ScriptModel HexModel Bip39Model AsmModel VmModel.

(** trace.go:9-14. *)
Record trace := Trace { tr_step : Z; tr_op : bytes; tr_stack : bytes; tr_rest : bytes }.

(** stack.go:190-204: the items from the bottom, which is the last one in the model of the stack. *)
Definition item_string (x : bytes) : bytes :=
  match x with [] => str_bytes " <empty> " | _ => str_bytes " <" ++ hex_encode x ++ str_bytes "> " end.
Definition StackString (s : stack) : bytes :=
  (match s with [] => str_bytes " <empty> " | _ => [] end) ++ concat (map item_string (rev s)).

Section Engine.
Variable Hash160 : bytes -> bytes.
Variable sigHasher : option (Z -> res bytes).
Variable sigVerifier : option (bytes -> bytes -> bytes -> res unit).
(** The text of an error (see AsmModel). *)
Variable error_text : string -> bytes.
(** engine.go:45-52: the debug flag. *)
Variable debug : bool.

(** scriptreader.go:114-116. *)
Definition DisasmRemaining (b : buffer) : res bytes := let! r := Remaining b in DisasmString error_text r.

(** What a run leaves: its result, the program counter (a uint64), and the rows recorded, oldest first. *)
Definition outcome := (res vm * Z * list trace)%type.

(** engine.go:67-81 and 136-157. *)
Fixpoint trace_loop (fuel : nat) (final : bool) (b : buffer) (st : vm) (pc : Z) (ts : list trace) : outcome :=
  match fuel with
  | O => (Panic, pc, ts)
  | S f =>
      let pc := u64 (pc + 1) in
      match NextInstruction b with
      | (Ok None, _) => (Ok st, pc, ts)
      | (Err e, _) => (Err e, pc, ts)
      | (Panic, _) => (Panic, pc, ts)
      | (Ok (Some i), b') =>
          match step Hash160 sigHasher sigVerifier i st with
          | Err e => (Err e, pc, ts)
          | Panic => (Panic, pc, ts)
          | Ok st' =>
              let cur := StackString (dstack st') in
              if debug && final then
                match DisasmRemaining b' with
                | Ok rest => trace_loop f final b' st' pc (ts ++ [Trace pc (op_name (iop i)) cur rest])
                | _ => (Panic, pc, ts)
                end
              else trace_loop f final b' st' pc ts
          end
      end
  end.

(** engine.go:134-171. *)
Definition execute_traced (program : bytes) (final : bool) (st : vm) (pc : Z) (ts : list trace) : outcome :=
  let '(r, pc, ts) := trace_loop (S (length program)) final (NewBufferReader program) st pc ts in
  (let! st' := r in finish final st', pc, ts).

(** engine.go:89-113 with engine.go:173-176. *)
Definition VerifyTraced (unlocking locking : bytes) (st : vm) (pc : Z) (ts : list trace) : outcome :=
  let '(r1, pc, ts) := execute_traced unlocking false st pc ts in
  match r1 with
  | Err e => (Err e, pc, ts)
  | Panic => (Panic, pc, ts)
  | Ok st1 =>
      let copyStk := dstack st1 in
      let '(r2, pc, ts) := execute_traced (unlocking ++ locking) true (Vm [] (cstack st1)) 0 ts in
      match r2 with
      | Err e => (Err e, pc, ts)
      | Panic => (Panic, pc, ts)
      | Ok st2 =>
          if 1 <? len (dstack st2) then
            match PopByteArray copyStk with
            | Ok (redeem, s) => execute_traced redeem true (Vm s (cstack st2)) pc ts
            | Err e => (Err e, pc, ts)
            | Panic => (Panic, pc, ts)
            end
          else (Ok st2, pc, ts)
      end
  end.
End Engine.
