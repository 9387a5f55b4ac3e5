(** Model of /repo/xvm/stack.go, instruction_*.go and engine.go: the script engine.

    Simplifications: a nil and an empty stack item are one value (only [Stack.String] tells them apart); traces and
    debugging output are left out; the state of an engine after an error or a panic is not returned. *)
From Verif Require Import GoBase BufferModel ScriptNumModel ScriptModel.

(** stack.go:15-17: the data stack, top first. *)
Definition stack := list bytes.

(** stack.go:20-31. *)
Fixpoint asBool (t : bytes) : bool :=
  match t with
  | [] => false
  | x :: r => if x =? 0 then asBool r else negb (match r with [] => x =? 0x80 | _ => false end)
  end.
(** stack.go:34-39. *)
Definition BoolBytes (v : bool) : bytes := if v then [1] else [].

(** stack.go:103-110. *)
Definition PeekByteArray (idx : Z) (s : stack) : res bytes :=
  if (idx <? 0) || (len s - idx - 1 <? 0) then Err "script.stack.index.invalid" else index s idx.
(** stack.go:117-126. *)
Definition nipN (idx : Z) (s : stack) : res (bytes * stack) :=
  if (idx <? 0) || (len s - idx - 1 <? 0) then Err "script.stack.index.invalid"
  else let! so := index s idx in Ok (so, firstn (Z.to_nat idx) s ++ skipn (Z.to_nat idx + 1) s).
(** stack.go:55-63. *)
Definition PushByteArray (v : bytes) (s : stack) : stack := v :: s.
Definition PopByteArray (s : stack) : res (bytes * stack) := nipN 0 s.
(** stack.go:68-70. *)
Definition PushInt (v : Z) (s : stack) : res stack := let! b := num_bytes v in Ok (PushByteArray b s).
(** stack.go:76-82; defaultScriptNumMaxLen is 4. *)
Definition PopInt (s : stack) : res (Z * stack) :=
  let! (so, s') := PopByteArray s in let! n := MakeScriptNum so 4 in Ok (n, s').
(** stack.go:87-89. *)
Definition PushBool (v : bool) (s : stack) : stack := PushByteArray (BoolBytes v) s.
(** stack.go:94-100. *)
Definition PopBool (s : stack) : res (bool * stack) := let! (so, s') := PopByteArray s in Ok (asBool so, s').

(** stack.go:133-147, 153-165, 171-186: the loops of DupN, DropN and SwapN, [k] rounds left. *)
Fixpoint dup_loop (k : nat) (n : Z) (s : stack) : res stack :=
  match k with O => Ok s | S k' => let! so := PeekByteArray (n - 1) s in dup_loop k' n (PushByteArray so s) end.
Definition DupN (n : Z) (s : stack) : res stack := if n <? 1 then Err "script.stack.operation.invalid" else dup_loop (Z.to_nat n) n s.
Fixpoint drop_loop (k : nat) (s : stack) : res stack :=
  match k with O => Ok s | S k' => let! (_, s') := PopByteArray s in drop_loop k' s' end.
Definition DropN (n : Z) (s : stack) : res stack := if n <? 1 then Err "script.stack.operation.invalid" else drop_loop (Z.to_nat n) s.
Fixpoint swap_loop (k : nat) (entry : Z) (s : stack) : res stack :=
  match k with O => Ok s | S k' => let! (so, s') := nipN entry s in swap_loop k' entry (PushByteArray so s') end.
Definition SwapN (n : Z) (s : stack) : res stack :=
  if n <? 1 then Err "script.stack.operation.invalid" else swap_loop (Z.to_nat n) (2 * n - 1) s.

(** engine.go:23-35: what an engine carries from instruction to instruction; [cstack] top first. *)
Record vm := Vm { dstack : stack; cstack : list Z }.
(** engine.go:38-42. *)
Definition NewEngine : vm := Vm [] [].

Section Oracles.
(** xcrypto.Hash160, and the two callbacks of the engine (nil is [None]).  The verifier's nil error is [Ok tt]. *)
Variable Hash160 : bytes -> bytes.
Variable sigHasher : option (Z -> res bytes).
Variable sigVerifier : option (bytes -> bytes -> bytes -> res unit).

(** engine.go:178-183; OpCondTrue is 1, OpCondFalse 0, OpCondSkip 2. *)
Definition branchShouldSkip (st : vm) : bool := match cstack st with [] => false | c :: _ => negb (c =? 1) end.

Definition on_stack (f : stack -> res stack) (st : vm) : res vm := let! s := f (dstack st) in Ok (Vm s (cstack st)).

(** instruction_bitwise.go:17-57. *)
Definition opFalse : vm -> res vm := on_stack (fun s => Ok (PushByteArray [] s)).
Definition opEqual : vm -> res vm := on_stack (fun s =>
  let! (a, s1) := PopByteArray s in let! (b, s2) := PopByteArray s1 in Ok (PushBool (list_Z_eqb a b) s2)).
Definition equalVerify (operr : string) : vm -> res vm := on_stack (fun s =>
  let! (v, s') := PopBool s in if v then Ok s' else Err operr).
Definition opEqualVerify (st : vm) : res vm := let! st' := opEqual st in equalVerify "opEqualVerify" st'.

(** instruction_pushdata.go:8-20. *)
Definition opPushData (data : bytes) : vm -> res vm := on_stack (fun s => Ok (PushByteArray data s)).
Definition opN (op : Z) : vm -> res vm := on_stack (PushInt (u8 (op - 0x50))).

(** instruction_stack.go:8-45. *)
Definition opDup : vm -> res vm := on_stack (DupN 1).
Definition op2Dup : vm -> res vm := on_stack (DupN 2).
Definition op3Dup : vm -> res vm := on_stack (DupN 3).
Definition opSwap : vm -> res vm := on_stack (SwapN 1).
Definition opSize : vm -> res vm := on_stack (fun s => let! so := PeekByteArray 0 s in PushInt (len so) s).
Definition opDrop : vm -> res vm := on_stack (DropN 1).

(** instruction_numeric.go:10-26. *)
Definition opAdd : vm -> res vm := on_stack (fun s =>
  let! (v0, s1) := PopInt s in let! (v1, s2) := PopInt s1 in PushInt (i64 (v0 + v1)) s2).

(** instruction_crypto.go:17-24. *)
Definition opHash160 : vm -> res vm := on_stack (fun s => let! (x, s') := PopByteArray s in Ok (PushByteArray (Hash160 x) s')).

(** instruction_crypto.go:49-61 and 124-136: [sig[len-1]], [sig[:len-1]], hash, verify.
    True when the verifier returns nil. *)
Definition verify_sig (hasher : Z -> res bytes) (verifier : bytes -> bytes -> bytes -> res unit) (sig pubkey : bytes) : res bool :=
  let! hashType := index sig (len sig - 1) in
  let! sigDER := slice sig 0 (len sig - 1) in
  let! hash := hasher hashType in
  match verifier hash sigDER pubkey with Ok _ => Ok true | Err _ => Ok false | Panic => Panic end.

(** instruction_crypto.go:28-62. *)
Definition opCheckSig : vm -> res vm := on_stack (fun s =>
  match sigHasher, sigVerifier with
  | None, _ => Err "opCheckSig:vm.signature.hasher.func.is.nil"
  | _, None => Err "opCheckSig:vm.signature.verifier.func.is.nil"
  | Some hasher, Some verifier =>
      let! (pubkey, s1) := PopByteArray s in
      let! (sig, s2) := PopByteArray s1 in
      if len sig <? 1 then Ok (PushBool false s2)
      else let! ok := verify_sig hasher verifier sig pubkey in Ok (PushBool ok s2)
  end).
Definition opCheckSigVerify (st : vm) : res vm := let! st' := opCheckSig st in equalVerify "opCheckSigVerify" st'.

(** instruction_crypto.go:84-90 and 102-108: pop [k] items, first popped first. *)
Fixpoint pop_items (k : nat) (s : stack) : res (list bytes * stack) :=
  match k with
  | O => Ok ([], s)
  | S k' => let! (x, s1) := PopByteArray s in let! (xs, s2) := pop_items k' s1 in Ok (x :: xs, s2)
  end.

(** instruction_crypto.go:123-141.  The lists are [pubKeys[pubKeyIdx:]] and [signatures[sigIdx:]]; calling a nil
    callback panics. *)
Fixpoint multisig_loop (keys sigs : list bytes) : res bool :=
  match sigs, keys with
  | [], _ => Ok true
  | _, [] => Ok true
  | sig :: sigs', key :: keys' =>
      let! valid :=
        match sigHasher, sigVerifier with
        | Some hasher, Some verifier => verify_sig hasher verifier sig key
        | Some hasher, None => let! hashType := index sig (len sig - 1) in let! _ := hasher hashType in Panic
        | None, _ => Panic
        end in
      let sigs2 := if valid then sigs' else sigs in
      if len keys' <? len sigs2 then Ok false else multisig_loop keys' sigs2
  end.

(** instruction_crypto.go:76-143.  [make] with a negative length panics. *)
Definition opCheckMultiSig : vm -> res vm := on_stack (fun s =>
  let! (numKeys, s1) := PopInt s in
  let n := Int32 numKeys in
  if n <? 0 then Panic else
  let! (keys, s2) := pop_items (Z.to_nat n) s1 in
  let! (numSignatures, s3) := PopInt s2 in
  let m := Int32 numSignatures in
  if n <? m then Err "opCheckMultiSig:more.signatures.than.pubkeys" else
  if m <? 0 then Panic else
  let! (sigs, s4) := pop_items (Z.to_nat m) s3 in
  let! (_, s5) := PopByteArray s4 in
  let! success := multisig_loop keys sigs in
  Ok (PushBool success s5)).
Definition opCheckMultiSigVerify (st : vm) : res vm := let! st' := opCheckMultiSig st in equalVerify "opCheckMultiSigVerify" st'.

(** instruction_flowcontrol.go:100-118. *)
Definition popIfBool (s : stack) : res (bool * stack) :=
  let! (so, s') := PopByteArray s in
  if 1 <? len so then Err "popIfBool.minimal.if" else
  match so with
  | [x] => if x =? 1 then Ok (asBool so, s') else Err "popIfBool.minimal.if"
  | _ => Ok (asBool so, s')
  end.

(** instruction_flowcontrol.go:15-17. *)
Definition opReturn (st : vm) : res vm := Ok st.
(** instruction_flowcontrol.go:26-65. *)
Definition opIf (st : vm) : res vm :=
  if branchShouldSkip st then Ok (Vm (dstack st) (2 :: cstack st))
  else let! (ok, s') := popIfBool (dstack st) in Ok (Vm s' ((if ok then 1 else 0) :: cstack st)).
Definition opNotIf (st : vm) : res vm :=
  if branchShouldSkip st then Ok (Vm (dstack st) (2 :: cstack st))
  else let! (ok, s') := popIfBool (dstack st) in Ok (Vm s' ((if ok then 0 else 1) :: cstack st)).
(** instruction_flowcontrol.go:70-94. *)
Definition opElse (st : vm) : res vm :=
  match cstack st with
  | [] => Err "opElse.no.matching.opcode"
  | c :: r => Ok (Vm (dstack st) ((if c =? 1 then 0 else if c =? 0 then 1 else c) :: r))
  end.
Definition opEndIf (st : vm) : res vm :=
  match cstack st with
  | [] => Err "opEndIf.no.matching.opcode"
  | _ :: r => Ok (Vm (dstack st) r)
  end.

(** instruction.go:94-220: the [opfunc] field.  Opcodes outside the table never reach an instruction. *)
Definition opfunc (i : instruction) : vm -> res vm :=
  let op := iop i in
  if op =? 0 then opFalse
  else if (1 <=? op) && (op <=? 0x4e) then opPushData (idata i)
  else if (0x51 <=? op) && (op <=? 0x60) then opN op
  else if op =? 0x63 then opIf
  else if op =? 0x64 then opNotIf
  else if op =? 0x67 then opElse
  else if op =? 0x68 then opEndIf
  else if op =? 0x6a then opReturn
  else if op =? 0x6e then op2Dup
  else if op =? 0x6f then op3Dup
  else if op =? 0x75 then opDrop
  else if op =? 0x76 then opDup
  else if op =? 0x7c then opSwap
  else if op =? 0x82 then opSize
  else if op =? 0x87 then opEqual
  else if op =? 0x88 then opEqualVerify
  else if op =? 0x93 then opAdd
  else if op =? 0xa9 then opHash160
  else if op =? 0xac then opCheckSig
  else if op =? 0xad then opCheckSigVerify
  else if op =? 0xae then opCheckMultiSig
  else if op =? 0xaf then opCheckMultiSigVerify
  else fun _ => Panic.

(** engine.go:74-79. *)
Definition step (i : instruction) (st : vm) : res vm :=
  if branchShouldSkip st && negb (isConditional i) then Ok st else opfunc i st.

(** engine.go:136-157.  Each round reads an instruction, so [length program + 1] rounds are enough; running out of
    rounds is reported as [Panic] and proved impossible. *)
Fixpoint exec_loop (fuel : nat) (b : buffer) (st : vm) : res vm :=
  match fuel with
  | O => Panic
  | S f => match NextInstruction b with
           | (Ok None, _) => Ok st
           | (Ok (Some i), b') => let! st' := step i st in exec_loop f b' st'
           | (Err e, _) => Err e
           | (Panic, _) => Panic
           end
  end.

(** engine.go:159-170. *)
Definition finish (final : bool) (st : vm) : res vm :=
  if final && (0 <? len (dstack st)) then
    let! (v, s') := PopBool (dstack st) in
    if v then Ok (Vm s' (cstack st)) else Err "false.stack.entry.at.end.of.script.execution"
  else Ok st.

(** engine.go:134-171. *)
Definition execute (program : bytes) (final : bool) (st : vm) : res vm :=
  let! st' := exec_loop (S (length program)) (NewBufferReader program) st in finish final st'.

(** engine.go:84-86. *)
Definition Execute (program : bytes) (st : vm) : res vm := execute program true st.

(** engine.go:89-113.  The control stack is not reset between the runs. *)
Definition Verify (unlocking locking : bytes) (st : vm) : res vm :=
  let! st1 := execute unlocking false st in
  let copyStk := dstack st1 in
  let! st2 := execute (unlocking ++ locking) true (Vm [] (cstack st1)) in
  if 1 <? len (dstack st2) then
    let! (redeem, s) := PopByteArray copyStk in
    execute redeem true (Vm s (cstack st2))
  else Ok st2.
End Oracles.
