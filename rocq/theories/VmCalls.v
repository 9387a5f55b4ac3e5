(** Which signature hashes an engine run asks for, in order.  The engine of /repo/xvm/engine.go calls its hasher from
    opCheckSig (instruction_crypto.go:54) and opCheckMultiSig (instruction_crypto.go:127); the hasher a transaction
    installs changes the transaction's digest caches, so the calls matter to what follows.  Same control flow as
    [VmModel]. *)
From Verif Require Import GoBase BufferModel ScriptNumModel ScriptModel VmModel.

Section Oracles.
Variable Hash160 : bytes -> bytes.
Variable hasher : Z -> res bytes.
Variable verifier : bytes -> bytes -> bytes -> res unit.
Notation step := (step Hash160 (Some hasher) (Some verifier)).
Notation execute := (execute Hash160 (Some hasher) (Some verifier)).

(** The hash type of a signature that is looked at. *)
Definition sig_call (sig : bytes) : list Z := match index sig (len sig - 1) with Ok ht => [ht] | _ => [] end.

(** instruction_crypto.go:28-54. *)
Definition checksig_calls (s : stack) : list Z := match s with _ :: sig :: _ => sig_call sig | _ => [] end.
(** instruction_crypto.go:123-141. *)
Fixpoint multisig_loop_calls (keys sigs : list bytes) : list Z :=
  match sigs, keys with
  | [], _ => []
  | _, [] => []
  | sig :: sigs', key :: keys' =>
      sig_call sig ++
      match verify_sig hasher verifier sig key with
      | Ok valid => let sigs2 := if valid then sigs' else sigs in
                    if len keys' <? len sigs2 then [] else multisig_loop_calls keys' sigs2
      | _ => []
      end
  end.
(** instruction_crypto.go:76-141. *)
Definition multisig_calls (s : stack) : list Z :=
  match (let! (numKeys, s1) := PopInt s in
         let n := Int32 numKeys in
         if n <? 0 then Panic else
         let! (keys, s2) := pop_items (Z.to_nat n) s1 in
         let! (numSignatures, s3) := PopInt s2 in
         let m := Int32 numSignatures in
         if n <? m then Err "opCheckMultiSig:more.signatures.than.pubkeys" else
         if m <? 0 then Panic else
         let! (sigs, s4) := pop_items (Z.to_nat m) s3 in
         let! (_, _) := PopByteArray s4 in Ok (keys, sigs)) with
  | Ok (keys, sigs) => multisig_loop_calls keys sigs
  | _ => []
  end.

Definition instr_calls (i : instruction) (st : vm) : list Z :=
  if branchShouldSkip st && negb (isConditional i) then []
  else if (iop i =? 0xac) || (iop i =? 0xad) then checksig_calls (dstack st)
  else if (iop i =? 0xae) || (iop i =? 0xaf) then multisig_calls (dstack st)
  else [].

(** engine.go:136-157. *)
Fixpoint exec_loop_calls (fuel : nat) (b : buffer) (st : vm) : list Z :=
  match fuel with
  | O => []
  | S f => match NextInstruction b with
           | (Ok (Some i), b') => instr_calls i st ++ match step i st with Ok st' => exec_loop_calls f b' st' | _ => [] end
           | _ => []
           end
  end.
Definition execute_calls (program : bytes) (st : vm) : list Z :=
  exec_loop_calls (S (length program)) (NewBufferReader program) st.

(** engine.go:89-113. *)
Definition verify_calls (unlocking locking : bytes) (st : vm) : list Z :=
  execute_calls unlocking st ++
  match execute unlocking false st with
  | Ok st1 =>
      execute_calls (unlocking ++ locking) (Vm [] (cstack st1)) ++
      match execute (unlocking ++ locking) true (Vm [] (cstack st1)) with
      | Ok st2 =>
          if 1 <? len (dstack st2) then
            match PopByteArray (dstack st1) with
            | Ok (redeem, s) => execute_calls redeem (Vm s (cstack st2))
            | _ => []
            end
          else []
      | _ => []
      end
  | _ => []
  end.
End Oracles.
