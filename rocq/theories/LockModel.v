(** Model of /repo/xcore/script.go, script_p2pkh.go, script_p2sh.go, script_p2wpkh_v0.go, script_p2wsh_v0.go and
    script_multsig.go: the standard script objects.  [ScriptBuilder.Script] never returns an error here, since the
    builder's error is only set by its text assembler, so the [error] results of the getters are dropped where they
    are always nil. *)
From Verif Require Import GoBase BufferModel ScriptModel AddressModel AddressSpec.

(** The four implementations of the [Script] interface; each holds the hash it was made with. *)
Inductive script_obj :=
| P2PKH (hash : bytes)
| P2SH (hash : bytes)
| P2WPKH (hash : bytes)
| P2WSH (hash : bytes).

(** script.go:24-28. *)
Record PubKeySign := PKS { pks_key : bytes; pks_sig : bytes }.

(** [instrs[k].OpCode() == op] after the length test. *)
Definition op_at (is : list instruction) (k : nat) (op : Z) : bool :=
  match nth_error is k with Some i => iop i =? op | None => false end.
(** [instrs[k].Data()]. *)
Definition data_at (is : list instruction) (k : nat) : bytes := match nth_error is k with Some i => idata i | None => [] end.

(** script_p2pkh.go:86-93, script_p2sh.go:89-94, script_p2wpkh_v0.go:88-92, script_p2wsh_v0.go:119-123. *)
Definition isPubkeyHash (is : list instruction) : bool :=
  (len is =? 5) && op_at is 0 0x76 && op_at is 1 0xa9 && op_at is 2 0x14 && op_at is 3 0x88 && op_at is 4 0xac.
Definition isScriptHash (is : list instruction) : bool :=
  (len is =? 3) && op_at is 0 0xa9 && op_at is 1 0x14 && op_at is 2 0x87.
Definition isWitnessV0PubKeyHash (is : list instruction) : bool := (len is =? 2) && op_at is 0 0x00 && op_at is 1 0x14.
Definition isWitnessV0ScriptHash (is : list instruction) : bool := (len is =? 2) && op_at is 0 0x00 && op_at is 1 0x20.

(** script.go:62-78. *)
Definition ParseLockingScript (script : bytes) : res script_obj :=
  let! is := AllInstructions script in
  if isPubkeyHash is then Ok (P2PKH (data_at is 2))
  else if isScriptHash is then Ok (P2SH (data_at is 1))
  else if isWitnessV0PubKeyHash is then Ok (P2WPKH (data_at is 1))
  else if isWitnessV0ScriptHash is then Ok (P2WSH (data_at is 1))
  else Err "script.type.unknown".

(** GetAddress: script_p2pkh.go:25, script_p2sh.go:25, script_p2wpkh_v0.go:26, script_p2wsh_v0.go:30. *)
Definition GetAddress (s : script_obj) : option address :=
  match s with
  | P2PKH h => NewPayToPubKeyHashAddress h
  | P2SH h => NewPayToScriptHashAddress h
  | P2WPKH h => NewPayToWitnessV0PubKeyHashAddress h
  | P2WSH h => NewPayToWitnessV0ScriptHashAddress h
  end.

(** GetRawLockingScriptBytes: script_p2pkh.go:39-47, script_p2sh.go:37-43, script_p2wpkh_v0.go:37-42,
    script_p2wsh_v0.go:41-46. *)
Definition GetRawLockingScriptBytes (s : script_obj) : bytes :=
  match s with
  | P2PKH h => Script (AddOp 0xac (AddOp 0x88 (AddData h (AddOp 0xa9 (AddOp 0x76 NewScriptBuilder)))))
  | P2SH h => Script (AddOp 0x87 (AddData h (AddOp 0xa9 NewScriptBuilder)))
  | P2WPKH h | P2WSH h => Script (AddData h (AddOp 0x00 NewScriptBuilder))
  end.

(** LockingScript of the four address types (address_p2pkh.go:46, address_p2sh.go:46, address_p2wpkh_v0.go:56,
    address_p2wsh_v0.go:56). *)
Definition LockingScript (a : address) : bytes :=
  GetRawLockingScriptBytes
    match a with
    | PayToPubKeyHashAddress h => P2PKH h
    | PayToScriptHashAddress h => P2SH h
    | PayToWitnessV0PubKeyHashAddress h => P2WPKH h
    | PayToWitnessV0ScriptHashAddress h => P2WSH h
    end.

(** GetScriptVersion; true for WITNESS_V0, false for BASE. *)
Definition witness_version (s : script_obj) : bool := match s with P2PKH _ | P2SH _ => false | _ => true end.

Section Hashes.
Variable Hash160 : bytes -> bytes.
Variable sha256 : bytes -> bytes.

(** GetFinalLockingScriptBytes: script_p2pkh.go:51, script_p2sh.go:47, script_p2wpkh_v0.go:46-49,
    script_p2wsh_v0.go:49-52. *)
Definition GetFinalLockingScriptBytes (s : script_obj) (redeem : bytes) : bytes :=
  match s with
  | P2PKH _ | P2SH _ => GetRawLockingScriptBytes s
  | P2WPKH h => GetRawLockingScriptBytes (P2PKH h)
  | P2WSH _ => GetRawLockingScriptBytes (P2SH (Hash160 redeem))
  end.

(** script_p2sh.go:54-64. *)
Definition p2sh_unlocking (signs : list PubKeySign) (redeem : bytes) : bytes :=
  let b := NewScriptBuilder in
  let b := if 0 <? len signs then fold_left (fun b s => AddData (pks_sig s) b) signs (AddOp 0x00 b) else b in
  Script (AddData redeem b).

(** GetRawUnlockingScriptBytes: script_p2pkh.go:58-62, script_p2sh.go:54-64, script_p2wpkh_v0.go:52-55,
    script_p2wsh_v0.go:56-64.  [signs[0]] of an empty slice panics. *)
Definition GetRawUnlockingScriptBytes (s : script_obj) (signs : list PubKeySign) (redeem : bytes) : res bytes :=
  match s with
  | P2PKH _ | P2WPKH _ =>
      match signs with
      | [] => Panic
      | x :: _ => Ok (Script (AddData (pks_key x) (AddData (pks_sig x) NewScriptBuilder)))
      end
  | P2SH _ => Ok (p2sh_unlocking signs redeem)
  | P2WSH h => if negb (list_Z_eqb (sha256 redeem) h) then Err "sha256(redeem)!=s.hash" else Ok (p2sh_unlocking signs redeem)
  end.

(** GetWitnessUnlockingScriptBytes: nil for the base types, script_p2wpkh_v0.go:58-63, script_p2wsh_v0.go:67-83. *)
Definition GetWitnessUnlockingScriptBytes (s : script_obj) (signs : list PubKeySign) (redeem : bytes) : res (list bytes) :=
  match s with
  | P2PKH _ | P2SH _ => Ok []
  | P2WPKH _ => match signs with [] => Panic | x :: _ => Ok [pks_sig x; pks_key x] end
  | P2WSH h =>
      if negb (list_Z_eqb (sha256 redeem) h) then Err "sha256(redeem)!=s.hash"
      else Ok ((if 0 <? len signs then [] :: map pks_sig signs else []) ++ [redeem])
  end.
End Hashes.

(** GetWitnessScriptCode: nil for the base types, script_p2wpkh_v0.go:70-73, script_p2wsh_v0.go:90-92 (the caller's
    slice, nil included). *)
Definition GetWitnessScriptCode (s : script_obj) (redeem : obytes) : obytes :=
  match s with
  | P2PKH _ | P2SH _ => None
  | P2WPKH h => Some (GetRawLockingScriptBytes (P2PKH h))
  | P2WSH _ => redeem
  end.

(** script_multsig.go:44-57.  The key count is an [int] from [len]. *)
Definition GenMultiSigScript (nrequired : Z) (pkDatas : list bytes) : res bytes :=
  if len pkDatas <? nrequired then Err "script.standard.pubkeys.le.nrequired"
  else let! b := AddInt64 nrequired NewScriptBuilder in
       let b := fold_left (fun b k => AddData k b) pkDatas b in
       let! b := AddInt64 (len pkDatas) b in
       Ok (Script (AddOp 0xae b)).

(** script_multsig.go:79-93. *)
Definition isSmallInt (i : instruction) : bool := (iop i =? 0) || ((0x51 <=? iop i) && (iop i <=? 0x60)).
Definition asSmallInt (i : instruction) : Z := if iop i =? 0 then 0 else u8 (iop i - 0x50).
(** script_multsig.go:95-127.  The index [l-2] exists because [l >= 4]. *)
Definition isMultiSig (is : list instruction) : bool :=
  let l := len is in
  if l <? 4 then false else
  let d := Instr 0 [] in
  let at_ k := nth (Z.to_nat k) is d in
  if negb (isSmallInt (at_ 0)) then false
  else if negb (isSmallInt (at_ (l - 2))) then false
  else if negb (iop (at_ (l - 1)) =? 0xae) then false
  else if negb (l - 2 - 1 =? asSmallInt (at_ (l - 2))) then false
  else forallb (fun i => (len (idata i) =? 33) || (len (idata i) =? 65)) (firstn (Z.to_nat (l - 3)) (skipn 1 is)).

(** WitnessToUnlockingScriptBytes: nil for the base types, script_p2wpkh_v0.go:82-85 (indexing panics when short),
    script_p2wsh_v0.go:101-115 (the parse error is ignored, leaving no instructions). *)
Definition WitnessToUnlockingScriptBytes (s : script_obj) (witness : list bytes) : res bytes :=
  match s with
  | P2PKH _ | P2SH _ => Ok []
  | P2WPKH _ => match witness with
                | w0 :: w1 :: _ => Ok (Script (AddData w1 (AddData w0 NewScriptBuilder)))
                | _ => Panic
                end
  | P2WSH _ =>
      let l := len witness in
      if 1 <? l then
        let! redeem := index witness (l - 1) in
        let is := match AllInstructions redeem with Ok is => is | _ => [] end in
        if isMultiSig is then
          Ok (Script (AddData redeem (fold_left (fun b w => AddData w b) (firstn (Z.to_nat (l - 1)) witness) NewScriptBuilder)))
        else Ok []
      else Ok []
  end.
