(** Model of /repo/xcore/transaction.go: serialization, signature hashes, signing, verification and sizes.

    Simplifications: inputs and outputs are values, so one [*TxIn] added twice is two inputs; the transaction left
    behind by a call that returns an error or panics is not returned; a nil and an empty slice are one value except
    for RedeemScript, WitnessScriptCode and the three digest caches, where the code tests for nil. *)
From Verif Require Import GoBase BufferModel ScriptModel AddressModel LockModel VmModel VmCalls.

(** transaction.go:48-60. *)
Record TxIn := MkIn {
  ti_hash : bytes; ti_index : Z; ti_value : Z; ti_seq : Z; ti_sighash : bytes; ti_redeem : obytes;
  ti_witness : list bytes; ti_code : obytes; ti_rawlock : bytes; ti_finallock : bytes; ti_unlock : bytes }.
(** transaction.go:99-102. *)
Record TxOut := MkOut { to_value : Z; to_script : bytes }.
(** transaction.go:113-121. *)
Record transaction := MkTx {
  tx_version : Z; tx_locktime : Z; tx_ins : list TxIn; tx_outs : list TxOut;
  tx_prevouts : obytes; tx_sequence : obytes; tx_outputs : obytes }.

(** transaction.go:124-128. *)
Definition NewTransaction : transaction := MkTx 1 0 [] [] None None None.
(** transaction.go:131-138. *)
Definition SetVersion (v : Z) (t : transaction) : transaction :=
  MkTx v (tx_locktime t) (tx_ins t) (tx_outs t) (tx_prevouts t) (tx_sequence t) (tx_outputs t).
Definition SetLockTime (v : Z) (t : transaction) : transaction :=
  MkTx (tx_version t) v (tx_ins t) (tx_outs t) (tx_prevouts t) (tx_sequence t) (tx_outputs t).
Definition set_ins (ins : list TxIn) (t : transaction) : transaction :=
  MkTx (tx_version t) (tx_locktime t) ins (tx_outs t) (tx_prevouts t) (tx_sequence t) (tx_outputs t).
Definition set_outs (outs : list TxOut) (t : transaction) : transaction :=
  MkTx (tx_version t) (tx_locktime t) (tx_ins t) outs (tx_prevouts t) (tx_sequence t) (tx_outputs t).
Definition set_caches (p s o : obytes) (t : transaction) : transaction :=
  MkTx (tx_version t) (tx_locktime t) (tx_ins t) (tx_outs t) p s o.
(** transaction.go:179-186. *)
Definition AddInput (i : TxIn) (t : transaction) : transaction := set_ins (tx_ins t ++ [i]) t.
Definition AddOutput (o : TxOut) (t : transaction) : transaction := set_outs (tx_outs t ++ [o]) t.

(** [tx.inputs[idx] = f(tx.inputs[idx])] for an index in range. *)
Fixpoint update {A} (n : nat) (f : A -> A) (l : list A) : list A :=
  match l, n with
  | [], _ => []
  | x :: r, O => f x :: r
  | x :: r, S n' => x :: update n' f r
  end.
Definition set_in (idx : Z) (f : TxIn -> TxIn) (t : transaction) : transaction :=
  set_ins (update (Z.to_nat idx) f (tx_ins t)) t.
Definition with_sighash (h : bytes) (i : TxIn) : TxIn :=
  MkIn (ti_hash i) (ti_index i) (ti_value i) (ti_seq i) h (ti_redeem i) (ti_witness i) (ti_code i) (ti_rawlock i) (ti_finallock i) (ti_unlock i).
Definition with_unlock (u : bytes) (i : TxIn) : TxIn :=
  MkIn (ti_hash i) (ti_index i) (ti_value i) (ti_seq i) (ti_sighash i) (ti_redeem i) (ti_witness i) (ti_code i) (ti_rawlock i) (ti_finallock i) u.
Definition with_witness (w : list bytes) (i : TxIn) : TxIn :=
  MkIn (ti_hash i) (ti_index i) (ti_value i) (ti_seq i) (ti_sighash i) (ti_redeem i) w (ti_code i) (ti_rawlock i) (ti_finallock i) (ti_unlock i).

(** transaction.go:94-96, 435-442. *)
Definition in_has_witness (i : TxIn) : bool := match ti_code i with Some _ => true | None => false end.
Definition HasWitness (t : transaction) : bool := existsb in_has_witness (tx_ins t).

(** The loop bodies shared by Serialize (transaction.go:458-476) and SerializeNoWitness (:598-616). *)
Definition write_in (b : buffer) (i : TxIn) : buffer :=
  let b := WriteU32 (ti_index i) (WriteBytes (ti_hash i) b) in
  let b := WriteVarBytes (if in_has_witness i then [] else ti_unlock i) b in
  WriteU32 (ti_seq i) b.
Definition write_out (b : buffer) (o : TxOut) : buffer := WriteVarBytes (to_script o) (WriteU64 (to_value o) b).
Definition write_witness (b : buffer) (i : TxIn) : buffer :=
  fold_left (fun b w => WriteVarBytes w b) (ti_witness i) (WriteVarInt (u64 (len (ti_witness i))) b).

(** transaction.go:445-492. *)
Definition Serialize (t : transaction) : bytes :=
  let b := WriteU32 (tx_version t) NewBuffer in
  let b := if HasWitness t then WriteU8 0x01 (WriteU8 0x00 b) else b in
  let b := fold_left write_in (tx_ins t) (WriteVarInt (u64 (len (tx_ins t))) b) in
  let b := fold_left write_out (tx_outs t) (WriteVarInt (u64 (len (tx_outs t))) b) in
  let b := if HasWitness t then fold_left write_witness (tx_ins t) b else b in
  Bytes (WriteU32 (tx_locktime t) b).

(** transaction.go:591-620. *)
Definition SerializeNoWitness (t : transaction) : bytes :=
  let b := WriteU32 (tx_version t) NewBuffer in
  let b := fold_left write_in (tx_ins t) (WriteVarInt (u64 (len (tx_ins t))) b) in
  let b := fold_left write_out (tx_outs t) (WriteVarInt (u64 (len (tx_outs t))) b) in
  Bytes (WriteU32 (tx_locktime t) b).

(** [n] rounds of a read. *)
Fixpoint read_n {A} (n : nat) (rd : BM A) : BM (list A) :=
  match n with
  | O => bret []
  | S n' => do x <- rd; do xs <- read_n n' rd; bret (x :: xs)
  end.
(** One read per element of a list, in order. *)
Fixpoint read_each {A B} (rd : A -> BM B) (l : list A) : BM (list B) :=
  match l with
  | [] => bret []
  | a :: r => do x <- rd a; do xs <- read_each rd r; bret (x :: xs)
  end.
Definition bassert (c : bool) (e : string) : BM unit := if c then bret tt else bfail e.
(** A [make] that panics when the size is beyond the address space. *)
Definition bmake (n elem_size : Z) : BM unit := if make_ok n elem_size then bret tt else bpanic.

(** The loop bodies of Deserialize (transaction.go:528-540, 552-561, 569-580); a fresh [TxIn] has nil fields. *)
Definition read_in : BM TxIn :=
  do h <- ReadBytes 32; do ix <- ReadU32; do u <- ReadVarBytes; do sq <- ReadU32;
  bret (MkIn (nilb h) ix 0 sq [] None [] None [] [] (nilb u)).
Definition read_out : BM TxOut := do v <- ReadU64; do s <- ReadVarBytes; bret (MkOut v (nilb s)).
Definition read_item : BM bytes := do w <- ReadVarBytes; bret (nilb w).
Definition read_witness (i : TxIn) : BM TxIn :=
  do n <- ReadVarInt; do _ <- bmake n 24; do ws <- read_n (Z.to_nat n) read_item; bret (with_witness ws i).

(** transaction.go:520-563 and 633-674: pointers are 8 bytes; a count of zero leaves the receiver's slice. *)
Definition read_ins (old : list TxIn) : BM (list TxIn) :=
  do n <- ReadVarInt;
  if 0 <? n then do _ <- bmake n 8; read_n (Z.to_nat (i64 n)) read_in else bret old.
Definition read_outs (old : list TxOut) : BM (list TxOut) :=
  do n <- ReadVarInt;
  if 0 <? n then do _ <- bmake n 8; read_n (Z.to_nat (i64 n)) read_out else bret old.

(** transaction.go:495-587 on receiver [t]; bytes after the lock time are ignored. *)
Definition Deserialize (data : bytes) (t : transaction) : res transaction :=
  fst ((do v <- ReadU32;
        do marker <- ReadU8;
        do _ <- bassert (marker =? 0x00) "witness.marker.error";
        do flag <- ReadU8;
        do _ <- bassert (flag =? 0x01) "witness.flag.error";
        do ins <- read_ins (tx_ins t);
        do outs <- read_outs (tx_outs t);
        do ins <- read_each read_witness ins;
        do lt <- ReadU32;
        bret (MkTx v lt ins outs (tx_prevouts t) (tx_sequence t) (tx_outputs t))) (NewBufferReader data)).

(** transaction.go:623-681. *)
Definition DeserializeNoWitness (data : bytes) (t : transaction) : res transaction :=
  fst ((do v <- ReadU32;
        do ins <- read_ins (tx_ins t);
        do outs <- read_outs (tx_outs t);
        do lt <- ReadU32;
        bret (MkTx v lt ins outs (tx_prevouts t) (tx_sequence t) (tx_outputs t))) (NewBufferReader data)).

Definition sumZ (l : list Z) : Z := fold_right Z.add 0 l.
(** transaction.go:738-765. *)
Definition BaseSize (t : transaction) : Z :=
  4 + VarIntSerializeSize (len (tx_ins t)) +
  sumZ (map (fun i => len (ti_hash i) + 4 + VarIntSerializeSize (len (ti_unlock i)) + len (ti_unlock i) + 4) (tx_ins t)) +
  VarIntSerializeSize (len (tx_outs t)) +
  sumZ (map (fun o => 8 + VarIntSerializeSize (len (to_script o)) + len (to_script o)) (tx_outs t)) + 4.
(** transaction.go:768-782. *)
Definition WitnessSize (t : transaction) : Z :=
  if HasWitness t then
    sumZ (map (fun i => VarIntSerializeSize (len (ti_witness i)) +
                        sumZ (map (fun w => VarIntSerializeSize (len w) + len w) (ti_witness i))) (tx_ins t))
  else 0.
(** transaction.go:785-799. *)
Definition Weight (t : transaction) : Z := BaseSize t * 3 + (BaseSize t + WitnessSize t).
Definition Vsize (t : transaction) : Z := Weight t / 4.
Definition Size (t : transaction) : Z := BaseSize t + WitnessSize t.
(** transaction.go:802-814: uint64 sums, then [int]. *)
Definition Fees (t : transaction) : Z :=
  i64 (u64 (u64 (sumZ (map ti_value (tx_ins t))) - u64 (sumZ (map to_value (tx_outs t))))).

Section Hashes.
Variable Hash160 : bytes -> bytes.
Variable sha256 : bytes -> bytes.
Variable DoubleSha256 : bytes -> bytes.

(** transaction.go:63-91. *)
Definition NewTxIn (txHash : bytes) (n value : Z) (script : bytes) (redeem : obytes) : res TxIn :=
  let! s := ParseLockingScript script in
  Ok (MkIn txHash n value 0xffffffff [] redeem [] (GetWitnessScriptCode s redeem) (GetRawLockingScriptBytes s)
        (GetFinalLockingScriptBytes Hash160 s (nilb redeem)) []).

(** transaction.go:142-176.  WitnessToUnlockingScriptBytes returns either nil or a non-empty script. *)
Definition SetTxIn (idx amount : Z) (script : bytes) (redeem : obytes) (t : transaction) : res transaction :=
  let! i := index (tx_ins t) idx in
  let! s := ParseLockingScript script in
  let! u := WitnessToUnlockingScriptBytes s (ti_witness i) in
  Ok (set_in idx (fun i =>
        MkIn (ti_hash i) (ti_index i) amount (ti_seq i) (ti_sighash i) redeem (ti_witness i) (GetWitnessScriptCode s redeem)
          (GetRawLockingScriptBytes s) (GetFinalLockingScriptBytes Hash160 s (nilb redeem))
          (match u with [] => ti_unlock i | _ => u end)) t).

(** transaction.go:189-206; [ID] and [WitnessID] are the reversed hex of these. *)
Definition Hash (t : transaction) : bytes := DoubleSha256 (SerializeNoWitness t).
Definition WitnessHash (t : transaction) : bytes := DoubleSha256 (Serialize t).

(** transaction.go:287-304: [i == idx] selects the signed input. *)
Fixpoint write_sig_ins (idx i : Z) (ins : list TxIn) (b : buffer) : res buffer :=
  match ins with
  | [] => Ok b
  | x :: r =>
      let b := WriteU32 (ti_index x) (WriteBytes (ti_hash x) b) in
      let! script :=
        if i =? idx then
          match ti_redeem x with
          | Some redeem => Ok redeem
          | None => RemoveOpcode (ti_finallock x) 0xab
          end
        else Ok [] in
      write_sig_ins idx (i + 1) r (WriteU32 (ti_seq x) (WriteVarBytes script b))
  end.

(** transaction.go:281-316. *)
Definition RawSignatureHash (idx hashType : Z) (t : transaction) : res bytes :=
  let b := WriteU32 (tx_version t) NewBuffer in
  let! b :=
    if hashType =? 1 then
      let! b := write_sig_ins idx 0 (tx_ins t) (WriteVarInt (u64 (len (tx_ins t))) b) in
      Ok (fold_left write_out (tx_outs t) (WriteVarInt (u64 (len (tx_outs t))) b))
    else Ok b in
  Ok (DoubleSha256 (Bytes (WriteU32 hashType (WriteU32 (tx_locktime t) b)))).

Definition zeroHash : bytes := repeat 0 32.
Definition cached (o : obytes) (fresh : bytes) : bytes := match o with Some h => h | None => fresh end.

(** transaction.go:319-384.  Returns the digest and the transaction with its caches as the call leaves them. *)
Definition WitnessV0SignatureHash (idx ht : Z) (t : transaction) : res (bytes * transaction) :=
  let! i := index (tx_ins t) idx in
  let prevouts :=
    if Z.land ht 0x80 =? 0 then
      cached (tx_prevouts t) (DoubleSha256 (Bytes (fold_left (fun b i => WriteU32 (ti_index i) (WriteBytes (ti_hash i) b)) (tx_ins t) NewBuffer)))
    else zeroHash in
  let sequence :=
    if (Z.land ht 0x80 =? 0) && negb (Z.land ht 0x1f =? 3) && negb (Z.land ht 0x1f =? 2) then
      cached (tx_sequence t) (DoubleSha256 (Bytes (fold_left (fun b i => WriteU32 (ti_seq i) b) (tx_ins t) NewBuffer)))
    else zeroHash in
  let outputs :=
    if negb (Z.land ht 3 =? 3) && negb (Z.land ht 2 =? 2) then
      cached (tx_outputs t) (DoubleSha256 (Bytes (fold_left write_out (tx_outs t) NewBuffer)))
    else zeroHash in
  let b := WriteU32 (tx_version t) NewBuffer in
  let b := WriteBytes sequence (WriteBytes prevouts b) in
  let b := WriteU32 (ti_index i) (WriteBytes (ti_hash i) b) in
  let b := WriteVarBytes (nilb (ti_code i)) b in
  let b := WriteU32 (ti_seq i) (WriteU64 (ti_value i) b) in
  let b := WriteBytes outputs b in
  let b := WriteU32 ht (WriteU32 (tx_locktime t) b) in
  Ok (DoubleSha256 (Bytes b), set_caches (Some prevouts) (Some sequence) (Some outputs) t).

(** transaction.go:248-269.  An error from GetRawUnlockingScriptBytes ends the call with nil, the unlocking script
    being nil by then. *)
Definition EmbedIdxSignature (idx : Z) (signs : list PubKeySign) (t : transaction) : res transaction :=
  let! i := index (tx_ins t) idx in
  if (1 <? len signs) && (match ti_redeem i with None => true | Some _ => false end) then Err "transaction.sign.redeem.empty" else
  let! s := ParseLockingScript (ti_rawlock i) in
  match GetRawUnlockingScriptBytes sha256 s signs (nilb (ti_redeem i)) with
  | Panic => Panic
  | Err _ => Ok (set_in idx (with_unlock []) t)
  | Ok u =>
      let! w := GetWitnessUnlockingScriptBytes sha256 s signs (nilb (ti_redeem i)) in
      Ok (set_in idx (fun i => with_witness w (with_unlock u i)) t)
  end.

Section Keys.
(** Private keys, their serialized public keys (compressed or not), signing, and PubKeyFromBytes followed by
    EcdsaVerify. *)
Variable prvkey : Type.
Variable PubKeyBytes : prvkey -> bool -> bytes.
Variable EcdsaSign : prvkey -> bytes -> res bytes.
Variable EcdsaVerify : bytes -> bytes -> bytes -> res unit.

(** transaction.go:272-278. *)
Definition EmbedIdxEcdsaSignature (idx : Z) (pubkey ecdsaSig : bytes) (ht : Z) (t : transaction) : res transaction :=
  EmbedIdxSignature idx [PKS pubkey (ecdsaSig ++ [u8 ht])] t.

(** transaction.go:387-401. *)
Definition RawSignature (idx ht : Z) (k : prvkey) (t : transaction) : res (bytes * transaction) :=
  if len (tx_ins t) <=? idx then Err "transaction.sign.out.index" else
  let! _ := index (tx_ins t) idx in
  let! h := RawSignatureHash idx ht t in
  let! s := EcdsaSign k h in
  Ok (s ++ [u8 ht], set_in idx (with_sighash h) t).

(** transaction.go:404-432. *)
Definition WitnessSignature (idx ht : Z) (k : prvkey) (t : transaction) : res (bytes * transaction) :=
  if len (tx_ins t) <=? idx then Err "transaction.sign.out.index" else
  let! i := index (tx_ins t) idx in
  let! s := ParseLockingScript (ti_rawlock i) in
  if witness_version s then
    let! (h, t) := WitnessV0SignatureHash idx ht t in
    let! sg := EcdsaSign k h in
    Ok (sg ++ [u8 ht], set_in idx (with_sighash h) t)
  else Err "script.signature.type.unknow".

(** transaction.go:218-243. *)
Fixpoint sign_loop (idx : Z) (compressed : bool) (ht : Z) (keys : list prvkey) (t : transaction) : res (list PubKeySign * transaction) :=
  match keys with
  | [] => Ok ([], t)
  | k :: ks =>
      let! i := index (tx_ins t) idx in
      let! (sg, t1) := if in_has_witness i then WitnessSignature idx ht k t else RawSignature idx ht k t in
      let! (signs, t2) := sign_loop idx compressed ht ks t1 in
      Ok (PKS (PubKeyBytes k compressed) sg :: signs, t2)
  end.
(** transaction.go:209-245. *)
Definition SignIndex (idx : Z) (compressed : bool) (ht : Z) (keys : list prvkey) (t : transaction) : res transaction :=
  let! i := index (tx_ins t) idx in
  if (1 <? len keys) && (match ti_redeem i with None => true | Some _ => false end) then Err "transaction.sign.redeem.empty" else
  let! (signs, t1) := sign_loop idx compressed ht keys t in
  EmbedIdxSignature idx signs t1.

(** transaction.go:695-707: the signature-hash callback of one input; only the type byte of the signature reaches it. *)
Definition sigHashFn (idx : Z) (witness : bool) (t : transaction) (ht : Z) : res bytes :=
  if witness then let! (h, _) := WitnessV0SignatureHash idx ht t in Ok h else RawSignatureHash idx ht t.

(** transaction.go:685-731 for one input. *)
Definition verify_input (idx : Z) (i : TxIn) (t : transaction) : res unit :=
  let! s := ParseLockingScript (ti_rawlock i) in
  match VmModel.Verify Hash160 (Some (sigHashFn idx (witness_version s) t)) (Some EcdsaVerify) (ti_unlock i) (ti_finallock i) NewEngine with
  | Ok _ => Ok tt
  | Err _ => Err "transaction.verify.failed"
  | Panic => Panic
  end.

(** The caches after the signature hashes of types [calls] were computed for input [idx]. *)
Definition after_calls (idx : Z) (calls : list Z) (t : transaction) : transaction :=
  fold_left (fun t ht => match WitnessV0SignatureHash idx ht t with Ok (_, t') => t' | _ => t end) calls t.
(** transaction.go:684-734: the loop over the inputs, [idx] onwards.  The caches written while one input is checked
    are seen by the next.  Simplified: within one input every digest is computed from the caches as that input found
    them, which differs from the code only when one witness input carries signatures of different types. *)
Fixpoint verify_from (idx : Z) (ins : list TxIn) (t : transaction) : res unit :=
  match ins with
  | [] => Ok tt
  | i :: r =>
      let! _ := verify_input idx i t in
      let! s := ParseLockingScript (ti_rawlock i) in
      let t' :=
        if witness_version s
        then after_calls idx (verify_calls Hash160 (sigHashFn idx true t) EcdsaVerify (ti_unlock i) (ti_finallock i) NewEngine) t
        else t in
      verify_from (idx + 1) r t'
  end.
Definition Verify (t : transaction) : res unit := verify_from 0 (tx_ins t) t.
End Keys.
End Hashes.
