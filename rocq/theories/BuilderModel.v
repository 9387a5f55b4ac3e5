(** xcore/estimate.go, coinbuilder.go and transactionbuilder.go. *)
From Verif Require Import GoBase BufferModel ScriptModel HexModel AddressModel LockModel TxModel.
From Coq Require Import SpecFloat.

(** ** estimate.go. *)
(** estimate.go:44-99.  Simplified: the sums are exact, Go's [int] holds any sum of sizes of objects in memory. *)
Definition EstimateSize (txins : list TxIn) (txouts : list TxOut) : Z :=
  let baseSize := 4 + VarIntSerializeSize (u64 (len txins)) + sumZ (map (fun i => if in_has_witness i then 0 else 149) txins)
    + VarIntSerializeSize (u64 (len txouts)) + sumZ (map (fun o => 8 + len (to_script o)) txouts) + 4 in
  let witnessSize :=
    if existsb in_has_witness txins
    then sumZ (map (fun i => if in_has_witness i then VarIntSerializeSize 2 + VarIntSerializeSize 73 + VarIntSerializeSize 33 else VarIntSerializeSize 0) txins)
    else 0 in
  Z.quot (baseSize * (4 - 1) + (baseSize + witnessSize)) 4.

(** estimate.go:102-126, on [int]s, which wrap. *)
Definition EstimateNormalSize (ins outs : Z) : Z :=
  i64 (4 + VarIntSerializeSize (u64 ins) + 149 * ins + VarIntSerializeSize (u64 outs) + (8 + 25) * outs + 4).

(** Go's float64 is IEEE 754 binary64, rounding to nearest even: int64 to float64, and back by truncation.  A value
    outside int64 converts to the smallest int64, as amd64 does; Go leaves this case to the implementation. *)
Definition float_of (x : Z) : spec_float := binary_normalize 53 1024 x 0 false.
Definition fdiv := SFdiv 53 1024.
Definition fmul := SFmul 53 1024.
Definition int_of (f : spec_float) : Z :=
  match f with
  | S754_zero _ => 0
  | S754_finite s m e =>
      let a := if 0 <=? e then Zpos m * 2 ^ e else Zpos m / 2 ^ (- e) in
      let v := if s then - a else a in
      if (- 2 ^ 63 <=? v) && (v <? 2 ^ 63) then v else - 2 ^ 63
  | _ => - 2 ^ 63
  end.
(** estimate.go:129-135. *)
Definition EstimateFees (estimateSize relayFeePerKb : Z) : Z :=
  if 0 <? relayFeePerKb then int_of (fmul (fdiv (float_of relayFeePerKb) (float_of 1000)) (float_of estimateSize)) else 0.

(** ** coinbuilder.go. *)
(** coinbuilder.go:9-14. *)
Record Coin := MkCoin { coin_txid : bytes; coin_n : Z; coin_value : Z; coin_script : bytes }.
(** coinbuilder.go:17-41. *)
Definition CoinBuilder := list Coin.
Definition NewCoinBuilder : CoinBuilder := [].
Definition AddCoinOutput (txID : bytes) (n value : Z) (script : bytes) (b : CoinBuilder) : CoinBuilder := b ++ [MkCoin txID n value script].
Definition ToCoins (b : CoinBuilder) : list Coin := b.

(** ** transactionbuilder.go. *)
Section Builder.
Variable Hash160 : bytes -> bytes.
Variable sha256 : bytes -> bytes.
Variable DoubleSha256 : bytes -> bytes.
Variable prvkey : Type.
Variable PubKeyBytes : prvkey -> bool -> bytes.
Variable EcdsaSign : prvkey -> bytes -> res bytes.

(** transactionbuilder.go:26-30.  The field [script] is left out: nothing sets it. *)
Record output := MkOutput { o_addr : option address; o_value : Z }.
(** transactionbuilder.go:39-46. *)
Record Group := MkGroup {
  g_coin : option Coin; g_keys : option (list prvkey); g_output : option output; g_compressed : bool; g_redeem : obytes; g_sighash : Z }.
Definition empty_group : Group := MkGroup None None None false None 0.
(** transactionbuilder.go:49-59.  [change] is nil or holds an address that may be nil. *)
Record TransactionBuilder := MkBuilder {
  b_idx : Z; b_sign : bool; b_maxFees : Z; b_sendFees : Z; b_relay : Z; b_lockTime : Z; b_change : option (option address); b_groups : list Group; b_push : list bytes }.
(** transactionbuilder.go:62-69. *)
Definition NewTransactionBuilder : TransactionBuilder := MkBuilder 0 false 100000000 1000 0 0 None [empty_group] [].

(** [b.groups[b.idx].field = v]; out of range panics. *)
Definition set_group (f : Group -> Group) (b : TransactionBuilder) : res TransactionBuilder :=
  let! _ := index (b_groups b) (b_idx b) in
  Ok (MkBuilder (b_idx b) (b_sign b) (b_maxFees b) (b_sendFees b) (b_relay b) (b_lockTime b) (b_change b) (update (Z.to_nat (b_idx b)) f (b_groups b)) (b_push b)).
(** transactionbuilder.go:72-78; SigHashAll is 1. *)
Definition AddCoin (coin : option Coin) : TransactionBuilder -> res TransactionBuilder :=
  set_group (fun g => MkGroup coin (g_keys g) (g_output g) true (g_redeem g) 1).
(** transactionbuilder.go:81-84.  No argument makes a nil slice. *)
Definition AddKeys (keys : option (list prvkey)) : TransactionBuilder -> res TransactionBuilder :=
  set_group (fun g => MkGroup (g_coin g) keys (g_output g) (g_compressed g) (g_redeem g) (g_sighash g)).
(** transactionbuilder.go:87-93. *)
Definition To (addr : option address) (value : Z) : TransactionBuilder -> res TransactionBuilder :=
  set_group (fun g => MkGroup (g_coin g) (g_keys g) (Some (MkOutput addr value)) (g_compressed g) (g_redeem g) (g_sighash g)).
(** transactionbuilder.go:96-99. *)
Definition SetRedeemScript (redeem : obytes) : TransactionBuilder -> res TransactionBuilder :=
  set_group (fun g => MkGroup (g_coin g) (g_keys g) (g_output g) (g_compressed g) redeem (g_sighash g)).
(** transactionbuilder.go:102-105. *)
Definition SetPubKeyUncompressed : TransactionBuilder -> res TransactionBuilder :=
  set_group (fun g => MkGroup (g_coin g) (g_keys g) (g_output g) false (g_redeem g) (g_sighash g)).
(** transactionbuilder.go:108-111. *)
Definition SetSigHashType (typ : Z) : TransactionBuilder -> res TransactionBuilder :=
  set_group (fun g => MkGroup (g_coin g) (g_keys g) (g_output g) (g_compressed g) (g_redeem g) typ).
(** transactionbuilder.go:114-117. *)
Definition SetChange (addr : option address) (b : TransactionBuilder) : TransactionBuilder :=
  MkBuilder (b_idx b) (b_sign b) (b_maxFees b) (b_sendFees b) (b_relay b) (b_lockTime b) (Some addr) (b_groups b) (b_push b).
(** transactionbuilder.go:120-123: a uint64 becomes an int64. *)
Definition SendFees (fees : Z) (b : TransactionBuilder) : TransactionBuilder :=
  MkBuilder (b_idx b) (b_sign b) (b_maxFees b) (i64 fees) (b_relay b) (b_lockTime b) (b_change b) (b_groups b) (b_push b).
(** transactionbuilder.go:126-129. *)
Definition SetRelayFeePerKb (fee : Z) (b : TransactionBuilder) : TransactionBuilder :=
  MkBuilder (b_idx b) (b_sign b) (b_maxFees b) (b_sendFees b) fee (b_lockTime b) (b_change b) (b_groups b) (b_push b).
(** transactionbuilder.go:133-136. *)
Definition SetMaxFees (max : Z) (b : TransactionBuilder) : TransactionBuilder :=
  MkBuilder (b_idx b) (b_sign b) max (b_sendFees b) (b_relay b) (b_lockTime b) (b_change b) (b_groups b) (b_push b).
(** transactionbuilder.go:139-142. *)
Definition SetBuilderLockTime (lockTime : Z) (b : TransactionBuilder) : TransactionBuilder :=
  MkBuilder (b_idx b) (b_sign b) (b_maxFees b) (b_sendFees b) (b_relay b) lockTime (b_change b) (b_groups b) (b_push b).
(** transactionbuilder.go:145-148. *)
Definition AddPushData (data : bytes) (b : TransactionBuilder) : TransactionBuilder :=
  MkBuilder (b_idx b) (b_sign b) (b_maxFees b) (b_sendFees b) (b_relay b) (b_lockTime b) (b_change b) (b_groups b) (b_push b ++ [data]).
(** transactionbuilder.go:151-154. *)
Definition Sign (b : TransactionBuilder) : TransactionBuilder :=
  MkBuilder (b_idx b) true (b_maxFees b) (b_sendFees b) (b_relay b) (b_lockTime b) (b_change b) (b_groups b) (b_push b).
(** transactionbuilder.go:158-162. *)
Definition Then (b : TransactionBuilder) : TransactionBuilder :=
  MkBuilder (b_idx b + 1) (b_sign b) (b_maxFees b) (b_sendFees b) (b_relay b) (b_lockTime b) (b_change b) (b_groups b ++ [empty_group]) (b_push b).

(** transactionbuilder.go:32-36. *)
Record input := MkInput { n_compressed : bool; n_sighash : Z; n_keys : option (list prvkey) }.
(** The variables of the loop. *)
Record gathered := MkG { ga_in : Z; ga_out : Z; ga_inputs : list input; ga_txins : list TxIn; ga_txouts : list TxOut }.
(** transactionbuilder.go:181-208. *)
Definition gather_in (g : Group) (a : gathered) : res gathered :=
  match g_coin g with
  | None => Ok a
  | Some c =>
      let! txid := NewIDFromString (coin_txid c) in
      let! script := hex_decode (coin_script c) in
      let! txin := NewTxIn Hash160 txid (coin_n c) (coin_value c) script (g_redeem g) in
      Ok (MkG (i64 (ga_in a + i64 (coin_value c))) (ga_out a) (ga_inputs a ++ [MkInput (g_compressed g) (g_sighash g) (g_keys g)]) (ga_txins a ++ [txin]) (ga_txouts a))
  end.
(** transactionbuilder.go:211-233; LockingScript returns no error. *)
Definition gather_out (g : Group) (a : gathered) : res gathered :=
  match g_output g with
  | None => Ok a
  | Some o =>
      let script := match o_addr o with Some addr => LockingScript addr | None => [] end in
      Ok (MkG (ga_in a) (i64 (ga_out a + i64 (o_value o))) (ga_inputs a) (ga_txins a) (ga_txouts a ++ [MkOut (o_value o) script]))
  end.
(** transactionbuilder.go:176-234. *)
Fixpoint gather (groups : list Group) (a : gathered) : res gathered :=
  match groups with
  | [] => Ok a
  | g :: r => let! a := gather_in g a in let! a := gather_out g a in gather r a
  end.

(** transactionbuilder.go:247-259. *)
Definition build_fees (b : TransactionBuilder) (a : gathered) : Z :=
  if 0 <? b_relay b then EstimateFees (EstimateSize (ga_txins a) (ga_txouts a) + sumZ (map len (b_push b))) (b_relay b) else b_sendFees b.
(** transactionbuilder.go:274-285: calling the method of a nil address panics. *)
Definition change_out (b : TransactionBuilder) (changeAmount : Z) : res (option TxOut) :=
  if 0 <? changeAmount then
    match b_change b with
    | None => Err "transaction.builder.changeto.empty"
    | Some None => Panic
    | Some (Some addr) => Ok (Some (MkOut (u64 changeAmount) (LockingScript addr)))
    end
  else Ok None.
(** transactionbuilder.go:310-314; OP_RETURN is 0x6a. *)
Definition push_out (data : bytes) : TxOut := MkOut 0 (Script (AddData data (AddOp 0x6a NewScriptBuilder))).
(** transactionbuilder.go:287-316. *)
Definition assemble (b : TransactionBuilder) (a : gathered) (change : option TxOut) : transaction :=
  let t := SetLockTime (b_lockTime b) NewTransaction in
  let t := fold_left (fun t i => AddInput i t) (ga_txins a) t in
  let t := fold_left (fun t o => AddOutput o t) (ga_txouts a) t in
  let t := match change with Some o => AddOutput o t | None => t end in
  fold_left (fun t d => AddOutput (push_out d) t) (b_push b) t.
(** transactionbuilder.go:319-328. *)
Fixpoint sign_inputs (i : Z) (inputs : list input) (t : transaction) : res transaction :=
  match inputs with
  | [] => Ok t
  | x :: r =>
      match n_keys x with
      | None => Err "transaction.builder.sign.key.empty"
      | Some keys => let! t := SignIndex sha256 DoubleSha256 prvkey PubKeyBytes EcdsaSign i (n_compressed x) (n_sighash x) keys t in sign_inputs (i + 1) r t
      end
  end.
(** transactionbuilder.go:165-330. *)
Definition BuildTransaction (b : TransactionBuilder) : res transaction :=
  let! a := gather (b_groups b) (MkG 0 0 [] [] []) in
  if len (ga_txins a) =? 0 then Err "transaction.builder.from.empty" else
  if len (ga_txouts a) =? 0 then Err "transaction.builder.sendto.empty" else
  let fees := build_fees b a in
  if b_maxFees b <? fees then Err "transaction.builder.fee.too.high" else
  if ga_in a <? ga_out a then Err "transaction.builder.amount.not.enough" else
  let changeAmount := i64 (i64 (ga_in a - ga_out a) - fees) in
  if changeAmount <? 0 then Err "transaction.builder.min.fee.not.enough" else
  let! change := change_out b changeAmount in
  let t := assemble b a change in
  if b_sign b then sign_inputs 0 (ga_inputs a) t else Ok t.
End Builder.
