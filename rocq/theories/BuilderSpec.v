(** What a builder was told, and what the transaction should then be. *)
From Verif Require Import GoBase ScriptModel ScriptSpec HexModel AddressModel LockModel LockSpec VmSpec TxModel BuilderModel.

Definition list_of {A} (o : option A) : list A := match o with Some x => [x] | None => [] end.
(** The last [Some]. *)
Fixpoint last_some {A} (l : list (option A)) : option A :=
  match l with
  | [] => None
  | x :: r => match last_some r with Some y => Some y | None => x end
  end.

(** An input that spends coin [c]. *)
Definition spends_coin (c : Coin) (i : TxIn) : Prop :=
  NewIDFromString (coin_txid c) = Ok (ti_hash i) /\ ti_index i = coin_n c /\ ti_value i = coin_value c /\ hex_decode (coin_script c) = Ok (ti_rawlock i).
Definition script_to (a : option address) : bytes := match a with Some addr => LockingScript addr | None => [] end.

Section Spec.
Variable prvkey : Type.
Notation TransactionBuilder := (TransactionBuilder prvkey).
(** The coins and payments of a builder, in order. *)
Definition coins (b : TransactionBuilder) : list Coin := flat_map (fun g => list_of (g_coin prvkey g)) (b_groups prvkey b).
Definition payments (b : TransactionBuilder) : list output := flat_map (fun g => list_of (g_output prvkey g)) (b_groups prvkey b).
Definition total_coins (b : TransactionBuilder) : Z := sumZ (map coin_value (coins b)).
Definition total_paid (b : TransactionBuilder) : Z := sumZ (map o_value (payments b)).
(** Amounts are uint64, fees int64. *)
Definition amounts_ok (b : TransactionBuilder) : Prop :=
  Forall (fun c => 0 <= coin_value c < 2 ^ 64) (coins b) /\ Forall (fun o => 0 <= o_value o < 2 ^ 64) (payments b) /\
  - 2 ^ 63 <= b_sendFees prvkey b < 2 ^ 63.

(** The calls of the builder. *)
Inductive call :=
| CAddCoin (c : option Coin) | CAddKeys (ks : option (list prvkey)) | CTo (a : option address) (v : Z) | CRedeem (r : obytes) | CUncompressed | CSigHash (ty : Z)
| CChange (a : option address) | CFees (f : Z) | CRelay (f : Z) | CMax (f : Z) | CLock (l : Z) | CPush (d : bytes) | CSign | CThen.
Definition do_call (c : call) (b : TransactionBuilder) : res TransactionBuilder :=
  match c with
  | CAddCoin c => AddCoin prvkey c b
  | CAddKeys ks => AddKeys prvkey ks b
  | CTo a v => To prvkey a v b
  | CRedeem r => SetRedeemScript prvkey r b
  | CUncompressed => SetPubKeyUncompressed prvkey b
  | CSigHash ty => SetSigHashType prvkey ty b
  | CChange a => Ok (SetChange prvkey a b)
  | CFees f => Ok (SendFees prvkey f b)
  | CRelay f => Ok (SetRelayFeePerKb prvkey f b)
  | CMax f => Ok (SetMaxFees prvkey f b)
  | CLock l => Ok (SetBuilderLockTime prvkey l b)
  | CPush d => Ok (AddPushData prvkey d b)
  | CSign => Ok (Sign prvkey b)
  | CThen => Ok (Then prvkey b)
  end.
Fixpoint do_calls (cs : list call) (b : TransactionBuilder) : res TransactionBuilder :=
  match cs with
  | [] => Ok b
  | c :: r => let! b := do_call c b in do_calls r b
  end.

(** The calls between two [Then]s. *)
Fixpoint stretches (cs : list call) : list (list call) :=
  match cs with
  | [] => [[]]
  | CThen :: r => [] :: stretches r
  | c :: r => match stretches r with s :: ss => (c :: s) :: ss | [] => [[c]] end
  end.
(** In each, the last coin (AddCoin(nil) removes it) and the last payment count. *)
Definition said_coin (s : list call) : list Coin :=
  match last_some (map (fun c => match c with CAddCoin o => Some o | _ => None end) s) with Some (Some c) => [c] | _ => [] end.
Definition said_payment (s : list call) : list output :=
  match last_some (map (fun c => match c with CTo a v => Some (MkOutput a v) | _ => None end) s) with Some o => [o] | None => [] end.
Definition said_coins (cs : list call) : list Coin := flat_map said_coin (stretches cs).
Definition said_payments (cs : list call) : list output := flat_map said_payment (stretches cs).
Definition said_data (cs : list call) : list bytes := flat_map (fun c => match c with CPush d => [d] | _ => [] end) cs.
Definition said {A} (f : call -> option A) (dflt : A) (cs : list call) : A := match last_some (map f cs) with Some x => x | None => dflt end.
Definition said_change (cs : list call) : option (option address) := said (fun c => match c with CChange a => Some (Some a) | _ => None end) None cs.
Definition said_fees (cs : list call) : Z := said (fun c => match c with CFees f => Some f | _ => None end) 1000 cs.
Definition said_relay (cs : list call) : Z := said (fun c => match c with CRelay f => Some f | _ => None end) 0 cs.
Definition said_max (cs : list call) : Z := said (fun c => match c with CMax f => Some f | _ => None end) 100000000 cs.
Definition said_lock (cs : list call) : Z := said (fun c => match c with CLock l => Some l | _ => None end) 0 cs.
End Spec.

(** A zero-value output carrying [d]: OP_RETURN and one push. *)
Definition carries (d : bytes) (o : TxOut) : Prop := to_value o = 0 /\ exists i e, to_script o = 0x6a :: e /\ encodes i e /\ pushes i d.
