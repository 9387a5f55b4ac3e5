(** A block as a node describes it, stated without the client: the objects of Bitcoin Core's getblock. *)
From Verif Require Import GoBase AsmSpec RpcModel RpcSpec.
From Coq Require Import SpecFloat.
Local Open Scope Z_scope.

Record script_info := { s_asm : bytes; s_hex : bytes; s_sigs : option Z; s_type : bytes; s_addresses : option (list bytes) }.
Inductive in_info := Mined (script : bytes) (sequence : Z) | Spends (txid : bytes) (vout : Z) (asm hex : bytes) (sequence : Z).
Record out_info := { o_value : Z; o_n : Z; o_script : script_info }.
Record tx_info := { t_hex : bytes; t_id : bytes; t_version : Z; t_size : Z; t_vsize : Z; t_weight : Z; t_locktime : Z; t_in : list in_info; t_out : list out_info }.
Record block_info := { b_hash : bytes; b_confirmations : Z; b_stripped : Z; b_size : Z; b_weight : Z; b_height : Z; b_version : Z; b_vhex : bytes; b_root : bytes;
  b_tx : list tx_info; b_ntx : Z; b_time : Z; b_nonce : Z; b_bits : bytes; b_difficulty : spec_float; b_work : bytes; b_prev : option bytes; b_next : option bytes }.

(** Exactly one field of that name. *)
Definition once (name : bytes) (fs : list (bytes * json)) (j : json) : Prop :=
  exists a k b, fs = a ++ (k, j) :: b /\ same_name k name /\ none_of name a /\ none_of name b.
Definition has (fs : list (bytes * json)) (name : string) (P : json -> Prop) : Prop := exists j, once (str_bytes name) fs j /\ P j.
Definition may_have {A} (fs : list (bytes * json)) (name : string) (P : A -> json -> Prop) (x : option A) : Prop :=
  match x with Some a => has fs name (P a) | None => none_of (str_bytes name) fs end.
Definition is_text (s : bytes) (j : json) : Prop := j = JStr s.
Definition is_int (z : Z) (j : json) : Prop := exists lit, j = JNum lit /\ ((0 <= z /\ digits lit z) \/ (z < 0 /\ exists ds, lit = 45 :: ds /\ digits ds (- z))).
Definition is_list {A} (P : A -> json -> Prop) (l : list A) (j : json) : Prop := exists js, j = JArr js /\ Forall2 P l js.
(** An amount in coins with eight decimals. *)
Definition amount_text (sat : Z) (lit : bytes) : Prop :=
  exists w f a b, lit = w ++ 46 :: f /\ digits w a /\ digits f b /\ length f = 8%nat /\ sat = a * 100000000 + b.
Definition is_amount (sat : Z) (j : json) : Prop := exists lit, j = JNum lit /\ amount_text sat lit.

(** Other fields may stand anywhere in the objects. *)
Definition script_says (s : script_info) (j : json) : Prop := exists fs, j = JObj fs /\
  has fs "asm" (is_text (s_asm s)) /\ has fs "hex" (is_text (s_hex s)) /\ may_have fs "reqSigs" is_int (s_sigs s) /\ has fs "type" (is_text (s_type s)) /\ may_have fs "addresses" (is_list is_text) (s_addresses s).
Definition in_says (i : in_info) (j : json) : Prop := exists fs, j = JObj fs /\
  match i with
  | Mined script seq => has fs "coinbase" (is_text script) /\ has fs "sequence" (is_int seq) /\ forall n, In n ["txid"; "vout"; "scriptSig"]%string -> none_of (str_bytes n) fs
  | Spends txid vout asm hex seq => none_of (str_bytes "coinbase") fs /\ has fs "txid" (is_text txid) /\ has fs "vout" (is_int vout) /\
      has fs "scriptSig" (fun s => exists gs, s = JObj gs /\ has gs "asm" (is_text asm) /\ has gs "hex" (is_text hex)) /\ has fs "sequence" (is_int seq)
  end.
Definition out_says (o : out_info) (j : json) : Prop := exists fs, j = JObj fs /\
  has fs "value" (is_amount (o_value o)) /\ has fs "n" (is_int (o_n o)) /\ has fs "scriptPubKey" (script_says (o_script o)).
Definition tx_says (t : tx_info) (j : json) : Prop := exists fs, j = JObj fs /\
  has fs "hex" (is_text (t_hex t)) /\ has fs "txid" (is_text (t_id t)) /\ has fs "version" (is_int (t_version t)) /\ has fs "size" (is_int (t_size t)) /\ has fs "vsize" (is_int (t_vsize t)) /\
  has fs "weight" (is_int (t_weight t)) /\ has fs "locktime" (is_int (t_locktime t)) /\ has fs "vin" (is_list in_says (t_in t)) /\ has fs "vout" (is_list out_says (t_out t)).
Section Block.
(** What the difficulty's text denotes. *)
Variable real : bytes -> option spec_float.
Definition block_says (b : block_info) (fs : list (bytes * json)) : Prop :=
  has fs "hash" (is_text (b_hash b)) /\ has fs "confirmations" (is_int (b_confirmations b)) /\ has fs "strippedsize" (is_int (b_stripped b)) /\ has fs "size" (is_int (b_size b)) /\
  has fs "weight" (is_int (b_weight b)) /\ has fs "height" (is_int (b_height b)) /\ has fs "version" (is_int (b_version b)) /\ has fs "versionHex" (is_text (b_vhex b)) /\
  has fs "merkleroot" (is_text (b_root b)) /\ has fs "tx" (is_list tx_says (b_tx b)) /\ has fs "nTx" (is_int (b_ntx b)) /\ has fs "time" (is_int (b_time b)) /\ has fs "nonce" (is_int (b_nonce b)) /\
  has fs "bits" (is_text (b_bits b)) /\ has fs "difficulty" (fun j => exists lit, j = JNum lit /\ real lit = Some (b_difficulty b)) /\ has fs "chainwork" (is_text (b_work b)) /\
  may_have fs "previousblockhash" is_text (b_prev b) /\ may_have fs "nextblockhash" is_text (b_next b).
End Block.

(** The ranges of the protocol.  A node says -1 confirmations of a block that is not in its best chain. *)
Definition int32 (z : Z) : Prop := - 2 ^ 31 <= z < 2 ^ 31.
Definition uint32 (z : Z) : Prop := 0 <= z < 2 ^ 32.
Definition max_money : Z := 21000000 * 100000000.
Definition script_ok (s : script_info) : Prop := (forall z, s_sigs s = Some z -> 1 <= z <= 20) /\ (forall l, s_addresses s = Some l -> l <> []).
Definition in_ok (i : in_info) : Prop := match i with Mined c q => c <> [] /\ uint32 q | Spends t v _ _ q => t <> [] /\ uint32 v /\ uint32 q end.
Definition out_ok (o : out_info) : Prop := 0 <= o_value o <= max_money /\ uint32 (o_n o) /\ script_ok (o_script o).
Definition tx_ok (t : tx_info) : Prop := int32 (t_version t) /\ uint32 (t_size t) /\ uint32 (t_vsize t) /\ uint32 (t_weight t) /\ uint32 (t_locktime t) /\ Forall in_ok (t_in t) /\ Forall out_ok (t_out t).
Definition block_ok (b : block_info) : Prop := -1 <= b_confirmations b < 2 ^ 31 /\ int32 (b_stripped b) /\ int32 (b_size b) /\ int32 (b_weight b) /\ int32 (b_height b) /\ int32 (b_version b) /\
  Forall tx_ok (b_tx b) /\ uint32 (b_ntx b) /\ uint32 (b_time b) /\ uint32 (b_nonce b) /\ b_prev b <> Some [] /\ b_next b <> Some [].

(** What the result shows of a block.  An amount is the floating point number within half a satoshi of it. *)
From Flocq Require Import Core.
From Coq Require Import Reals.
From Verif Require Import BlockModel.
Definition or_empty {A} (d : A) (x : option A) : A := match x with Some a => a | None => d end.
Definition near (f : spec_float) (sat : Z) : Prop := (Rabs (match f with S754_zero _ => 0 | S754_finite s m e => F2R (Float radix2 (if s then Z.neg m else Z.pos m) e) | _ => -1 end * 100000000 - IZR sat) < / 2)%R.
Definition shows_script (s : script_info) (v : gval) : Prop :=
  v = GStruct [GStr (s_asm s); GStr (s_hex s); GInt (or_empty 0 (s_sigs s)); GStr (s_type s); GSlice (map GStr (or_empty [] (s_addresses s)))].
Definition shows_in (i : in_info) (v : gval) : Prop :=
  match i with
  | Mined script seq => v = GStruct [GStr script; GStr []; GInt 0; GStruct [GStr []; GStr []]; GInt seq]
  | Spends txid vout asm hex seq => v = GStruct [GStr []; GStr txid; GInt vout; GStruct [GStr asm; GStr hex]; GInt seq]
  end.
Definition shows_out (o : out_info) (v : gval) : Prop := exists f s, v = GStruct [GFloat f; GInt (o_n o); s] /\ near f (o_value o) /\ shows_script (o_script o) s.
Definition shows_tx (t : tx_info) (v : gval) : Prop := exists ins outs,
  v = GStruct [GStr (t_hex t); GStr (t_id t); GInt (t_version t); GInt (t_size t); GInt (t_vsize t); GInt (t_weight t); GInt (t_locktime t); GSlice ins; GSlice outs] /\
  Forall2 shows_in (t_in t) ins /\ Forall2 shows_out (t_out t) outs.
Definition shows_block (b : block_info) (v : gval) : Prop := exists txs,
  v = GStruct [GStr (b_hash b); GInt (b_confirmations b); GInt (b_stripped b); GInt (b_size b); GInt (b_weight b); GInt (b_height b); GInt (b_version b); GStr (b_vhex b); GStr (b_root b);
    GSlice txs; GInt (b_ntx b); GInt (b_time b); GInt (b_nonce b); GStr (b_bits b); GFloat (b_difficulty b); GStr (b_work b); GStr (or_empty [] (b_prev b)); GStr (or_empty [] (b_next b))] /\
  Forall2 shows_tx (b_tx b) txs.
