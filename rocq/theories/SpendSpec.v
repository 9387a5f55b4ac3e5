(** Which builders can build; the coins that outputs of earlier transactions are. *)
From Verif Require Import GoBase ScriptModel ScriptSpec HexModel HexProofs AddressModel AddressSpec LockModel LockSpec VmSpec TxModel TxSpec TxSignSpec BuilderModel BuilderSpec BuilderSign.

(** Hexadecimal digits, two for a byte, in either case. *)
Definition is_hex_text (s : bytes) : Prop := Forall is_hex s /\ Nat.even (length s) = true.
(** The id is hexadecimal; the script is that of an address, in hexadecimal. *)
Definition coin_usable (c : Coin) : Prop :=
  is_hex_text (coin_txid c) /\ exists a, address_ok a /\ map hex_low (coin_script c) = hex_encode (LockingScript a).

Section Spec.
Variable Hash160 sha256 DS : bytes -> bytes.
Variable prvkey : Type.
Variable PubKeyBytes : prvkey -> bool -> bytes.
Notation call := (call prvkey).

(** What the calls leave over after payments and fee. *)
Definition left_over (cs : list call) : Z := sumZ (map coin_value (said_coins prvkey cs)) - sumZ (map o_value (said_payments prvkey cs)) - said_fees prvkey cs.
Definition can_build (cs : list call) : Prop :=
  said_coins prvkey cs <> [] /\ said_payments prvkey cs <> [] /\ Forall coin_usable (said_coins prvkey cs) /\ said_fees prvkey cs <= said_max prvkey cs /\ 0 <= left_over cs.
(** Amounts are not negative, the sums below 2^63. *)
Definition sums_ok (cs : list call) : Prop :=
  Forall (fun c => 0 <= coin_value c) (said_coins prvkey cs) /\ Forall (fun o => 0 <= o_value o) (said_payments prvkey cs) /\ 0 <= said_fees prvkey cs < 2 ^ 63 /\
  sumZ (map coin_value (said_coins prvkey cs)) < 2 ^ 63 /\ sumZ (map o_value (said_payments prvkey cs)) < 2 ^ 63.

(** An output of an earlier transaction, with what it takes to spend it. *)
Record holding := MkHolding { h_tx : transaction; h_n : nat; h_out : TxOut; h_compressed : bool; h_keys : list prvkey; h_redeem : obytes }.
Definition holds (h : holding) : Prop :=
  nth_error (tx_outs (h_tx h)) (h_n h) = Some (h_out h) /\ can_spend Hash160 sha256 prvkey PubKeyBytes (h_compressed h) (h_keys h) (to_script (h_out h)) (h_redeem h).
(** Its coin: the text of the transaction's id, the number of the output, its value and its script in hexadecimal. *)
Definition coin_of (h : holding) : Coin := MkCoin (NewIDToString (Hash DS (h_tx h))) (Z.of_nat (h_n h)) (to_value (h_out h)) (hex_encode (to_script (h_out h))).
Definition spend_calls (h : holding) : list call :=
  [CAddCoin prvkey (Some (coin_of h)); CAddKeys prvkey (Some (h_keys h)); CRedeem prvkey (h_redeem h)] ++ (if h_compressed h then [] else [CUncompressed prvkey]) ++ [CThen prvkey].
Definition pay_calls (p : address * Z) : list call := [CTo prvkey (Some (fst p)) (snd p); CThen prvkey].
Definition spending (hs : list holding) (ps : list (address * Z)) (change : address) (fee : Z) : list call :=
  flat_map spend_calls hs ++ flat_map pay_calls ps ++ [CChange prvkey (Some change); CFees prvkey fee; CSign prvkey].
End Spec.
