(** Mistyped addresses. *)
From Verif Require Import GoBase Bech32Spec AddressModel.

(** Between one and four characters are replaced. *)
Definition mistyped (s s' : bytes) : Prop := len s' = len s /\ (1 <= distance s s' <= 4)%nat.
Definition witness_address (a : address) : Prop :=
  match a with PayToWitnessV0PubKeyHashAddress _ | PayToWitnessV0ScriptHashAddress _ => True | _ => False end.
