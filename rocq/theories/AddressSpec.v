(** Well-formed addresses. *)
From Verif Require Import GoBase AddressModel.

(** The hash an address stands for, and the length it must have. *)
Definition addr_hash (a : address) : bytes :=
  match a with
  | PayToPubKeyHashAddress h | PayToScriptHashAddress h
  | PayToWitnessV0PubKeyHashAddress h | PayToWitnessV0ScriptHashAddress h => h
  end.
Definition addr_len (a : address) : Z :=
  match a with PayToWitnessV0ScriptHashAddress _ => 32 | _ => 20 end.
Definition address_ok (a : address) : Prop := bytes_ok (addr_hash a) /\ len (addr_hash a) = addr_len a.
Definition known_net (n : network) : Prop := n = MainNet \/ n = TestNet.
(** A hash function as the library needs it: 32 bytes out. *)
Definition hash32 (f : bytes -> bytes) : Prop := forall b, len (f b) = 32 /\ bytes_ok (f b).
