(** What a builder was told about each coin: its keys, redeem script, kind of public key and type of signature. *)
From Verif Require Import GoBase ScriptModel AddressModel LockModel TxModel BuilderModel BuilderSpec.

Section Spec.
Variable sha256 DS : bytes -> bytes.
Variable prvkey : Type.
Variable PubKeyBytes : prvkey -> bool -> bytes.
Variable EcdsaSign : prvkey -> bytes -> res bytes.
Notation call := (call prvkey).

(** The options of a coin that AddCoin sets to their defaults. *)
Definition is_option (c : call) : Prop := match c with CSigHash _ _ | CUncompressed _ => True | _ => False end.
(** No option comes before a coin. *)
Definition coin_first (s : list call) : Prop := forall x c y, s = x ++ CAddCoin prvkey c :: y -> Forall (fun o => ~ is_option o) x.
(** The last call counts; without one, nil, a compressed key and SIGHASH_ALL. *)
Definition said_keys (s : list call) : option (list prvkey) := said prvkey (fun c => match c with CAddKeys _ k => Some k | _ => None end) None s.
Definition said_redeem (s : list call) : obytes := said prvkey (fun c => match c with CRedeem _ r => Some r | _ => None end) None s.
Definition said_type (s : list call) : Z := said prvkey (fun c => match c with CSigHash _ ty => Some ty | _ => None end) 1 s.
Definition said_compressed (s : list call) : bool := said prvkey (fun c => match c with CUncompressed _ => Some false | _ => None end) true s.
(** One for each coin. *)
Definition per_coin {A} (f : list call -> A) (cs : list call) : list A := flat_map (fun s => match said_coin prvkey s with [] => [] | _ => [f s] end) (stretches prvkey cs).
Definition how_signed (s : list call) : bool * Z * option (list prvkey) := (said_compressed s, said_type s, said_keys s).

(** The inputs from [n] on signed one after another, each in its own way; there are keys for each. *)
Inductive signed_as : Z -> list (bool * Z * option (list prvkey)) -> transaction -> transaction -> Prop :=
| signed_none n t : signed_as n [] t t
| signed_next n c ty ks l t t1 t2 : SignIndex sha256 DS prvkey PubKeyBytes EcdsaSign n c ty ks t = Ok t1 -> signed_as (n + 1) l t1 t2 -> signed_as n ((c, ty, Some ks) :: l) t t2.

(** A later [k] leaves nothing of [o]. *)
Inductive silences : call -> call -> Prop :=
| sil_coin c1 c2 : silences (CAddCoin prvkey c1) (CAddCoin prvkey c2)
| sil_option o c : is_option o -> silences o (CAddCoin prvkey c)
| sil_to a v b w : silences (CTo prvkey a v) (CTo prvkey b w)
| sil_keys k l : silences (CAddKeys prvkey k) (CAddKeys prvkey l)
| sil_redeem r s : silences (CRedeem prvkey r) (CRedeem prvkey s).
Definition not_sign (c : call) : bool := match c with CSign _ => false | _ => true end.
End Spec.
