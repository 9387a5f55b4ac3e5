(** Who can sign an input, said through the bytes of the scripts. *)
From Verif Require Import GoBase ScriptModel ScriptSpec LockModel LockSpec VmSpec TxModel.

(** The parts of an input and of a transaction that signing and verifying leave alone. *)
Definition blank (i : TxIn) : TxIn :=
  MkIn (ti_hash i) (ti_index i) (ti_value i) (ti_seq i) [] (ti_redeem i) [] (ti_code i) (ti_rawlock i) (ti_finallock i) [].
Definition core (t : transaction) : Z * Z * list TxIn * list TxOut := (tx_version t, tx_locktime t, map blank (tx_ins t), tx_outs t).

(** The script [u] pushes exactly the items [ds], in this order. *)
Definition script_pushing (u : bytes) (ds : list bytes) : Prop := exists is, script_of is u /\ Forall2 pushes is ds.

Section Spec.
Variable Hash160 sha256 : bytes -> bytes.
Variable prvkey : Type.
Variable PubKeyBytes : prvkey -> bool -> bytes.
Variable EcdsaSign : prvkey -> bytes -> res bytes.
Variable EcdsaVerify : bytes -> bytes -> bytes -> res unit.

(** A signature scheme whose signatures verify under the signer's public key in both encodings, and that never panics;
    sizes as for DER signatures and SEC keys. *)
Definition scheme_ok : Prop :=
  (forall k c h s, EcdsaSign k h = Ok s -> EcdsaVerify h s (PubKeyBytes k c) = Ok tt) /\
  (forall h s p, EcdsaVerify h s p <> Panic) /\
  (forall k h s, EcdsaSign k h = Ok s -> bytes_ok s /\ 1 <= len s <= 100) /\
  (forall k c, bytes_ok (PubKeyBytes k c) /\ 2 <= len (PubKeyBytes k c) <= 100).
Definition hashes_ok : Prop := (forall x, bytes_ok (Hash160 x) /\ len (Hash160 x) = 20) /\ (forall x, bytes_ok (sha256 x) /\ len (sha256 x) = 32).

(** Inputs spending the four kinds of output, as [NewTxIn] or [SetTxIn] sets them up. *)
Definition spends_p2pkh (h : bytes) (i : TxIn) : Prop := ti_rawlock i = p2pkh_script h /\ ti_finallock i = p2pkh_script h /\ ti_code i = None.
Definition spends_p2wpkh (h : bytes) (i : TxIn) : Prop := ti_rawlock i = p2wpkh_script h /\ ti_finallock i = p2pkh_script h /\ ti_code i = Some (p2pkh_script h).
Definition spends_p2sh (r : bytes) (i : TxIn) : Prop :=
  ti_rawlock i = p2sh_script (Hash160 r) /\ ti_finallock i = p2sh_script (Hash160 r) /\ ti_redeem i = Some r /\ ti_code i = None.
Definition spends_p2wsh (r : bytes) (i : TxIn) : Prop :=
  ti_rawlock i = p2wsh_script (sha256 r) /\ ti_finallock i = p2sh_script (Hash160 r) /\ ti_redeem i = Some r /\ ti_code i = Some r.

(** [ks] are as many keys as the script asks for, in the order of their public keys in the script. *)
Definition multisig_for (c : bool) (ks : list prvkey) (pubs : list bytes) (r : bytes) : Prop :=
  GenMultiSigScript (len ks) pubs = Ok r /\ ks <> [] /\ matched (fun k p => p = PubKeyBytes k c) ks pubs /\
  Forall (fun p => bytes_ok p /\ 2 <= len p <= 100) pubs /\ len pubs < 2 ^ 20.

(** [signers c ks i]: the keys [ks] can spend the input [i]. *)
Inductive signers (c : bool) : list prvkey -> TxIn -> Prop :=
| can_p2pkh k i : spends_p2pkh (Hash160 (PubKeyBytes k c)) i -> signers c [k] i
| can_p2wpkh k i : spends_p2wpkh (Hash160 (PubKeyBytes k c)) i -> signers c [k] i
| can_p2sh ks pubs r i : multisig_for c ks pubs r -> spends_p2sh r i -> signers c ks i
| can_p2wsh ks pubs r i : multisig_for c ks pubs r -> spends_p2wsh r i -> signers c ks i.

(** What an input of each kind should hand over. *)
Definition handed_over (s : script_obj) (c : bool) (ks : list prvkey) (sigs : list bytes) (redeem : bytes) : list bytes :=
  match s, ks, sigs with
  | (P2PKH _ | P2WPKH _), k :: _, sg :: _ => [sg; PubKeyBytes k c]
  | (P2PKH _ | P2WPKH _), _, _ => []
  | (P2SH _ | P2WSH _), _, _ => [] :: sigs ++ [redeem]
  end.

(** Signs the inputs from [idx] onwards, one set of keys each. *)
Variable DS : bytes -> bytes.
Fixpoint sign_each (c : bool) (ht idx : Z) (kss : list (list prvkey)) (t : transaction) : res transaction :=
  match kss with
  | [] => Ok t
  | ks :: r => let! t1 := SignIndex sha256 DS prvkey PubKeyBytes EcdsaSign idx c ht ks t in sign_each c ht (idx + 1) r t1
  end.
End Spec.
