(** The transaction code joined to the program's own keys, signatures and hashes: TxModel and BuilderModel take the
    key type, the serialised public keys, signing, verifying and Hash160 as parameters; here they are the models of
    xcrypto.  SHA-256 and HMAC-SHA256 (Go's library) stay parameters. *)
From Verif Require Import GoBase SecpModel SecpSpec EcdsaModel PubKeyModel DerModel RipemdModel TxModel BuilderModel.
Local Open Scope Z_scope.

(** Go's []byte holds bytes only; a list of other numbers is no argument. *)
Definition is_bytes (b : bytes) : bool := forallb (fun x => (0 <=? x) && (x <=? 255)) b.

Section Whole.
Variable sha256 : bytes -> bytes.
Variable hmac : bytes -> bytes -> bytes.
(** How many candidates the nonce loop may draw. *)
Variable fuel : nat.

(** hash.go 24-26: Hash160. *)
Definition Hash160 (data : bytes) : bytes := match Ripemd160 (sha256 data) with Ok d => d | _ => [] end.
(** hash.go 45-49: DoubleSha256. *)
Definition DoubleSha256 (data : bytes) : bytes := sha256 (sha256 data).

(** A private key with its public key (prvkey.go 21-22), as PrvKeyFromBytes makes it from bytes whose number is not a
    multiple of the group order.  (The others have no public key: their point is at infinity.) *)
Definition made_key (k : Z * (Z * Z)) : Prop :=
  exists b, bytes_ok b /\ PrvKeyFromBytes b = Ok k /\ be b mod order_n <> 0.
Definition prvkey : Type := { k : Z * (Z * Z) | made_key k }.

(** transaction.go 224-228: the public key as written into the unlocking script. *)
Definition PubKeyBytes (k : prvkey) (compressed : bool) : bytes :=
  match (if compressed then SerializeCompressed else SerializeUncompressed) (snd (proj1_sig k)) with Ok b => b | _ => [] end.

(** transaction.go 396 and 423: xcrypto.EcdsaSign of a signature hash.  An exhausted nonce loop is an error here; the
    code would go on drawing. *)
Definition SignHash (k : prvkey) (hash : bytes) : res bytes :=
  if is_bytes hash then
    match DerModel.EcdsaSign hmac fuel (fst (proj1_sig k)) hash with Some r => r | None => Err "nonce loop" end
  else Err "no bytes".

(** transaction.go 711-722: the signature verifier handed to the script engine. *)
Definition sigVerifyFn (hash signature pubkey : bytes) : res unit :=
  if is_bytes hash && is_bytes signature && is_bytes pubkey then
    let! pub := PubKeyFromBytes pubkey in
    DerModel.EcdsaVerify (fst pub) (snd pub) hash signature
  else Err "no bytes".

(** transaction.go 209-245: SignIndex; 684-734: Verify; transactionbuilder.go 165-330: BuildTransaction. *)
Definition WSignIndex := TxModel.SignIndex sha256 DoubleSha256 prvkey PubKeyBytes SignHash.
Definition WVerify := TxModel.Verify Hash160 DoubleSha256 sigVerifyFn.
Definition WBuildTransaction := BuilderModel.BuildTransaction Hash160 sha256 DoubleSha256 prvkey PubKeyBytes SignHash.
End Whole.
