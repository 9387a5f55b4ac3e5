(** Model of /repo/xcore/address.go, address_p2pkh.go, address_p2sh.go, address_p2wpkh_v0.go,
    address_p2wsh_v0.go (string form) and the address fields of /repo/network/network.go. *)
From Verif Require Import GoBase Base58Model Bech32Model WitnessModel.

(** network/network.go:10-32, the fields used for addresses and keys. *)
Record network := Net { PubKeyHashAddrID : Z; ScriptHashAddrID : Z; Bech32HRPSegwit : bytes;
                        HDPrivateKeyID : bytes; HDPublicKeyID : bytes; Magic : bytes }.
(** network/network.go:36-60. *)
Definition MainNet : network :=
  Net 0x00 0x05 (str_bytes "bc") [0x04; 0x88; 0xad; 0xe4] [0x04; 0x88; 0xb2; 0x1e] [0xf9; 0xbe; 0xb4; 0xd9].
(** network/network.go:63-87. *)
Definition TestNet : network :=
  Net 0x6f 0xc4 (str_bytes "tb") [0x04; 0x35; 0x83; 0x94] [0x04; 0x35; 0x87; 0xcf] [0x0b; 0x11; 0x09; 0x07].

(** The four address types; the hash is a Go array ([20]byte or [32]byte), its length is kept by [address_ok]. *)
Inductive address :=
| PayToPubKeyHashAddress (h : bytes)
| PayToScriptHashAddress (h : bytes)
| PayToWitnessV0PubKeyHashAddress (p : bytes)
| PayToWitnessV0ScriptHashAddress (p : bytes).

(** The constructors return nil unless the length is right
    (address_p2pkh.go:22-32, address_p2sh.go:22-32, address_p2wpkh_v0.go:28-39, address_p2wsh_v0.go:27-38). *)
Definition NewPayToPubKeyHashAddress (h : bytes) : option address :=
  if negb (len h =? 20) then None else Some (PayToPubKeyHashAddress h).
Definition NewPayToScriptHashAddress (h : bytes) : option address :=
  if negb (len h =? 20) then None else Some (PayToScriptHashAddress h).
Definition NewPayToWitnessV0PubKeyHashAddress (p : bytes) : option address :=
  if negb (len p =? 20) then None else Some (PayToWitnessV0PubKeyHashAddress p).
Definition NewPayToWitnessV0ScriptHashAddress (p : bytes) : option address :=
  if negb (len p =? 32) then None else Some (PayToWitnessV0ScriptHashAddress p).

Section Addr.
Variable sha256 : bytes -> bytes.

(** address_p2wpkh_v0.go:42-48 and address_p2wsh_v0.go:41-47: an encoding error gives the empty string. *)
Definition witness_string (net : network) (p : bytes) : bytes :=
  match WitnessEncode (Bech32HRPSegwit net) 0 p with Ok s => s | _ => [] end.

(** The four [ToString] methods (address_p2pkh.go:36, address_p2sh.go:36, address_p2wpkh_v0.go:42, address_p2wsh_v0.go:41). *)
Definition ToString (a : address) (net : network) : bytes :=
  match a with
  | PayToPubKeyHashAddress h => Base58CheckEncode sha256 h (PubKeyHashAddrID net)
  | PayToScriptHashAddress h => Base58CheckEncode sha256 h (ScriptHashAddrID net)
  | PayToWitnessV0PubKeyHashAddress p | PayToWitnessV0ScriptHashAddress p => witness_string net p
  end.

(** A nil interface value as a decoding result cannot be told apart from an address by the caller until used;
    it does not arise because the lengths are tested first. *)
Definition addr_of (o : option address) : res (option address) := Ok o.

(** address.go:56-73, the base58 branch. *)
Definition decode_base58 (addr : bytes) (net : network) : res (option address) :=
  match Base58CheckDecode sha256 addr with
  | Err _ => Err "address format malformed"
  | Panic => Panic
  | Ok (decoded, netID) =>
      if len decoded =? 20 then
        if netID =? PubKeyHashAddrID net then addr_of (NewPayToPubKeyHashAddress decoded)
        else if netID =? ScriptHashAddrID net then addr_of (NewPayToScriptHashAddress decoded)
        else Err "address type unknown"
      else Err "address size malformed"
  end.

(** address.go:33-74. *)
Definition DecodeAddress (addr : bytes) (net : network) : res (option address) :=
  let oneIndex := IndexByte addr 49 in
  if oneIndex =? 2 then
    let! prefix := slice addr 0 oneIndex in
    if list_Z_eqb prefix (Bech32HRPSegwit net) then
      let! (_, version, witnessProgram) := WitnessDecode addr in
      if version =? 0 then
        if len witnessProgram =? 20 then addr_of (NewPayToWitnessV0PubKeyHashAddress witnessProgram)
        else if len witnessProgram =? 32 then addr_of (NewPayToWitnessV0ScriptHashAddress witnessProgram)
        else decode_base58 addr net
      else Err "witness version unsupported"
    else decode_base58 addr net
  else decode_base58 addr net.
End Addr.
