(** Model of /repo/xcrypto/signature_ecdsa.go with the parts of encoding/asn1
    it uses: Marshal and Unmarshal of a struct of two *big.Int fields. *)

From Verif Require Import GoBase BigInt BigMod SecpModel EcdsaModel.
Local Open Scope Z_scope.

(** asn1 marshal.go, makeBigInt: two's complement, minimal. *)
Definition make_big_int (n : Z) : bytes :=
  if n <? 0 then
    let nMinus1 := - n - 1 in
    let b := map (fun x => 255 - x) (big_bytes nMinus1) in
    match b with
    | x :: _ => if Z.land x 0x80 =? 0 then 0xff :: b else b
    | [] => 0xff :: b
    end
  else if n =? 0 then [0]
  else
    let b := big_bytes n in
    match b with
    | x :: _ => if negb (Z.land x 0x80 =? 0) then 0 :: b else b
    | [] => b
    end.

(** asn1 marshal.go, lengthLength and appendLength: the base-256 digits of a
    positive length. *)
Definition length_octets (n : Z) : bytes := big_bytes n.

(** asn1 marshal.go, appendTagAndLength for a tag below 31. *)
Definition tag_and_length (b n : Z) : bytes :=
  if 128 <=? n then
    let l := length_octets n in
    b :: Z.lor 0x80 (u8 (len l)) :: l
  else [b; u8 n].

(** asn1.Marshal of SignatureEcdsa: a SEQUENCE of two INTEGERs. *)
Definition marshal_int (n : Z) : bytes :=
  let c := make_big_int n in tag_and_length 0x02 (len c) ++ c.
Definition marshal_sig (r s : Z) : bytes :=
  let body := marshal_int r ++ marshal_int s in
  tag_and_length 0x30 (len body) ++ body.

(** asn1.go, parseTagAndLength: the loop over the length bytes. *)
Fixpoint parse_length (n : nat) (l : Z) (b : bytes) : res (Z * bytes) :=
  match n with
  | O => Ok (l, b)
  | S n' =>
      match b with
      | [] => Err "truncated tag or length"
      | x :: b' =>
          if 2 ^ 23 <=? l then Err "length too large"
          else
            let l' := Z.lor (Z.shiftl l 8) x in
            if l' =? 0 then Err "superfluous leading zeros in length"
            else parse_length n' l' b'
      end
  end.

(** asn1.go, parseTagAndLength, on the bytes from the offset on; returns
    class, isCompound, tag, length and the bytes after the header.  A tag of 31
    introduces a long tag, which is an error or at least 31 and so never one of
    the two tags wanted here: an error in both cases. *)
Definition parse_header (b : bytes) : res (Z * bool * Z * Z * bytes) :=
  match b with
  | [] => Err "internal error in parseTagAndLength"
  | x :: b =>
      let class := Z.shiftr x 6 in
      let isCompound := Z.land x 0x20 =? 0x20 in
      let tag := Z.land x 0x1f in
      if tag =? 0x1f then Err "long tag"
      else
        match b with
        | [] => Err "truncated tag or length"
        | y :: b =>
            if Z.land y 0x80 =? 0 then Ok (class, isCompound, tag, Z.land y 0x7f, b)
            else
              let numBytes := Z.land y 0x7f in
              if numBytes =? 0 then Err "indefinite length found (not DER)"
              else
                let! (l, b) := parse_length (Z.to_nat numBytes) 0 b in
                if l <? 0x80 then Err "non-minimal length"
                else Ok (class, isCompound, tag, l, b)
        end
  end.

(** asn1.go, parseField without parameters: the tag wanted and whether it is
    compound; returns the contents and the bytes after them. *)
Definition parse_field (wantTag : Z) (wantCompound : bool) (b : bytes) : res (bytes * bytes) :=
  if len b =? 0 then Err "sequence truncated"
  else
    let! (class, isCompound, tag, l, rest) := parse_header b in
    if negb (class =? 0) || negb (tag =? wantTag) || negb (eqb isCompound wantCompound)
    then Err "tags don't match"
    else if len rest <? l then Err "data truncated"
    else Ok (firstn (Z.to_nat l) rest, skipn (Z.to_nat l) rest).

(** asn1.go, checkInteger and parseBigInt. *)
Definition check_integer (b : bytes) : res unit :=
  match b with
  | [] => Err "empty integer"
  | [_] => Ok tt
  | x :: y :: _ =>
      if ((x =? 0) && (Z.land y 0x80 =? 0)) || ((x =? 0xff) && (Z.land y 0x80 =? 0x80))
      then Err "integer not minimally-encoded" else Ok tt
  end.

Definition parse_big_int (b : bytes) : res Z :=
  let! _ := check_integer b in
  match b with
  | x :: _ =>
      if Z.land x 0x80 =? 0x80 then Ok (- (set_bytes (map (fun x => 255 - x) b) + 1))
      else Ok (set_bytes b)
  | [] => Ok (set_bytes b)
  end.

(** asn1.Unmarshal into SignatureEcdsa; the rest it returns is dropped by
    Deserialize, and the rest of the SEQUENCE by parseField. *)
Definition unmarshal_sig (b : bytes) : res (Z * Z) :=
  let! (inner, rest) := parse_field 16 true b in
  let! (rb, inner) := parse_field 2 false inner in
  let! r := parse_big_int rb in
  let! (sb, inner) := parse_field 2 false inner in
  let! s := parse_big_int sb in
  Ok (r, s).

(** signature_ecdsa.go 29-35: Serialize; 38-41: Deserialize. *)
Definition SigSerialize (r s : Z) : res bytes := Ok (marshal_sig r s).
Definition SigDeserialize (sign : bytes) : res (Z * Z) := unmarshal_sig sign.

(** signature_ecdsa.go 44-52: EcdsaSign. *)
Definition EcdsaSign (hmac : bytes -> bytes -> bytes) (fuel : nat) (D : Z) (hash : bytes) : option (res bytes) :=
  match Sign hmac fuel D hash with
  | None => None
  | Some r => Some (let! (r, s) := r in SigSerialize r s)
  end.

(** signature_ecdsa.go 55-66: EcdsaVerify. *)
Definition EcdsaVerify (px py : Z) (hash sign : bytes) : res unit :=
  let! (r, s) := SigDeserialize sign in
  let! ok := Verify px py hash r s in
  if ok then Ok tt else Err "ecdsa.signature.verify.failed".
