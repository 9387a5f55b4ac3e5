(** Model of /repo/xcrypto/pubkey.go and prvkey.go. *)

From Verif Require Import GoBase BigInt BigMod SecpModel EcdsaModel.
Local Open Scope Z_scope.

(** pubkey.go 69-82: the checks at the end of PubKeyFromBytes. *)
Definition checkPoint (x y : Z) : res (Z * Z) :=
  if curveP <=? x then Err "pubkey.X.is.greater.than.P"
  else if curveP <=? y then Err "pubkey.Y.is.greater.than.P"
  else if negb (IsOnCurve x y) then Err "pubkey.point.is.not.on.the.curve"
  else Ok (x, y).

(** pubkey.go 33-83: PubKeyFromBytes.  The curve field is left out. *)
Definition PubKeyFromBytes (key : bytes) : res (Z * Z) :=
  let pkLen := len key in
  if pkLen =? 0 then Err "pubkey.string.empty"
  else
    let! format := index key 0 in
    let ybit := Z.land format 1 =? 1 in
    let format := Z.land format (255 - 1) in
    if pkLen =? 65 then
      if negb (format =? 4) && negb (format =? 6) then Err "pubkey.format.invalid"
      else
        let! xb := slice key 1 33 in
        let! yb := slice key 33 65 in
        let x := set_bytes xb in
        let y := set_bytes yb in
        let isOdd := Z.odd y in
        if (format =? 6) && negb (eqb ybit isOdd) then Err "pubkey.ybit.doesnt.match.oddness"
        else checkPoint x y
    else if pkLen =? 33 then
      let! o := SecUnmarshal key in
      match o with
      | None => Err "pubkey.format.invalid"
      | Some (x, y) => checkPoint x y
      end
    else Err "pubkey.size.invalid".

(** pubkey.go 126-129: copy(buf[byteLen-len(b):], b) into a zeroed buffer of 32
    bytes; a negative offset panics. *)
Definition pad32 (x : Z) : res bytes :=
  let b := big_bytes x in
  if 32 <? len b then Panic else Ok (repeat 0 (Z.to_nat (32 - len b)) ++ b).

(** pubkey.go 117-135: SerializeUncompressed. *)
Definition SerializeUncompressed (p : Z * Z) : res bytes :=
  let! xb := pad32 (fst p) in
  let! yb := pad32 (snd p) in
  Ok (4 :: xb ++ yb).

(** pubkey.go 138-140: SerializeCompressed; 112-114: Serialize. *)
Definition SerializeCompressed (p : Z * Z) : res bytes := SecMarshal (fst p) (snd p).
Definition Serialize (p : Z * Z) : res bytes := SerializeCompressed p.

(** pubkey.go 148-170: SerializeHybrid. *)
Definition SerializeHybrid (p : Z * Z) : res bytes :=
  let format := if Z.odd (snd p) then Z.lor 6 1 else 6 in
  let! xb := pad32 (fst p) in
  let! yb := pad32 (snd p) in
  Ok (format :: xb ++ yb).

(** pubkey.go 96-109: Add. *)
Definition PubAdd (p q : Z * Z) : res (Z * Z) := curveAdd (fst p) (snd p) (fst q) (snd q).

(** prvkey.go 46-52: Add, on the secret; the new key is built from the bytes of
    the sum. *)
Definition PrvAdd (D : Z) (n2 : bytes) : res (Z * (Z * Z)) :=
  let k := (D + set_bytes n2) mod curveN in
  PrvKeyFromBytes (big_bytes k).

(** prvkey.go 57-66: Serialize; the loop does nothing when D is longer. *)
Definition PrvSerialize (D : Z) : bytes :=
  let b := big_bytes D in
  repeat 0 (Z.to_nat (32 - len b)) ++ b.
