(** Model of /repo/xcrypto/ecdsa/ecdsa.go and rfc6979.go, with the curve
    secp256k1 (the only one the repository makes keys for).

    HMAC-SHA256 is a parameter.  Slices are values; InPlaceModel has the
    buffers of the nonce in memory. *)

From Verif Require Import GoBase BigInt BigMod SecpModel.
Local Open Scope Z_scope.

(** math/big Int.BitLen. *)
Definition bit_len (x : Z) : Z := if x =? 0 then 0 else Z.log2 (Z.abs x) + 1.

Section Nonce.
(** hmac key message, 32 bytes in the program. *)
Variable hmac : bytes -> bytes -> bytes.

(** rfc6979.go 72-78: mac. *)
Definition mac (k m : bytes) : bytes := hmac k m.

(** rfc6979.go 81-88: bits2int. *)
Definition bits2int (inp : bytes) (qlen : Z) : Z :=
  let vlen := len inp * 8 in
  let v := set_bytes inp in
  if qlen <? vlen then Z.shiftr v (vlen - qlen) else v.

(** rfc6979.go 91-109: int2octets. *)
Definition int2octets (v rolen : Z) : bytes :=
  let out := big_bytes v in
  if len out <? rolen then repeat 0 (Z.to_nat (rolen - len out)) ++ out
  else if rolen <? len out then skipn (Z.to_nat (len out - rolen)) out
  else out.

(** rfc6979.go 112-119: bits2octets. *)
Definition bits2octets (inp : bytes) (q qlen rolen : Z) : bytes :=
  let z1 := bits2int inp qlen in
  let z2 := z1 - q in
  if z2 <? 0 then int2octets z1 rolen else int2octets z2 rolen.

(** rfc6979.go 53-56: step H2.  Every round appends 32 bytes, so qlen/8 rounds
    are more than enough. *)
Fixpoint stepH2 (fuel : nat) (k v t : bytes) (want : Z) : bytes * bytes :=
  match fuel with
  | O => (v, t)
  | S f =>
      if len t <? want then let v := mac k v in stepH2 f k v (t ++ v) want
      else (v, t)
  end.

(** rfc6979.go 48-66: step H.  [None] when [fuel] rounds were not enough. *)
Fixpoint stepH (fuel : nat) (q qlen : Z) (k v : bytes) : option Z :=
  match fuel with
  | O => None
  | S f =>
      let '(v, t) := stepH2 (Z.to_nat (qlen / 8)) k v [] (qlen / 8) in
      let secret := bits2int t qlen in
      if (1 <=? secret) && (secret <? q) then Some secret
      else
        let k := mac k (v ++ [0]) in
        let v := mac k v in
        stepH f q qlen k v
  end.

(** rfc6979.go 25-69: NonceRFC6979. *)
Definition NonceRFC6979 (fuel : nat) (q x : Z) (hash : bytes) : option Z :=
  let qlen := bit_len q in
  let holen := 32%nat in
  let rolen := Z.shiftr (qlen + 7) 3 in
  let bx := int2octets x rolen ++ bits2octets hash q qlen rolen in
  let v := repeat 1 holen in
  let k := repeat 0 holen in
  let k := mac k ((v ++ [0]) ++ bx) in
  let v := mac k v in
  let k := mac k ((v ++ [1]) ++ bx) in
  let v := mac k v in
  stepH fuel q qlen k v.

(** ecdsa.go 68-81: HashToInt. *)
Definition HashToInt (hash : bytes) : Z :=
  let orderBits := bit_len curveN in
  let orderBytes := (orderBits + 7) / 8 in
  let hash := if orderBytes <? len hash then firstn (Z.to_nat orderBytes) hash else hash in
  let ret := set_bytes hash in
  let excess := len hash * 8 - orderBits in
  if 0 <? excess then Z.shiftr ret excess else ret.

(** ecdsa.go 41-44: the low half. *)
Definition lowS (s : Z) : Z :=
  let halfOrder := Z.shiftr curveN 1 in
  if halfOrder <? s then curveN - s else s.

(** ecdsa.go 25-52: Sign after the nonce has been chosen. *)
Definition SignWith (D k : Z) (hash : bytes) : res (Z * Z) :=
  let! (rx, _) := ScalarBaseMult (big_bytes k) in
  let r := rx mod curveN in
  if r =? 0 then Err "calculated R is zero"
  else
    let e := HashToInt hash in
    match mod_inverse k curveN with
    | None => Panic
    | Some kinv =>
        let s := ((D * r + e) * kinv) mod curveN in
        let s := lowS s in
        if s =? 0 then Err "calculated S is zero" else Ok (r, s)
    end.

(** ecdsa.go 17-53: Sign.  [None] when the nonce loop has not ended within
    [fuel] rounds. *)
Definition Sign (fuel : nat) (D : Z) (hash : bytes) : option (res (Z * Z)) :=
  match NonceRFC6979 fuel curveN D hash with
  | None => None
  | Some k => Some (SignWith D k hash)
  end.

(** ecdsa.go 57-59: Verify, which is crypto/ecdsa.Verify.  This is the
    algorithm of the standard library (trusted base) for a curve it has no
    special code for, calling the repository's curve methods. *)
Definition Verify (px py : Z) (hash : bytes) (r s : Z) : res bool :=
  if (r <=? 0) || (s <=? 0) then Ok false
  else if (curveN <=? r) || (curveN <=? s) then Ok false
  else
    let e := HashToInt hash in
    match mod_inverse s curveN with
    | None => Panic
    | Some w =>
        let u1 := (e * w) mod curveN in
        let u2 := (r * w) mod curveN in
        let! (x1, y1) := ScalarBaseMult (big_bytes u1) in
        let! (x2, y2) := ScalarMult px py (big_bytes u2) in
        let! (x, y) := curveAdd x1 y1 x2 y2 in
        if (x =? 0) && (y =? 0) then Ok false
        else Ok (x mod curveN =? r)
    end.
End Nonce.

(** prvkey.go 25-37: PrvKeyFromBytes gives D and the coordinates. *)
Definition PrvKeyFromBytes (key : bytes) : res (Z * (Z * Z)) :=
  let! p := ScalarBaseMult key in Ok (set_bytes key, p).
