(** Model of /repo/xcrypto/schnorr/schnorr.go and of
    /repo/xcrypto/signature_schnorr.go. *)

From Verif Require Import GoBase BigInt BigMod SecpModel.
Local Open Scope Z_scope.

(** math/big.Jacobi, used here only with the prime P below: Euler's
    criterion. *)
Definition jacobi (x p : Z) : Z :=
  if x mod p =? 0 then 0
  else match big_exp x ((p - 1) / 2) p with
       | Some 1 => 1
       | _ => -1
       end.

(** schnorr.go 144-148: IntToByte.  b1[32-len(b2):] panics on a longer number. *)
Definition IntToByte (i : Z) : res bytes :=
  let b2 := big_bytes i in
  if 32 <? len b2 then Panic else Ok (repeat 0 (Z.to_nat (32 - len b2)) ++ b2).

(** schnorr.go 122-130: GetK.  The Go code also stores the result in k0. *)
Definition GetK (Ry k0 : Z) : Z :=
  if jacobi Ry curveP =? 1 then k0 else curveN - k0.

Section WithHash.
(** sha256.Sum256. *)
Variable sha : bytes -> bytes.

(** schnorr.go 111-119: GetK0.  append(d, m...) copies, since d has no spare
    capacity. *)
Definition GetK0 (m d : bytes) (N : Z) : res Z :=
  let k0 := set_bytes (sha (d ++ m)) mod N in
  if k0 =? 0 then Err "k0 is zero" else Ok k0.

(** schnorr.go 133-141: GetE. *)
Definition GetE (m : bytes) (Px Py : Z) (rX : bytes) : res Z :=
  let! pk := SecMarshal Px Py in
  let r := rX ++ pk in
  let r := r ++ m in
  Ok (set_bytes (sha r) mod curveN).

(** schnorr.go 32-71: Sign.  The clearing of d and k is left out; neither is
    shared with the results. *)
Definition SchnorrSignRS (D : Z) (m : bytes) : res (Z * Z) :=
  let! d := IntToByte D in
  let! k0 := GetK0 m d curveN in
  let! (Rx, Ry) := ScalarBaseMult (big_bytes k0) in
  let! rX := IntToByte Rx in
  let k := GetK Ry k0 in
  let! (Px, Py) := ScalarBaseMult d in
  let! e := GetE m Px Py rX in
  let ed := e * D in
  let s := (k + ed) mod curveN in
  Ok (Rx, s).

(** schnorr.go 88-108: Verify. *)
Definition SchnorrVerifyRS (px py : Z) (m : bytes) (r s : Z) : res bool :=
  if (curveP <? r) || (curveN <? s) then Ok false
  else
    let! rb := IntToByte r in
    let! e := GetE m px py rb in
    let! sb := IntToByte s in
    let! (sGx, sGy) := ScalarBaseMult sb in
    let! eb := IntToByte e in
    let! (ePx, ePy) := ScalarMult px py eb in
    let ePy := curveP - ePy in
    let! (Rx, Ry) := curveAdd sGx sGy ePx ePy in
    if ((Rx =? 0) && (Ry =? 0)) || negb (jacobi Ry curveP =? 1) || negb (Rx =? r)
    then Ok false else Ok true.

(** signature_schnorr.go 28-33: Serialize. *)
Definition SchnorrSerialize (r s : Z) : res bytes :=
  let! rb := IntToByte r in
  let! sb := IntToByte s in
  Ok (rb ++ sb).

(** signature_schnorr.go 36-40: Deserialize; sign[:32] panics on a shorter
    slice (a capacity beyond the length is not modelled). *)
Definition SchnorrDeserialize (sign : bytes) : res (Z * Z) :=
  let! rb := slice sign 0 32 in
  let! sb := slice sign 32 (len sign) in
  Ok (set_bytes rb, set_bytes sb).

(** signature_schnorr.go 43-51: SchnorrSign. *)
Definition SchnorrSign (D : Z) (m : bytes) : res bytes :=
  let! (r, s) := SchnorrSignRS D m in
  SchnorrSerialize r s.

(** signature_schnorr.go 54-65: SchnorrVerify; an error is a refusal. *)
Definition SchnorrVerify (px py : Z) (m sign : bytes) : res unit :=
  let! (r, s) := SchnorrDeserialize sign in
  let! ok := SchnorrVerifyRS px py m r s in
  if ok then Ok tt else Err "schnorr.signature.verify.failed".
End WithHash.
