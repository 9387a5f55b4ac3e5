(** Model of /repo/xcrypto/secp256k1/secp256k1.go, sec.go and scalar.go.
    A *big.Int is a [Z] (never nil here unless an [option] says so); Mod is
    Euclidean, as big.Int.Mod is for a positive modulus. *)

From Verif Require Import GoBase BigInt BigMod.
Local Open Scope Z_scope.

(** secp256k1.go 26-35: the curve parameters. *)
Definition curveP : Z := 0xfffffffffffffffffffffffffffffffffffffffffffffffffffffffefffffc2f.
Definition curveN : Z := 0xfffffffffffffffffffffffffffffffebaaedce6af48a03bbfd25e8cd0364141.
Definition curveB : Z := 7.
Definition curveGx : Z := 0x79be667ef9dcbbac55a06295ce870b07029bfcdb2dce28d959f2815b16f81798.
Definition curveGy : Z := 0x483ada7726a3c4655da4fbfc0e1108a8fd17b448a68554199c47d08ffb10d4b8.
Definition curveBitSize : Z := 256.

(** secp256k1.go 49-61: IsOnCurve. *)
Definition IsOnCurve (x y : Z) : bool :=
  let y2 := (y * y) mod curveP in
  let x3 := ((x * x) * x + curveB) mod curveP in
  x3 =? y2.

(** secp256k1.go 67-73: zForAffine. *)
Definition zForAffine (x y : Z) : Z :=
  if negb (x =? 0) || negb (y =? 0) then 1 else 0.

(** secp256k1.go 82-96: affineFromJacobian.  A nil inverse is dereferenced by
    the following Mul. *)
Definition affineFromJacobian (p : Z * Z * Z) : res (Z * Z) :=
  let '(x, y, z) := p in
  if z =? 0 then Ok (0, 0)
  else match mod_inverse z curveP with
       | None => Panic
       | Some zinv =>
           let zinvsq := zinv * zinv in
           let xOut := (x * zinvsq) mod curveP in
           let zinvcb := zinvsq * zinv in
           let yOut := (y * zinvcb) mod curveP in
           Ok (xOut, yOut)
       end.

(** secp256k1.go 206-210, 217-221, 226-230: a negative value is moved up by
    one P, which need not make it non-negative; any other value is reduced. *)
Definition adjust (v : Z) : Z := if v <? 0 then v + curveP else v mod curveP.

(** secp256k1.go 191-240: doubleJacobian. *)
Definition doubleJacobian (x y z : Z) : Z * Z * Z :=
  let a := (x * x) mod curveP in
  let b := (y * y) mod curveP in
  let c := (b * b) mod curveP in
  let d := adjust (2 * ((x + b) * (x + b) - a - c)) in
  let e := (3 * a) mod curveP in
  let f := (e * e) mod curveP in
  let x3 := adjust (f - 2 * d) in
  let y3 := adjust (e * (d - x3) - 8 * c) in
  let z3 := (2 * (y * z)) mod curveP in
  (x3, y3, z3).

(** secp256k1.go 108-181: addJacobian. *)
Definition addJacobian (x1 y1 z1 x2 y2 z2 : Z) : Z * Z * Z :=
  if z1 =? 0 then (x2, y2, z2)
  else if z2 =? 0 then (x1, y1, z1)
  else
    let z1z1 := (z1 * z1) mod curveP in
    let z2z2 := (z2 * z2) mod curveP in
    let u1 := (x1 * z2z2) mod curveP in
    let u2 := (x2 * z1z1) mod curveP in
    let h0 := u2 - u1 in
    let xEqual := h0 =? 0 in
    let h := if h0 <? 0 then h0 + curveP else h0 in
    let i := (2 * h) * (2 * h) in
    let j := h * i in
    let s1 := (y1 * z2 * z2z2) mod curveP in
    let s2 := (y2 * z1 * z1z1) mod curveP in
    let r0 := s2 - s1 in
    let r1 := if r0 <? 0 then r0 + curveP else r0 in
    let yEqual := r1 =? 0 in
    if xEqual && yEqual then doubleJacobian x1 y1 z1
    else
      let r := 2 * r1 in
      let v := u1 * i in
      let x3 := (r * r - j - v - v) mod curveP in
      let y3 := (r * (v - x3) - 2 * (s1 * j)) mod curveP in
      let z3 := (((z1 + z2) * (z1 + z2) - z1z1 - z2z2) * h) mod curveP in
      (x3, y3, z3).

(** secp256k1.go 99-103: Add. *)
Definition curveAdd (x1 y1 x2 y2 : Z) : res (Z * Z) :=
  affineFromJacobian (addJacobian x1 y1 (zForAffine x1 y1) x2 y2 (zForAffine x2 y2)).

(** secp256k1.go 184-187: Double. *)
Definition curveDouble (x1 y1 : Z) : res (Z * Z) :=
  affineFromJacobian (doubleJacobian x1 y1 (zForAffine x1 y1)).

(** secp256k1.go 248-254: the inner loop over the bits of one byte,
    [n] iterations. *)
Fixpoint multBits (n : nat) (Bx By : Z) (byte : Z) (p : Z * Z * Z) : Z * Z * Z :=
  match n with
  | O => p
  | S m =>
      let '(x, y, z) := p in
      let '(x, y, z) := doubleJacobian x y z in
      let p' := if Z.land byte 0x80 =? 0x80 then addJacobian Bx By 1 x y z else (x, y, z) in
      multBits m Bx By ((2 * byte) mod 256) p'
  end.

(** secp256k1.go 247: the loop over the bytes of the scalar. *)
Fixpoint multBytes (Bx By : Z) (k : bytes) (p : Z * Z * Z) : Z * Z * Z :=
  match k with
  | [] => p
  | byte :: k' => multBytes Bx By k' (multBits 8 Bx By byte p)
  end.

(** secp256k1.go 243-257: ScalarMult. *)
Definition ScalarMult (Bx By : Z) (k : bytes) : res (Z * Z) :=
  affineFromJacobian (multBytes Bx By k (0, 0, 0)).

(** secp256k1.go 260-262: ScalarBaseMult. *)
Definition ScalarBaseMult (k : bytes) : res (Z * Z) := ScalarMult curveGx curveGy k.

(** sec.go 15-29: SecMarshal, for non-negative x.  [copy] into
    ret[1+32-len(xBytes):] panics when x has more than 33 bytes and overwrites
    the format byte when it has exactly 33. *)
Definition SecMarshal (x y : Z) : res bytes :=
  let byteLen := (curveBitSize + 7) / 8 in
  let format := if Z.odd y then 0x03 else 0x02 in
  let xBytes := big_bytes x in
  let off := 1 + byteLen - len xBytes in
  if off <? 0 then Panic
  else if off =? 0 then Ok xBytes
  else Ok (format :: repeat 0 (Z.to_nat (off - 1)) ++ xBytes).

(** sec.go 34-56: SecUnmarshal.  When ModSqrt finds no root it returns nil and
    leaves its receiver Y at 0; the code does not look at the result. *)
Definition SecUnmarshal (data : bytes) : res (option (Z * Z)) :=
  match data with
  | [] => Panic
  | d0 :: rest =>
      if negb (Z.land d0 (255 - 1) =? 2) then Ok None
      else
        let X := set_bytes rest in
        let ySquared := X * X * X + curveB in
        let Y := match mod_sqrt ySquared curveP with Some r => r | None => 0 end in
        let Y := if (if Z.odd Y then 1 else 0) =? Z.land d0 1 then Y else curveP - Y in
        Ok (Some (X, Y))
  end.
