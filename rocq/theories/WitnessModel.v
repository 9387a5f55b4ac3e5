(** Model of /repo/xbase/witness.go. *)
From Verif Require Import GoBase Bech32Model.

(** witness.go:43-46, inner loop [for bits >= tobits]; [fuel] bounds the iterations (at most [frombits] of them). *)
Fixpoint emit (fuel : nat) (acc bits tobits maxv : Z) (ret : bytes) : Z * bytes :=
  match fuel with
  | O => (bits, ret)
  | S f => if tobits <=? bits
           then emit f acc (bits - tobits) tobits maxv (ret ++ [u8 (Z.land (Z.shiftr acc (bits - tobits)) maxv)])
           else (bits, ret)
  end.

(** witness.go:41-47; [acc] is a Go int and wraps at 64 bits. *)
Fixpoint convert_loop (data : bytes) (frombits tobits maxv maxAcc : Z) (acc bits : Z) (ret : bytes) : Z * Z * bytes :=
  match data with
  | [] => (acc, bits, ret)
  | value :: data' =>
      let acc := i64 (Z.lor (Z.shiftl acc frombits) (Z.land value maxAcc)) in
      let '(bits, ret) := emit 16 acc (bits + frombits) tobits maxv ret in
      convert_loop data' frombits tobits maxv maxAcc acc bits ret
  end.

(** witness.go:34-63. *)
Definition convertBits (data : bytes) (frombits tobits : Z) (pad : bool) : res bytes :=
  let maxv := Z.shiftl 1 tobits - 1 in
  let maxAcc := Z.shiftl 1 (frombits + tobits - 1) - 1 in
  let '(acc, bits, ret) := convert_loop data frombits tobits maxv maxAcc 0 0 [] in
  if pad then
    if 0 <? bits then Ok (ret ++ [u8 (Z.land (i64 (Z.shiftl acc (tobits - bits))) maxv)]) else Ok ret
  else
    if frombits <=? bits then Err "illegal zero padding" else
    if negb (Z.land (i64 (Z.shiftl acc (tobits - bits))) maxv =? 0) then Err "non-zero padding" else
    Ok ret.

(** witness.go:13-23; [data[1:]] panics on an empty data part. *)
Definition WitnessDecode (addr : bytes) : res (bytes * Z * bytes) :=
  let! (hrp, data) := Bech32Decode addr in
  let! tail := slice data 1 (len data) in
  let! r := convertBits tail 5 8 false in
  let! version := index data 0 in
  Ok (hrp, version, r).

(** witness.go:26-32. *)
Definition WitnessEncode (hrp : bytes) (version : Z) (program : bytes) : res bytes :=
  let! data := convertBits program 8 5 true in
  Bech32Encode hrp ([version] ++ data).
