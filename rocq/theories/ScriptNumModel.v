(** Model of /repo/xvm/scriptnum.go. *)
From Verif Require Import GoBase.

(** scriptnum.go:47-50, [for absvalue > 0]; an int64 takes at most 8 rounds. *)
Fixpoint abs_loop (fuel : nat) (absvalue : Z) (result : bytes) : bytes :=
  match fuel with
  | O => result
  | S f => if 0 <? absvalue then abs_loop f (Z.shiftr absvalue 8) (result ++ [u8 (Z.land absvalue 255)]) else result
  end.

(** scriptnum.go:35-73.  For the minimum int64 the negation wraps to itself, the loop body never runs and
    [result[len(result)-1]] is out of range. *)
Definition num_bytes (n : Z) : res bytes :=
  if n =? 0 then Ok [] else
  let neg := n <? 0 in
  let absvalue := if neg then i64 (- n) else n in
  let result := abs_loop 8 absvalue [] in
  let! last := index result (len result - 1) in
  if 0 <? Z.land last 128 then
    if neg then Ok (result ++ [128]) else Ok (result ++ [0])
  else if neg then
    let! front := slice result 0 (len result - 1) in
    Ok (front ++ [Z.lor last 128])
  else Ok result.

(** scriptnum.go:76-84. *)
Definition Int32 (n : Z) : Z :=
  if 2 ^ 31 - 1 <? n then 2 ^ 31 - 1 else if n <? - 2 ^ 31 then - 2 ^ 31 else i32 n.

(** scriptnum.go:88-110. *)
Definition checkMinimalDataEncoding (v : bytes) : res unit :=
  if len v =? 0 then Ok tt else
  let! last := index v (len v - 1) in
  if Z.land last 127 =? 0 then
    if len v =? 1 then Err "script.num.not.minimal" else
    let! prev := index v (len v - 2) in
    if Z.land prev 128 =? 0 then Err "script.num.not.minimal" else Ok tt
  else Ok tt.

(** scriptnum.go:130-133: [result |= int64(val) << uint8(8*i)]. *)
Fixpoint num_loop (i : Z) (v : bytes) (result : Z) : Z :=
  match v with
  | [] => result
  | val :: v' => num_loop (i + 1) v' (Z.lor result (i64 (Z.shiftl val (u8 (8 * i)))))
  end.

(** scriptnum.go:113-142. *)
Definition MakeScriptNum (v : bytes) (scriptNumLen : Z) : res Z :=
  if scriptNumLen <? len v then Err "script.num.too.big" else
  let! _ := checkMinimalDataEncoding v in
  if len v =? 0 then Ok 0 else
  let result := num_loop 0 v 0 in
  let! last := index v (len v - 1) in
  if 0 <? Z.land last 128
  then Ok (i64 (- (Z.land result (Z.lnot (i64 (Z.shiftl 128 (u8 (8 * (len v - 1)))))))))
  else Ok result.
