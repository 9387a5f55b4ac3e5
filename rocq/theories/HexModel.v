(** Model of /repo/xbase/hash.go, with Go's encoding/hex. *)
From Verif Require Import GoBase.

(** encoding/hex: value of a digit, lower or upper case. *)
Definition fromHexChar (c : Z) : option Z :=
  if (48 <=? c) && (c <=? 57) then Some (c - 48)
  else if (97 <=? c) && (c <=? 102) then Some (c - 97 + 10)
  else if (65 <=? c) && (c <=? 70) then Some (c - 65 + 10)
  else None.
Definition toHexChar (n : Z) : Z := if n <? 10 then 48 + n else 87 + n.

(** [hex.DecodeString]. *)
Fixpoint hex_decode (s : bytes) : res bytes :=
  match s with
  | [] => Ok []
  | [c] => match fromHexChar c with Some _ => Err "encoding/hex: odd length hex string" | None => Err "encoding/hex: invalid byte" end
  | a :: b :: r =>
      match fromHexChar a, fromHexChar b with
      | Some x, Some y => let! d := hex_decode r in Ok (Z.lor (Z.shiftl x 4) y :: d)
      | _, _ => Err "encoding/hex: invalid byte"
      end
  end.
(** [hex.EncodeToString]. *)
Definition hex_encode (b : bytes) : bytes :=
  flat_map (fun v => [toHexChar (Z.shiftr v 4); toHexChar (Z.land v 15)]) b.

(** hash.go:18-22 and 29-33: the swap loop [for i := 0; i < size/2; i++ { h[i], h[size-1-i] = h[size-1-i], h[i] }]. *)
Fixpoint set_nth (l : bytes) (n : nat) (v : Z) : bytes :=
  match l, n with
  | [], _ => []
  | _ :: l', O => v :: l'
  | x :: l', S n' => x :: set_nth l' n' v
  end.
Fixpoint swap_loop (n i : nat) (h : bytes) : bytes :=
  match n with
  | O => h
  | S n' =>
      let j := (length h - 1 - i)%nat in
      let a := nth i h 0 in
      let b := nth j h 0 in
      swap_loop n' (S i) (set_nth (set_nth h i b) j a)
  end.
Definition reverse_bytes (h : bytes) : bytes := swap_loop (Nat.div2 (length h)) 0 h.

(** hash.go:13-24. *)
Definition NewIDFromString (hashStr : bytes) : res bytes :=
  let! hash := hex_decode hashStr in
  Ok (reverse_bytes hash).
(** hash.go:27-35. *)
Definition NewIDToString (hash : bytes) : bytes := hex_encode (reverse_bytes hash).
