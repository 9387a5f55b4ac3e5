(** xcrypto/merkle.go: Merkle trees over double SHA-256. *)
From Verif Require Import GoBase.

(** merkle.go:13-17. *)
Definition positionLeft : string := "left".
Definition positionRight : string := "right".
(** merkle.go:20-24.  A nil [Hash] is observable. *)
Record Node := MkNode { n_hash : obytes; n_parent : bytes; n_position : string }.

Section Merkle.
Variable DoubleSha256 : bytes -> bytes.

(** [copy(hash[a:a+32], b)] into zeroed memory. *)
Definition copy32 (b : bytes) : bytes := firstn 32 (b ++ repeat 0 32).
(** merkle.go:71-76. *)
Definition merkleNode (left right : obytes) : bytes := DoubleSha256 (copy32 (nilb left) ++ copy32 (nilb right)).

(** merkle.go:51-66: one round of the loop over [j].  [next] is written left to right; what follows a [break] stays nil.
    A level of odd length would index past its end. *)
Fixpoint next_level (level : list obytes) : res (list obytes) :=
  match level with
  | [] => Ok []
  | [_] => Panic
  | lft :: None :: rest => Ok (Some (merkleNode lft lft) :: repeat None (length rest / 2))
  | lft :: rgt :: rest => let! next := next_level rest in Ok (Some (merkleNode lft rgt) :: next)
  end.
(** merkle.go:50-67: the loop over [i].  Returns levels 0 to [i]. *)
Fixpoint build_levels (i : nat) (level : list obytes) : res (list (list obytes)) :=
  match i with
  | O => Ok [level]
  | S i' => let! next := next_level level in let! above := build_levels i' next in Ok (above ++ [level])
  end.
(** merkle.go:44: [int(math.Ceil(math.Log2(float64(n))))].  The floating point functions are not modelled: below 2^40 they
    give the exact value; Log2(0) is -Inf, which converts to the least int. *)
Definition tree_depth (n : Z) : Z := if n =? 0 then - 2 ^ 63 else Z.log2_up n.
(** merkle.go:42-69.  [copy] stops at the shorter length. *)
Definition NewMerkle (hashs : list obytes) : res (list (list obytes)) :=
  let n := len hashs in
  let depth := tree_depth n in
  let pow2 := 2 ^ depth in
  if negb (make_ok (depth + 1) 24) then Panic else
  if negb (make_ok pow2 24) then Panic else
  build_levels (Z.to_nat depth) (firstn (Z.to_nat pow2) (hashs ++ repeat None (Z.to_nat pow2 - length hashs))).
(** merkle.go:79-81. *)
Definition Root (m : list (list obytes)) : res obytes := let! l0 := index m 0 in index l0 0.

(** merkle.go:89-94. *)
Fixpoint find_leaf (leaf : bytes) (i : Z) (level : list obytes) : Z :=
  match level with
  | [] => -1
  | le :: rest => if list_Z_eqb leaf (nilb le) then i else find_leaf leaf (i + 1) rest
  end.
(** merkle.go:97-117. *)
Fixpoint proof_loop (m : list (list obytes)) (i : nat) (idx : Z) : res (list Node) :=
  match i with
  | O => Ok []
  | S i' =>
    let! level := index m (Z.of_nat i) in
    let! own := index level idx in
    let! node :=
      if negb (Z.rem idx 2 =? 0) then
        let! sib := index level (idx - 1) in
        Ok (MkNode sib (merkleNode sib own) positionLeft)
      else
        let! sib := index level (idx + 1) in
        let sib := match sib with None => own | _ => sib end in
        Ok (MkNode sib (merkleNode own sib) positionRight) in
    let! path := proof_loop m i' (Z.quot idx 2) in
    Ok (node :: path)
  end.
(** merkle.go:84-120. *)
Definition Proofs (m : list (list obytes)) (leaf : bytes) : res (list Node) :=
  let depth := len m - 1 in
  let! bottom := index m depth in
  let idx := find_leaf leaf 0 bottom in
  if -1 <? idx then proof_loop m (Z.to_nat depth) idx else Ok [].

(** merkle.go:123-143.  The receiver is not used. *)
Fixpoint VerifyPath (hash root : bytes) (path : list Node) : bool :=
  match path with
  | [] => list_Z_eqb hash root
  | node :: rest =>
    if (n_position node =? positionLeft)%string then
      let h := merkleNode (n_hash node) (Some hash) in
      if list_Z_eqb (n_parent node) h then VerifyPath h root rest else false
    else if (n_position node =? positionRight)%string then
      let h := match n_hash node with None => merkleNode (Some hash) (Some hash) | _ => merkleNode (Some hash) (n_hash node) end in
      if list_Z_eqb (n_parent node) h then VerifyPath h root rest else false
    else false
  end.
End Merkle.
