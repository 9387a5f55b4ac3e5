(** Model of /repo/xbase/base58.go. *)
From Verif Require Import GoBase BigInt.

(** base58.go:14-17 ([alphabetIdx0] is '1' = 49). *)
Definition alphabet : bytes := str_bytes "123456789ABCDEFGHJKLMNPQRSTUVWXYZabcdefghijkmnopqrstuvwxyz".
Definition alphabetIdx0 : Z := 49.

(** base58.go:22-55, rows 6-15 of the table; the other rows are all 255. *)
Definition b58 : list Z :=
  repeat 255 48 ++
  [255;0;1;2;3;4;5;6; 7;8;255;255;255;255;255;255;
   255;9;10;11;12;13;14;15; 16;255;17;18;19;20;21;255;
   22;23;24;25;26;27;28;29; 30;31;32;255;255;255;255;255;
   255;33;34;35;36;37;38;39; 40;41;42;43;255;44;45;46;
   47;48;49;50;51;52;53;54; 55;56;57;255;255;255;255;255] ++
  repeat 255 128.

(** Leading elements equal to [c] (the counting loops at base58.go:76-80 and 103-108). *)
Fixpoint leading (c : Z) (b : bytes) : nat :=
  match b with [] => O | x :: b' => if x =? c then S (leading c b') else O end.

(** base58.go:64-73: the loop from the last character down; [None] is the early return of an empty slice. *)
Fixpoint decode_loop (rb : bytes) (answer j : Z) : option Z :=
  match rb with
  | [] => Some answer
  | c :: rb' =>
      let tmp := nth (Z.to_nat c) b58 255 in
      if tmp =? 255 then None else decode_loop rb' (answer + j * tmp) (j * 58)
  end.

(** base58.go:59-87. *)
Definition Base58Decode (b : bytes) : bytes :=
  match decode_loop (rev b) 0 1 with
  | None => []
  | Some answer => repeat 0 (leading alphabetIdx0 b) ++ big_bytes answer
  end.

(** base58.go:90-115; the in-place reversal at 110-113 is [rev]. *)
Definition Base58Encode (b : bytes) : bytes :=
  let answer := map (fun m => nth (Z.to_nat m) alphabet 0) (digits 58 (set_bytes b)) in
  rev (answer ++ repeat alphabetIdx0 (leading 0 b)).

Section Check.
(** [sha256.Sum256], standard library. *)
Variable sha256 : bytes -> bytes.

(** base58.go:127-132. *)
Definition checksum (input : bytes) : bytes := firstn 4 (sha256 (sha256 input)).

(** base58.go:135-142. *)
Definition Base58CheckEncode (input : bytes) (version : Z) : bytes :=
  let b := [version] ++ input in
  Base58Encode (b ++ checksum b).

(** base58.go:145-159. The slice expressions are in range after the length test. *)
Definition Base58CheckDecode (input : bytes) : res (bytes * Z) :=
  let decoded := Base58Decode input in
  if len decoded <? 5 then Err "invalid format: version and/or checksum bytes missing" else
  let! version := index decoded 0 in
  let! cksum := slice decoded (len decoded - 4) (len decoded) in
  let! body := slice decoded 0 (len decoded - 4) in
  if negb (list_Z_eqb (checksum body) cksum) then Err "checksum error" else
  let! payload := slice decoded 1 (len decoded - 4) in
  Ok (payload, version).
End Check.
