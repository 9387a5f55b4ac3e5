(** Go values and outcomes used by every model file.

    A Go byte is a [Z]; ranges are stated explicitly.  [int] is 64 bits wide.
    Nothing here models repository code; it models the Go language. *)
From Coq Require Export String.
From Coq Require Export ZArith Lia Bool List.
Export ListNotations.
Global Open Scope Z_scope.
Global Open Scope list_scope.

Notation bytes := (list Z).

Definition is_byte (b : Z) : Prop := 0 <= b < 256.
Definition bytes_ok (l : bytes) : Prop := Forall is_byte l.
Definition is_byteb (b : Z) : bool := (0 <=? b) && (b <? 256).

(** [len(x)]. *)
Definition len {A} (l : list A) : Z := Z.of_nat (length l).

(** Outcome of a Go call: a value, a non-nil error, or a run-time panic. *)
Inductive res (A : Type) : Type :=
| Ok (a : A)
| Err (e : string)
| Panic.
Arguments Ok {A} a.
Arguments Err {A} e.
Arguments Panic {A}.

Definition rbind {A B} (r : res A) (f : A -> res B) : res B :=
  match r with Ok a => f a | Err e => Err e | Panic => Panic end.
Notation "'let!' x ':=' r 'in' k" := (rbind r (fun x => k))
  (at level 200, x pattern, r at level 100, k at level 200, right associativity).

Definition is_ok {A} (r : res A) : bool := match r with Ok _ => true | _ => false end.
Definition is_panic {A} (r : res A) : bool := match r with Panic => true | _ => false end.

(** Fixed-width conversions: [byte(x)], [uint16(x)], [uint32(x)], [uint64(x)], [int64(x)], [int32(x)]. *)
Definition u8 (x : Z) : Z := x mod 2 ^ 8.
Definition u16 (x : Z) : Z := x mod 2 ^ 16.
Definition u32 (x : Z) : Z := x mod 2 ^ 32.
Definition u64 (x : Z) : Z := x mod 2 ^ 64.
Definition i64 (x : Z) : Z := (x + 2 ^ 63) mod 2 ^ 64 - 2 ^ 63.
Definition i32 (x : Z) : Z := (x + 2 ^ 31) mod 2 ^ 32 - 2 ^ 31.

(** [l[i]]: panics when out of range. *)
Definition index {A} (l : list A) (i : Z) : res A :=
  if i <? 0 then Panic
  else match nth_error l (Z.to_nat i) with Some x => Ok x | None => Panic end.

(** [l[i:j]]: panics when out of range (capacity is taken to equal length). *)
Definition slice {A} (l : list A) (i j : Z) : res (list A) :=
  if (0 <=? i) && (i <=? j) && (j <=? len l)
  then Ok (firstn (Z.to_nat (j - i)) (skipn (Z.to_nat i) l))
  else Panic.

(** [make([]byte, n)]: panics when [n] is negative or beyond the address space (2^48 bytes on amd64). *)
Definition make_ok (n : Z) (elem_size : Z) : bool := (0 <=? n) && (n * elem_size <=? 2 ^ 48).

(** A byte slice whose nil-ness is observable. *)
Definition obytes := option bytes.
Definition nilb (o : obytes) : bytes := match o with Some b => b | None => [] end.

Fixpoint list_Z_eqb (a b : list Z) : bool :=
  match a, b with
  | [], [] => true
  | x :: a', y :: b' => (x =? y) && list_Z_eqb a' b'
  | _, _ => false
  end.

(** Bytes of a Go string literal. *)
Fixpoint str_bytes (s : string) : bytes :=
  match s with
  | EmptyString => []
  | String c s' => Z.of_N (Ascii.N_of_ascii c) :: str_bytes s'
  end.
