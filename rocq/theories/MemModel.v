(** Model of Go slices in memory, for the places where /repo appends to a slice it was given or keeps two slices at once.

    A heap is the list of the arrays allocated so far; a slice is an array, an offset, a length and a capacity.  Slices of
    scripts and signatures hold bytes, the data stack of the engine holds items; items are values here (engine code never
    writes into an item).  How far [append] overallocates is the runtime's choice: [grow] is arbitrary. *)
From Verif Require Import GoBase BufferModel Bech32Model ScriptModel LockModel TxModel VmModel.

Record slice := Slice { s_arr : nat; s_off : nat; s_len : nat; s_cap : nat }.

(** s[:n] and s[n:]; the stack uses them with n <= len(s). *)
Definition slice_to (s : slice) (n : nat) : slice := Slice (s_arr s) (s_off s) n (s_cap s).
Definition slice_from (s : slice) (n : nat) : slice := Slice (s_arr s) (s_off s + n) (s_len s - n) (s_cap s - n).
(** stack.go:42-47: make([][]byte, 0). *)
Definition empty_slice : slice := Slice 0 0 0 0.

Fixpoint upd {T} (n : nat) (x : T) (l : list T) : list T :=
  match l, n with [], _ => [] | _ :: r, O => x :: r | y :: r, S k => y :: upd k x r end.

Section Mem.
Context {A : Type}.
Variable zero : A.
(** Spare room of a new array, from the old capacity and the length needed. *)
Variable grow : nat -> nat -> nat.

Definition heap := list (list A).
Definition array (h : heap) (a : nat) : list A := nth a h [].
(** The elements s[0], ..., s[len(s)-1]. *)
Definition read (h : heap) (s : slice) : list A := firstn (s_len s) (skipn (s_off s) (array h (s_arr s))).
(** A slice the runtime can produce: it lies in its array. *)
Definition wf (h : heap) (s : slice) : Prop :=
  (s_off s + s_cap s <= length (array h (s_arr s)))%nat /\ (s_len s <= s_cap s)%nat.

(** Writing [xs] from position [i] on. *)
Definition write (l : list A) (i : nat) (xs : list A) : list A := firstn i l ++ xs ++ skipn (i + length xs) l.

(** Go's append(s, xs...): in place if the capacity allows it, otherwise into a new array.  The appended elements are
    read before anything is written. *)
Definition go_append (h : heap) (s : slice) (xs : list A) : heap * slice :=
  let n := (s_len s + length xs)%nat in
  if (n <=? s_cap s)%nat
  then (upd (s_arr s) (write (array h (s_arr s)) (s_off s + s_len s) xs) h, Slice (s_arr s) (s_off s) n (s_cap s))
  else (h ++ [read h s ++ xs ++ repeat zero (grow (s_cap s) n)],
        Slice (length h) 0 n (n + grow (s_cap s) n)).

(** ** The data stack, stack.go: the top is the last element. *)

(** stack.go:56-58. *)
Definition mem_push (h : heap) (s : slice) (v : A) : heap * slice := go_append h s [v].
(** stack.go:118-127: the item removed, or an error which changes nothing. *)
Definition mem_nipN (h : heap) (s : slice) (idx : Z) : heap * slice * res A :=
  let sz := Z.of_nat (s_len s) in
  let pos := sz - idx - 1 in
  if (idx <? 0) || (pos <? 0) then (h, s, Err "script.stack.index.invalid")
  else let p := Z.to_nat pos in
       let so := index (read h s) pos in
       (go_append h (slice_to s p) (read h (slice_from s (p + 1))), so).
(** stack.go:207-211. *)
Definition mem_copy (h : heap) (s : slice) : heap * slice := go_append h empty_slice (read h s).
(** stack.go:214-216. *)
Definition mem_clean (s : slice) : slice := slice_to s 0.

(** The operations which write: every method of the stack is made of these and of reads. *)
Inductive stack_op := OPush (v : A) | ONip (idx : Z) | OClean.
Definition mem_op (h : heap) (s : slice) (o : stack_op) : heap * slice :=
  match o with
  | OPush v => mem_push h s v
  | ONip idx => fst (mem_nipN h s idx)
  | OClean => (h, mem_clean s)
  end.
(** Two stacks in one heap: each operation goes to the first (true) or to the second one. *)
Fixpoint mem_ops (h : heap) (s c : slice) (os : list (bool * stack_op)) : heap * slice * slice :=
  match os with
  | [] => (h, s, c)
  | (true, o) :: r => let (h', s') := mem_op h s o in mem_ops h' s' c r
  | (false, o) :: r => let (h', c') := mem_op h c o in mem_ops h' s c' r
  end.
End Mem.

(** ** The calls which append to a slice of the caller *)
Section Calls.
Variable grow : nat -> nat -> nat.
Local Notation append := (@go_append Z 0 grow).

(** transaction.go:272-278. *)
Definition EmbedMem (sha256 : bytes -> bytes) (h : @heap Z) (idx : Z) (pubkey : bytes) (sig : slice) (ht : Z) (t : transaction)
  : @heap Z * res transaction :=
  let (h', finalsig) := append h sig [u8 ht] in
  (h', EmbedIdxSignature sha256 idx [PKS pubkey (read h' finalsig)] t).

(** bech32.go:79-92. *)
Definition Bech32EncodeMem (h : @heap Z) (hrp : bytes) (data : slice) : @heap Z * res bytes :=
  let (h', combined) := append h data (bech32Checksum hrp (read h data)) in
  (h', let! dataChars := toChars (read h' combined) in Ok (hrp ++ [49] ++ dataChars)).

(** engine.go:89-113. *)
Definition VerifyMem (Hash160 : bytes -> bytes) sigHasher sigVerifier (h : @heap Z) (unlocking locking : slice) (st : vm)
  : @heap Z * res vm :=
  let exec := execute Hash160 sigHasher sigVerifier in
  match exec (read h unlocking) false st with
  | Err e => (h, Err e)
  | Panic => (h, Panic)
  | Ok st1 =>
      let copyStk := dstack st1 in
      let (h', script) := append h unlocking (read h locking) in
      (h', let! st2 := exec (read h' script) true (Vm [] (cstack st1)) in
           if 1 <? len (dstack st2) then
             let! (redeem, s) := PopByteArray copyStk in exec redeem true (Vm s (cstack st2))
           else Ok st2)
  end.
End Calls.
