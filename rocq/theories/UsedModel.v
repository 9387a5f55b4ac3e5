(** Model of a [*Transaction] that is used more than once (/repo/xcore/transaction.go): what [Deserialize] leaves behind,
    also when it fails, and what [Verify] leaves behind.

    [tx.inputs] and [tx.outputs] are slices of pointers: [make] fills them with nil, and the reading loops replace the
    nil pointers one by one.  Simplified as in TxModel: every input has its own [*TxIn]. *)
From Verif Require Import GoBase BufferModel ScriptModel LockModel VmModel VmCalls TxModel.

(** transaction.go:113-121 with the pointers. *)
Record txobj := Obj {
  ob_version : Z; ob_locktime : Z; ob_ins : list (option TxIn); ob_outs : list (option TxOut);
  ob_prevouts : obytes; ob_sequence : obytes; ob_outputs : obytes }.
Definition of_tx (t : transaction) : txobj :=
  Obj (tx_version t) (tx_locktime t) (map Some (tx_ins t)) (map Some (tx_outs t)) (tx_prevouts t) (tx_sequence t) (tx_outputs t).
Fixpoint all_set {A} (l : list (option A)) : option (list A) :=
  match l with
  | [] => Some []
  | Some x :: r => match all_set r with Some xs => Some (x :: xs) | None => None end
  | None :: _ => None
  end.
(** The calls that look at every input and every output dereference all the pointers (SerializeNoWitness,
    transaction.go:598-616; Serialize, :458-476). *)
Definition deref (o : txobj) : res transaction :=
  match all_set (ob_ins o), all_set (ob_outs o) with
  | Some ins, Some outs => Ok (MkTx (ob_version o) (ob_locktime o) ins outs (ob_prevouts o) (ob_sequence o) (ob_outputs o))
  | _, _ => Panic
  end.
(** transaction.go:189-191 on an object: the bytes that are hashed to the identifier. *)
Definition IDBytes (o : txobj) : res bytes := let! t := deref o in Ok (SerializeNoWitness t).

Definition ob_set_version (v : Z) (o : txobj) : txobj := Obj v (ob_locktime o) (ob_ins o) (ob_outs o) (ob_prevouts o) (ob_sequence o) (ob_outputs o).
Definition ob_set_locktime (v : Z) (o : txobj) : txobj := Obj (ob_version o) v (ob_ins o) (ob_outs o) (ob_prevouts o) (ob_sequence o) (ob_outputs o).
Definition ob_set_ins (l : list (option TxIn)) (o : txobj) : txobj := Obj (ob_version o) (ob_locktime o) l (ob_outs o) (ob_prevouts o) (ob_sequence o) (ob_outputs o).
Definition ob_set_outs (l : list (option TxOut)) (o : txobj) : txobj := Obj (ob_version o) (ob_locktime o) (ob_ins o) l (ob_prevouts o) (ob_sequence o) (ob_outputs o).

(** A step of a reading function: result, object and buffer afterwards. *)
Definition OM (A : Type) := txobj -> buffer -> res A * txobj * buffer.
Definition oret {A} (a : A) : OM A := fun o b => (Ok a, o, b).
Definition obind {A B} (m : OM A) (f : A -> OM B) : OM B := fun o b =>
  match m o b with
  | (Ok a, o', b') => f a o' b'
  | (Err e, o', b') => (Err e, o', b')
  | (Panic, o', b') => (Panic, o', b')
  end.
Notation "'run' x '<-' m ';' k" := (obind m (fun x => k))
  (at level 200, x pattern, m at level 100, k at level 200, right associativity).
Definition olift {A} (m : BM A) : OM A := fun o b => let (r, b') := m b in (r, o, b').
Definition oset (f : txobj -> txobj) : OM unit := fun o b => (Ok tt, f o, b).
(** [if tx.field, err = buffer.Read...(); err != nil { return err }]: the field becomes 0 on an error. *)
Definition ofield (m : BM Z) (set : Z -> txobj -> txobj) : OM unit := fun o b =>
  match m b with
  | (Ok v, b') => (Ok tt, set v o, b')
  | (Err e, b') => (Err e, set 0 o, b')
  | (Panic, b') => (Panic, o, b')
  end.

(** The loops of transaction.go:525-541 and 549-561 from slot [k] on, [n] rounds. *)
Fixpoint fill_ins (n k : nat) : OM unit :=
  match n with
  | O => oret tt
  | S n' => run i <- olift read_in; run _ <- oset (fun o => ob_set_ins (update k (fun _ => Some i) (ob_ins o)) o); fill_ins n' (S k)
  end.
Fixpoint fill_outs (n k : nat) : OM unit :=
  match n with
  | O => oret tt
  | S n' => run x <- olift read_out; run _ <- oset (fun o => ob_set_outs (update k (fun _ => Some x) (ob_outs o)) o); fill_outs n' (S k)
  end.
(** transaction.go:519-542 and 545-562. *)
Definition into_ins : OM unit :=
  run n <- olift ReadVarInt;
  if 0 <? n then run _ <- olift (bmake n 8); run _ <- oset (ob_set_ins (repeat None (Z.to_nat n))); fill_ins (Z.to_nat (i64 n)) 0 else oret tt.
Definition into_outs : OM unit :=
  run n <- olift ReadVarInt;
  if 0 <? n then run _ <- olift (bmake n 8); run _ <- oset (ob_set_outs (repeat None (Z.to_nat n))); fill_outs (Z.to_nat (i64 n)) 0 else oret tt.

Definition on_witness (k : nat) (f : list bytes -> list bytes) (o : txobj) : txobj :=
  ob_set_ins (update k (fun p => match p with Some i => Some (with_witness (f (ti_witness i)) i) | None => None end) (ob_ins o)) o.
(** [tx.inputs[k]] is not nil. *)
Definition oderef (k : nat) : OM unit := fun o b =>
  match nth_error (ob_ins o) k with Some (Some _) => (Ok tt, o, b) | _ => (Panic, o, b) end.
(** transaction.go:574-578. *)
Fixpoint fill_items (k n j : nat) : OM unit :=
  match n with
  | O => oret tt
  | S n' => run w <- olift read_item; run _ <- oset (on_witness k (update j (fun _ => w))); fill_items k n' (S j)
  end.
(** transaction.go:567-579, [n] inputs from the [k]th on. *)
Fixpoint fill_witness (n k : nat) : OM unit :=
  match n with
  | O => oret tt
  | S n' =>
      run c <- olift ReadVarInt; run _ <- olift (bmake c 24); run _ <- oderef k;
      run _ <- oset (on_witness k (fun _ => repeat [] (Z.to_nat c))); run _ <- fill_items k (Z.to_nat c) 0; fill_witness n' (S k)
  end.
Definition count_ins : OM nat := fun o b => (Ok (length (ob_ins o)), o, b).

(** transaction.go:495-587: the error and the object afterwards. *)
Definition DeserializeInto (data : bytes) (o : txobj) : res unit * txobj :=
  fst ((run _ <- ofield ReadU32 ob_set_version;
        run marker <- olift ReadU8;
        run _ <- olift (bassert (marker =? 0x00) "witness.marker.error");
        run flag <- olift ReadU8;
        run _ <- olift (bassert (flag =? 0x01) "witness.flag.error");
        run _ <- into_ins;
        run _ <- into_outs;
        run n <- count_ins;
        run _ <- fill_witness n 0;
        ofield ReadU32 ob_set_locktime) o (NewBufferReader data)).
(** transaction.go:623-681. *)
Definition DeserializeNoWitnessInto (data : bytes) (o : txobj) : res unit * txobj :=
  fst ((run _ <- ofield ReadU32 ob_set_version;
        run _ <- into_ins;
        run _ <- into_outs;
        ofield ReadU32 ob_set_locktime) o (NewBufferReader data)).

Section Verify.
Variable Hash160 DoubleSha256 : bytes -> bytes.
Variable EcdsaVerify : bytes -> bytes -> bytes -> res unit.
(** transaction.go:684-734: the object after the loop (TxModel.verify_from gives its result). *)
Fixpoint verified_from (idx : Z) (ins : list TxIn) (t : transaction) : transaction :=
  match ins with
  | [] => t
  | i :: r =>
      match ParseLockingScript (ti_rawlock i) with
      | Ok s =>
          let t' :=
            if witness_version s
            then after_calls DoubleSha256 idx (verify_calls Hash160 (sigHashFn DoubleSha256 idx true t) EcdsaVerify (ti_unlock i) (ti_finallock i) NewEngine) t
            else t in
          match verify_input Hash160 DoubleSha256 EcdsaVerify idx i t with
          | Ok _ => verified_from (idx + 1) r t'
          | _ => t'
          end
      | _ => t
      end
  end.
Definition verified (t : transaction) : transaction := verified_from 0 (tx_ins t) t.
End Verify.
