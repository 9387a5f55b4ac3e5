(** What it means that buffers can be reused. *)
From Verif Require Import GoBase MemModel ReuseModel.

(** Everything taken still holds what it held. *)
Definition kept (w : world) : Prop := forall s c, In (s, c) (w_out w) -> read (w_heap w) s = c.

(** The contents of the buffers when they are lists. *)
Definition list_buf_op (bs : list bytes) (o : bop) : list bytes :=
  match o with
  | BNew => bs ++ [[]]
  | BWrite i cs => match nth_error bs i with Some b => upd i (b ++ concat cs) bs | None => bs end
  | BReset i => match nth_error bs i with Some _ => upd i [] bs | None => bs end
  | BTake i => bs
  end.

(** No buffer is reset after something was taken from it. *)
Fixpoint tidy (taken : list nat) (os : list bop) : Prop :=
  match os with
  | [] => True
  | BReset i :: r => ~ In i taken /\ tidy taken r
  | BTake i :: r => tidy (i :: taken) r
  | _ :: r => tidy taken r
  end.
