(** Transactions of the network, and what a receiver has to be told of the outputs they spend. *)
From Verif Require Import GoBase ScriptSpec VmSpec TxSignSpec NetSpec.
From Verif Require LockSpec TxSpec.

(** The fields fit their places on the wire and the sizes fit a machine. *)
Definition net_in_ok (i : net_in) : Prop :=
  len (n_prev i) = 32 /\ 0 <= n_index i < 2 ^ 32 /\ 0 <= n_seq i < 2 ^ 32 /\ bytes_ok (n_script i) /\ Forall bytes_ok (n_witness i).
Definition net_ok (t : net_tx) : Prop :=
  0 <= n_version t < 2 ^ 32 /\ 0 <= n_lock t < 2 ^ 32 /\ len (n_ins t) * 8 <= 2 ^ 48 /\ len (n_outs t) * 8 <= 2 ^ 48 /\
  Forall net_in_ok (n_ins t) /\ Forall (fun o => 0 <= fst o < 2 ^ 64 /\ len (snd o) <= 2 ^ 48) (n_outs t).
Definition has_witness (t : net_tx) : bool := existsb (fun i => match n_witness i with [] => false | _ => true end) (n_ins t).

(** With a script hash the receiver is told the script that the input reveals, as its last item. *)
Section Told.
Variable sha256 hash160 : bytes -> bytes.
Definition reveals (i : net_in) (lock : bytes) (told : obytes) : Prop :=
  match told with
  | None => exists h, lock = LockSpec.p2pkh_script h \/ lock = LockSpec.p2wpkh_script h
  | Some s => lock = LockSpec.p2sh_script (hash160 s) /\ (exists items, script_pushing (n_script i) (items ++ [s])) \/
              lock = LockSpec.p2wsh_script (sha256 s) /\ (exists items, n_witness i = items ++ [s])
  end.
(** The outputs spent, [(amount, locking script, told)], one for each input. *)
Definition tells (i : net_in) (p : Z * bytes * obytes) : Prop := 0 <= fst (fst p) < 2 ^ 64 /\ reveals i (snd (fst p)) (snd p).
(** Witness scripts are of at most 16 keys. *)
Definition few_keys (p : Z * bytes * obytes) : Prop :=
  forall s m keys, snd p = Some s -> snd (fst p) = LockSpec.p2wsh_script (sha256 s) -> s = m_of_n m keys -> len keys <= 16.
End Told.
