(** What the owner of a party object expects of it. *)
From Verif Require Import GoBase BigMod SecpModel EcdsaModel PaillierModel MpcEcdsaModel LifeModel.

(** The message a party was last asked to sign: the contents of the buffer at the time of the Phase2 call. *)
Fixpoint asked (m : memory) (cs : list ecall) (last : option bytes) : option bytes :=
  match cs with
  | [] => last
  | EWrite b c :: cs => asked (write m b c) cs last
  | EP2 b _ _ :: cs => asked m cs (Some (m b))
  | _ :: cs => asked m cs last
  end.

(** The share of a party with key D for message h, as in C62: hash and nonce belong together. *)
Definition share_of (nonce : Z -> bytes -> Z) (D : Z) (h : bytes) (encpk2 : Z) (encpub2 : ppub) (shareR : Z * Z) (ct : option Z) : Prop :=
  forall encprv, EPhase4 (MkEParty D (nonce D h) (mod_inverse (nonce D h) curveN) h encprv) encpk2 encpub2 shareR = Ok ct.

(** A careful caller: every Phase2 answers, and the buffer of the last one is not written to. *)
Definition answered (r : res eout) : Prop := exists x, r = Ok (ENonce (Some x)).
Definition careful_call (buffer : option nat) (c : ecall) (r : res eout) : Prop :=
  match c with EWrite b _ => buffer <> Some b | EP2 _ _ _ => answered r | _ => True end.
Definition buffer_after (buffer : option nat) (c : ecall) : option nat := match c with EP2 b _ _ => Some b | _ => buffer end.
Fixpoint careful (buffer : option nat) (cs : list ecall) (rs : list (res eout)) : Prop :=
  match cs, rs with
  | c :: cs, r :: rs => careful_call buffer c r /\ careful (buffer_after buffer c) cs rs
  | _, _ => True
  end.

(** What a closed party may still answer. *)
Definition harmless (c : ecall) (r : res eout) : Prop :=
  match r with
  | Ok ENothing | Err _ | Panic => True
  | Ok (EPoint p) => exists r2, c = EP3 r2 /\ ScalarMult (fst r2) (snd r2) [] = Ok p
  | Ok _ => False
  end.
