(** C146: signing the inputs of a transaction in any order, and again. *)
From Verif Require Import GoBase BaseLemmas BufferModel ScriptModel LockModel LockSpec VmModel VmProofs TxModel TxSpec TxSig TxProps TxSignSpec TxSign TxSign2 TxSignProps.
From Verif Require Import AgainProofs.
From Coq Require Import Permutation ZifyBool ZifyNat ZifyN.
Local Open Scope Z_scope.

(** A call of SignIndex: the input, the key form, the type and the keys; and a list of them. *)
Definition sign_call (prvkey : Type) : Type := Z * bool * Z * list prvkey.
Section Calls.
Variable sha256 DS : bytes -> bytes.
Variable prvkey : Type.
Variable PubKeyBytes : prvkey -> bool -> bytes.
Variable EcdsaSign : prvkey -> bytes -> res bytes.
Fixpoint sign_calls (l : list (sign_call prvkey)) (t : transaction) : res transaction :=
  match l with
  | [] => Ok t
  | (idx, c, ht, ks) :: l => let! t := SignIndex sha256 DS prvkey PubKeyBytes EcdsaSign idx c ht ks t in sign_calls l t
  end.
End Calls.
Definition input_of {P} (x : sign_call P) : Z := fst (fst (fst x)).
Definition type_of {P} (x : sign_call P) : Z := snd (fst x).
Definition keys_of {P} (x : sign_call P) : list P := snd x.
(** Types that leave nothing out, or one and the same type. *)
Definition full (ht : Z) : Prop := anyone ht = false /\ Z.testbit ht 1 = false.
Definition alike (a b : Z) : Prop := a = b \/ full a /\ full b.

Lemma full_eff DS a t : full a -> eff DS a t = eff DS 1 t.
Proof.
  intros [A B]. unfold anyone in A. unfold eff, eff_prevouts, eff_sequence, eff_outputs.
  assert (L : Z.land a 128 = 0). { change 128 with (2 ^ 7). apply Z.bits_inj'. intros n Hn. rewrite Z.land_spec, Z.bits_0, Z.pow2_bits_eqb by lia. destruct (7 =? n) eqn:E; [|apply andb_false_r]. replace n with 7 by lia. now rewrite A. }
  assert (M : forall m r, Z.testbit r 1 = true -> (Z.land a m =? r) = false). { intros m r H. apply Z.eqb_neq. intros E. apply (f_equal (fun z => Z.testbit z 1)) in E. rewrite Z.land_spec, B, H in E. discriminate. }
  rewrite L, !M by reflexivity. reflexivity.
Qed.
Lemma alike_eff DS a b : alike a b -> forall t, eff DS a t = eff DS b t.
Proof. intros [-> |[A B]] t; [reflexivity|]. now rewrite (full_eff DS a t A), (full_eff DS b t B). Qed.

(** C146: the inputs of a transaction can be signed in any order. False: with the types ALL|ANYONECANPAY and ALL for two witness inputs the order decides what is signed, and whether the library verifies it. *)
Theorem C146_any_order_refuted : exists sha256 hash160 DS (prvkey : Type) PubKeyBytes EcdsaSign EcdsaVerify t (x y : sign_call prvkey) t2 t2' e,
  scheme_ok prvkey PubKeyBytes EcdsaSign EcdsaVerify /\ hashes_ok hash160 sha256 /\ uncached t /\ input_of x <> input_of y /\ keys_of x <> [] /\ keys_of y <> [] /\
  sign_calls sha256 DS prvkey PubKeyBytes EcdsaSign [x; y] t = Ok t2 /\ sign_calls sha256 DS prvkey PubKeyBytes EcdsaSign [y; x] t = Ok t2' /\ Serialize t2 <> Serialize t2' /\
  Verify hash160 DS EcdsaVerify (set_caches None None None t2) = Ok tt /\ Verify hash160 DS EcdsaVerify (set_caches None None None t2') = Err e.
Proof.
  exists toy256, toy160, toy256, Z, toy_pub, toy_sign, toy_verify, (toy_tx [nth 1 toy_ins ex_in; nth 1 toy_ins ex_in]), (0, true, 0x81, [3]), (1, true, 1, [3]). eexists _, _, _.
  split; [exact toy_scheme_ok|]. split; [exact toy_hashes_ok|]. split; [repeat split|]. split; [discriminate|]. split; [discriminate|]. split; [discriminate|].
  split; [vm_compute; reflexivity|]. split; [vm_compute; reflexivity|]. split; [vm_compute; discriminate|]. split; [vm_compute; reflexivity|]. vm_compute. reflexivity.
Qed.
Print Assumptions C146_any_order_refuted.
(** With one type, or types that leave nothing out, any number of calls for different inputs give the same transaction in every order. *)
Theorem C146_any_order_partial : forall sha256 DS (prvkey : Type) PubKeyBytes EcdsaSign (l l' : list (sign_call prvkey)) t t', Permutation l l' ->
  NoDup (map input_of l) -> Forall (fun x => keys_of x <> []) l -> (forall x y, In x l -> In y l -> alike (type_of x) (type_of y)) ->
  sign_calls sha256 DS prvkey PubKeyBytes EcdsaSign l t = Ok t' -> sign_calls sha256 DS prvkey PubKeyBytes EcdsaSign l' t = Ok t'.
Proof.
  intros sha256 DS prvkey PubKeyBytes EcdsaSign l l' t t' P. revert t. induction P as [|x l l' P IH|x y l|l l2 l3 P1 IH1 P2 IH2]; intros t Nd Nk Al E.
  - exact E.
  - destruct x as [[[idx c] ht] ks]. cbn [sign_calls] in E |- *. apply rbind_ok in E. destruct E as (t1 & E1 & E). rewrite E1. cbn [rbind]. cbn [map] in Nd. inversion Nd; inversion Nk; subst. apply IH; auto. intros a b Ia Ib. apply Al; now right.
  - destruct x as [[[ix cx] hx] kx], y as [[[iy cy] hy] ky]. cbn [sign_calls] in E |- *. apply rbind_ok in E. destruct E as (t1 & E1 & E). apply rbind_ok in E. destruct E as (t2 & E2 & E).
    cbn [map input_of fst] in Nd. inversion Nd as [|? ? N1 _]; subst. inversion Nk as [|? ? K1 Nk']; subst. inversion Nk' as [|? ? K2 _]; subst.
    destruct (commute sha256 DS prvkey PubKeyBytes EcdsaSign iy ix cy cx hy hx ky kx t t1 t2) as (t1' & F1 & F2); auto.
    { intros ->. apply N1. now left. } { apply alike_eff. apply (Al (iy, cy, hy, ky) (ix, cx, hx, kx)); [now left|right; now left]. }
    rewrite F1. cbn [rbind]. rewrite F2. cbn [rbind]. exact E.
  - apply IH2; [| | |now apply IH1].
    + eapply Permutation_NoDup; [apply Permutation_map; exact P1|exact Nd].
    + eapply Permutation_Forall; [exact P1|exact Nk].
    + intros a b Ia Ib. apply Al; (eapply Permutation_in; [apply Permutation_sym; exact P1|assumption]).
Qed.
Print Assumptions C146_any_order_partial.
(** Signing an input again with the same keys and type changes nothing. *)
Theorem C146_again : forall sha256 DS (prvkey : Type) PubKeyBytes EcdsaSign idx c ht ks t t', ks <> [] ->
  SignIndex sha256 DS prvkey PubKeyBytes EcdsaSign idx c ht ks t = Ok t' -> SignIndex sha256 DS prvkey PubKeyBytes EcdsaSign idx c ht ks t' = Ok t'.
Proof. intros sha256 DS prvkey PubKeyBytes EcdsaSign idx c ht ks t t' Nk. now apply again. Qed.
Print Assumptions C146_again.
(** Four inputs of the four kinds, signed from the last to the first. *)
Example C146_example : let l := [(0, true, 1, [8]); (1, true, 1, [3]); (2, true, 1, [5; 6]); (3, true, 1, [5; 7])] : list (sign_call Z) in
  Permutation l (rev l) /\ NoDup (map input_of l) /\ Forall (fun x => keys_of x <> []) l /\ (forall x y, In x l -> In y l -> alike (type_of x) (type_of y)) /\
  exists t', sign_calls toy256 toy256 Z toy_pub toy_sign l (toy_tx toy_ins) = Ok t' /\ sign_calls toy256 toy256 Z toy_pub toy_sign (rev l) (toy_tx toy_ins) = Ok t' /\ toy_check t' = Ok tt /\ tx_ins t' <> toy_ins.
Proof.
  intros l. split; [apply Permutation_rev|]. split; [cbn; repeat constructor; cbn; intuition discriminate|]. split; [repeat constructor; discriminate|]. split; [intros x y [<-|[<-|[<-|[<-|[]]]]] [<-|[<-|[<-|[<-|[]]]]]; now left|].
  eexists. split; [vm_compute; reflexivity|]. split; [vm_compute; reflexivity|]. split; [vm_compute; reflexivity|vm_compute; discriminate].
Qed.
Example C146_full_example : full 1 /\ full 0 /\ full 0x21 /\ ~ full 2 /\ ~ full 3 /\ ~ full 0x81.
Proof. unfold full. repeat split; try (vm_compute; reflexivity); intros [A B]; (discriminate A || discriminate B). Qed.
