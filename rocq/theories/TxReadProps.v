(** C113: what the transaction readers accept. *)
From Verif Require Import GoBase BaseLemmas BufferModel BufferSpec BufferProofs Codec TxModel TxProofs TxReadSpec TxReadProofs.
Local Open Scope Z_scope.

(** C113: each reader accepts exactly the strings that begin with a transaction of its format, and returns what it says. *)
Theorem C113_accepts_exactly : forall d t, bytes_ok d -> len d <= 2 ^ 43 ->
  (Deserialize d NewTransaction = Ok t <-> exists e junk, d = e ++ junk /\ witness_tx e t) /\
  (DeserializeNoWitness d NewTransaction = Ok t <-> exists e junk, d = e ++ junk /\ legacy_tx e t).
Proof. intros d t O L. split; [exact (exactly_run dec_bip144 _ d t exactly_bip144 O L)|exact (exactly_run dec_legacy _ d t exactly_legacy O L)]. Qed.
Print Assumptions C113_accepts_exactly.

(** A string begins with at most one transaction of each format. *)
Lemma exactly_one {A} (rd : BM A) G e e' j j' x x' : exactly rd G -> bytes_ok (e ++ j) -> len (e ++ j) <= 2 ^ 43 -> e ++ j = e' ++ j' -> G e x -> G e' x' -> x = x' /\ e = e'.
Proof.
  intros R O L E g g'. assert (F : room [] (e ++ j)) by exact L.
  assert (Q : rd (rbuf [] (e ++ j)) = (Ok x, rbuf ([] ++ e) j)) by (apply (R [] _ F O); exists e, j; auto).
  assert (Q' : rd (rbuf [] (e ++ j)) = (Ok x', rbuf ([] ++ e') j')) by (apply (R [] _ F O); exists e', j'; auto).
  rewrite Q in Q'. split; [congruence|]. assert (P : bseek (rbuf ([] ++ e) j) = bseek (rbuf ([] ++ e') j')) by congruence. cbn in P. apply app_inj_len in E; [tauto|unfold len in P; lia].
Qed.
Theorem C113_one_reading : forall e e' j j' t t', bytes_ok (e ++ j) -> len (e ++ j) <= 2 ^ 43 -> e ++ j = e' ++ j' ->
  (witness_tx e t -> witness_tx e' t' -> t = t' /\ e = e') /\ (legacy_tx e t -> legacy_tx e' t' -> t = t' /\ e = e').
Proof. intros e e' j j' t t' O L E. split; intros g g'; [exact (exactly_one _ _ _ _ _ _ _ _ exactly_bip144 O L E g g')|exact (exactly_one _ _ _ _ _ _ _ _ exactly_legacy O L E g g')]. Qed.
Print Assumptions C113_one_reading.

(** The bytes of a transaction are not unique: a count can be written longer than needed, and anything can follow.  The
    readers do not report how much they used. *)
Definition one_in : bytes := repeat 7 32 ++ [0; 0; 0; 0; 0; 255; 255; 255; 255].
Theorem C113_unique_bytes_refuted : exists d d' t, bytes_ok d /\ bytes_ok d' /\ d <> d' /\ DeserializeNoWitness d NewTransaction = Ok t /\ DeserializeNoWitness d' NewTransaction = Ok t /\
  legacy_tx d t /\ legacy_tx d' t /\ forall junk, bytes_ok junk -> len (d ++ junk) <= 2 ^ 43 -> DeserializeNoWitness (d ++ junk) NewTransaction = Ok t.
Proof.
  set (d := [1; 0; 0; 0; 1] ++ one_in ++ [0; 0; 0; 0; 0]). set (d' := [1; 0; 0; 0; 253; 1; 0] ++ one_in ++ [0; 0; 0; 0; 0]).
  assert (O : bytes_ok d /\ bytes_ok d') by (split; apply bytes_ok_forallb; vm_compute; reflexivity). destruct O as [O O'].
  set (t := MkTx 1 0 [MkIn (repeat 7 32) 0 0 4294967295 [] None [] None [] [] []] [] None None None).
  assert (Q : DeserializeNoWitness d NewTransaction = Ok t /\ DeserializeNoWitness d' NewTransaction = Ok t) by (split; vm_compute; reflexivity). destruct Q as [Q Q'].
  assert (W : forall n v, word 4 (le_bytes 4 n) v <-> le_value (le_bytes 4 n) = v).
  { intros n v. split; [intros W; now inversion W|]. intros <-. constructor; [apply le_bytes_length|apply le_bytes_ok]. }
  assert (I : an_input one_in (arrived (repeat 7 32) 0 4294967295 [] [])).
  { apply (input_of (repeat 7 32) [0; 0; 0; 0] 0 [0] [] [255; 255; 255; 255] 4294967295); [reflexivity|apply bytes_ok_forallb; vm_compute; reflexivity|apply (W 0 0); reflexivity| |apply (W 4294967295 4294967295); reflexivity].
    apply (sized_app [0] []); [apply (size_1 0); split; [discriminate|reflexivity]|constructor]. }
  assert (M : many an_input one_in [arrived (repeat 7 32) 0 4294967295 [] []]) by (rewrite <- (app_nil_r one_in); constructor; [exact I|constructor]).
  assert (T : forall c, size c 1 -> legacy_tx ([1; 0; 0; 0] ++ (c ++ one_in) ++ [0] ++ [0; 0; 0; 0]) t).
  { intros c C. apply (legacy_of [1; 0; 0; 0] 1 (c ++ one_in) [arrived (repeat 7 32) 0 4294967295 [] []] [0] [] [0; 0; 0; 0] 0); [apply (W 1 1); reflexivity|now constructor| |apply (W 0 0); reflexivity].
    apply (counted_app an_output [0] [] []); [apply (size_1 0); split; [discriminate|reflexivity]|constructor]. }
  assert (G : legacy_tx d t) by (apply (T [1]); apply (size_1 1); split; [discriminate|reflexivity]).
  exists d, d', t. split; [exact O|]. split; [exact O'|]. split; [discriminate|]. split; [exact Q|]. split; [exact Q'|]. split; [exact G|]. split.
  - apply (T [253; 1; 0]). apply (size_3 [1; 0]); [reflexivity|]. apply bytes_ok_forallb. reflexivity.
  - intros junk Oj Lj. apply (proj2 (C113_accepts_exactly (d ++ junk) t ltac:(apply bytes_ok_app; split; assumption) Lj)). exists d, junk. split; [reflexivity|exact G].
Qed.
Print Assumptions C113_unique_bytes_refuted.
(** One string can be read in both formats, with different results; the caller has to know which it is. *)
Theorem C113_one_format_refuted : exists d t t', bytes_ok d /\ Deserialize d NewTransaction = Ok t /\ DeserializeNoWitness d NewTransaction = Ok t' /\ t <> t'.
Proof.
  exists ([2; 0; 0; 0; 0; 1] ++ repeat 0 20), (MkTx 2 0 [] [] None None None), (MkTx 2 0 [] [MkOut 0 []] None None None). split; [apply bytes_ok_forallb; vm_compute; reflexivity|].
  split; [vm_compute; reflexivity|]. split; [vm_compute; reflexivity|discriminate].
Qed.
Print Assumptions C113_one_format_refuted.
Example C113_example : let d := [1; 0; 0; 0; 0; 1; 1] ++ one_in ++ [1; 5; 0; 0; 0; 0; 0; 0; 0; 1; 0x51] ++ [2; 1; 9; 0] ++ [8; 0; 0; 0] in
  bytes_ok d /\ len d <= 2 ^ 43 /\
  Deserialize d NewTransaction = Ok (MkTx 1 8 [arrived (repeat 7 32) 0 4294967295 [] [[9]; []]] [MkOut 5 [0x51]] None None None) /\
  (exists e, Deserialize (firstn 40 d) NewTransaction = Err e) /\ exists e, Deserialize ([1; 0; 0; 0; 0; 2] ++ skipn 6 d) NewTransaction = Err e.
Proof.
  split; [apply bytes_ok_forallb; vm_compute; reflexivity|]. split; [vm_compute; discriminate|]. split; [vm_compute; reflexivity|]. split; eexists; vm_compute; reflexivity.
Qed.
