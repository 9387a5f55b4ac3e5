(** C151, C153: the witness identifier of a transaction, and the setters of its version and its lock time. *)
From Verif Require Import GoBase BaseLemmas BufferModel BufferProofs Codec LockModel TxModel TxSpec TxProofs TxSig TxProps.
From Coq Require Import ZifyBool ZifyNat ZifyN.

(** BIP 141 and BIP 144: the wtxid is the hash of the new serialisation, or of the original one when every witness is
    empty. *)
Definition carries_witness (t : transaction) : Prop := Exists (fun i => ti_witness i <> []) (tx_ins t).
Inductive is_wtxid (H : bytes -> bytes) (t : transaction) : bytes -> Prop :=
| wtxid_new : carries_witness t -> is_wtxid H t (H (wire_bip144 t))
| wtxid_old : ~ carries_witness t -> is_wtxid H t (H (wire_legacy t)).

Lemma wire_bip144_same : forall t t', same_body t t' -> same_witnesses t t' -> wire_bip144 t = wire_bip144 t'.
Proof.
  intros t t' (V & K & I & O) W. unfold wire_bip144. rewrite V, K. do 2 f_equal. f_equal.
  - unfold wire_body. rewrite O. 
    assert (L : len (tx_ins t) = len (tx_ins t')) by (unfold len; rewrite <- (map_length in_view (tx_ins t)), I, map_length; reflexivity).
    rewrite L. do 2 f_equal.
    assert (M : forall l, map wire_in l = map (fun v : bytes * Z * bytes * Z => let '(h, n, s, q) := v in h ++ le 4 n ++ prefixed s ++ le 4 q) (map in_view l))
      by (intro l; rewrite map_map; apply map_ext; reflexivity).
    rewrite !M, I. reflexivity.
  - f_equal. f_equal.
    assert (M : forall l, map wire_witness l = map (fun w => compact (len w) ++ concat (map prefixed w)) (map ti_witness l))
      by (intro l; rewrite map_map; apply map_ext; reflexivity).
    unfold same_witnesses in W. rewrite !M, W. reflexivity.
Qed.

Lemma carries_same : forall t t', same_witnesses t t' -> carries_witness t -> carries_witness t'.
Proof.
  unfold same_witnesses, carries_witness. intros t t' W C.
  assert (M : forall l, Exists (fun i => ti_witness i <> []) l <-> Exists (fun w => w <> []) (map ti_witness l)).
  { intro l. induction l as [|i l IH]; cbn [map]; [split; intro X; inversion X|]. rewrite !Exists_cons, IH. reflexivity. }
  rewrite M in *. rewrite <- W. exact C.
Qed.

(** C151 is false of every transaction that was received with its witness: the id computed is the one without the
    witness, so it is not the wtxid unless the hash collides. *)
Theorem C151_received_refuted : forall H t junk t', tx_ok t -> Exists is_witness (tx_ins t) -> carries_witness t -> len (Serialize t ++ junk) <= 2 ^ 48 ->
  Deserialize (Serialize t ++ junk) NewTransaction = Ok t' ->
  carries_witness t' /\ WitnessHash H t' = Hash H t' /\ WitnessHash H t' = H (wire_legacy t) /\
  (no_collision H (wire_legacy t) (wire_bip144 t) -> ~ is_wtxid H t' (WitnessHash H t')).
Proof.
  intros H t junk t' T W C L D. destruct (bip144_roundtrip t junk T W L) as (t2 & D2 & B & SW). rewrite D in D2.
  assert (E2 : t2 = t') by congruence. subst t2. destruct (reserialise_strips t junk t' T W L D) as (S1 & S2 & S3).
  pose proof (carries_same _ _ SW C) as C'. destruct (C81_wire_format t T) as [F1 F2]. pose proof W as W'. apply has_witness_iff in W'. rewrite W' in F2.
  split; [exact C'|]. unfold WitnessHash, Hash. rewrite S1, S2, F1. split; [reflexivity|]. split; [reflexivity|].
  intros N X. inversion X as [C1 E|C1 E]; [|exact (C1 C')].
  rewrite <- (wire_bip144_same _ _ B SW) in E. symmetry in E. apply N in E. apply S3. rewrite S1, F1, F2. exact E.
Qed.
Print Assumptions C151_received_refuted.
(** It is also false of a witness input that has not been signed yet. *)
Theorem C151_unsigned_refuted : forall H t, tx_ok t -> Exists is_witness (tx_ins t) -> ~ carries_witness t ->
  WitnessHash H t = H (wire_bip144 t) /\ (no_collision H (wire_bip144 t) (wire_legacy t) -> ~ is_wtxid H t (WitnessHash H t)).
Proof.
  intros H t T W C. destruct (C81_wire_format t T) as [F1 F2]. apply has_witness_iff in W. rewrite W in F2. unfold WitnessHash. rewrite F2. split; [reflexivity|].
  intros N X. inversion X as [C1 E|C1 E]; [exact (C C1)|]. symmetry in E. apply N in E. apply (f_equal len) in E. revert E.
  assert (A : forall a b : bytes, len (a ++ b) = len a + len b) by (intros; unfold len; rewrite app_length; lia).
  unfold wire_bip144, wire_legacy. rewrite !A. assert (P : 0 <= len (concat (map wire_witness (tx_ins t)))) by (unfold len; lia). change (len [0; 1]) with 2. lia.
Qed.
Print Assumptions C151_unsigned_refuted.
(** It holds of a transaction built here whose witness inputs are signed, and of one without witness. *)
Theorem C151_wtxid_partial : forall H t, tx_ok t -> (Exists is_witness (tx_ins t) <-> carries_witness t) -> is_wtxid H t (WitnessHash H t).
Proof.
  intros H t T Q. destruct (C81_wire_format t T) as [F1 F2]. unfold WitnessHash. rewrite F2. destruct (HasWitness t) eqn:W.
  - apply has_witness_iff in W. apply wtxid_new. tauto.
  - apply wtxid_old. rewrite <- Q, <- has_witness_iff. congruence.
Qed.
Print Assumptions C151_wtxid_partial.
(** Of such transactions the id fixes everything that is sent, the witnesses included. *)
Theorem C151_covers_partial : forall H t t', tx_ok t -> tx_ok t' -> Exists is_witness (tx_ins t) -> Exists is_witness (tx_ins t') -> len (Serialize t) <= 2 ^ 48 ->
  no_collision H (Serialize t) (Serialize t') -> (WitnessHash H t = WitnessHash H t' <-> same_body t t' /\ same_witnesses t t').
Proof.
  intros H t t' T T' W W' L N. split.
  - intro E. apply N in E.
    assert (A : Serialize t ++ [] = Serialize t) by apply app_nil_r. assert (A' : Serialize t' ++ [] = Serialize t') by apply app_nil_r.
    assert (L1 : len (Serialize t ++ []) <= 2 ^ 48) by (rewrite A; exact L). assert (L2 : len (Serialize t' ++ []) <= 2 ^ 48) by (rewrite A', <- E; exact L).
    destruct (bip144_roundtrip t [] T W L1) as (u & D & (V & K & I & O) & S). destruct (bip144_roundtrip t' [] T' W' L2) as (u' & D' & (V' & K' & I' & O') & S').
    rewrite A in D. rewrite A', <- E in D'. assert (Eu : u' = u) by congruence. subst u'. unfold same_body, same_witnesses in *. repeat split; congruence.
  - intros (B & S). unfold WitnessHash. f_equal. rewrite (proj2 (C81_wire_format t T)), (proj2 (C81_wire_format t' T')).
    rewrite (proj2 (has_witness_iff t) W), (proj2 (has_witness_iff t') W'). apply wire_bip144_same; assumption.
Qed.
Print Assumptions C151_covers_partial.
(** The transaction of C31: its wtxid before it is sent, and what the receiver computes. *)
Example C151_example : tx_ok ex_segwit /\ Exists is_witness (tx_ins ex_segwit) /\ carries_witness ex_segwit /\
  exists t', Deserialize (Serialize ex_segwit) NewTransaction = Ok t' /\ map ti_witness (tx_ins t') = [[]; [[1; 2; 3]; []]] /\
    len (Serialize ex_segwit) = 123 /\ WitnessHash (fun x => x) t' = SerializeNoWitness ex_segwit /\ len (WitnessHash (fun x => x) t') = 114.
Proof.
  split; [exact ex_segwit_ok|]. split; [exact ex_segwit_witness|]. split; [right; left; discriminate|]. eexists. split; [vm_compute; reflexivity|]. vm_compute. repeat split.
Qed.

(** C153: the setters put their value into the four bytes of the field, in both formats, and change no other byte. *)
Lemma le_len : forall n v, length (le n v) = n.
Proof. intros. unfold le. rewrite map_length, seq_length. reflexivity. Qed.
Theorem C153_setters : forall t v, tx_ok t -> 0 <= v < 2 ^ 32 ->
  SerializeNoWitness (SetVersion v t) = le 4 v ++ skipn 4 (SerializeNoWitness t) /\
  Serialize (SetVersion v t) = le 4 v ++ skipn 4 (Serialize t) /\
  SerializeNoWitness (SetLockTime v t) = firstn (length (SerializeNoWitness t) - 4) (SerializeNoWitness t) ++ le 4 v /\
  Serialize (SetLockTime v t) = firstn (length (Serialize t) - 4) (Serialize t) ++ le 4 v.
Proof.
  intros t v T V.
  assert (TV : tx_ok (SetVersion v t)) by (destruct T as (A & B); split; [exact V|exact B]).
  assert (TL : tx_ok (SetLockTime v t)) by (destruct T as (A & A2 & B); split; [exact A|]; split; [exact V|exact B]).
  destruct (C81_wire_format t T) as [F1 F2]. destruct (C81_wire_format _ TV) as [G1 G2]. destruct (C81_wire_format _ TL) as [K1 K2].
  change (HasWitness (SetVersion v t)) with (HasWitness t) in G2. change (HasWitness (SetLockTime v t)) with (HasWitness t) in K2.
  assert (P : forall a b : bytes, length a = 4%nat -> skipn 4 (a ++ b) = b).
  { intros a b E. rewrite skipn_app, E, Nat.sub_diag, skipn_all2 by lia. reflexivity. }
  assert (Q : forall a b : bytes, length b = 4%nat -> firstn (length (a ++ b) - 4) (a ++ b) = a).
  { intros a b E. rewrite app_length, E, Nat.add_sub, firstn_app, Nat.sub_diag, firstn_all2 by lia. apply app_nil_r. }
  assert (R : forall u, wire_legacy u = (le 4 (tx_version u) ++ wire_body u) ++ le 4 (tx_locktime u)) by (intro; unfold wire_legacy; now rewrite !app_assoc).
  assert (R2 : forall u, wire_bip144 u = (le 4 (tx_version u) ++ [0x00; 0x01] ++ wire_body u ++ concat (map wire_witness (tx_ins u))) ++ le 4 (tx_locktime u)) by (intro; unfold wire_bip144; now rewrite <- !app_assoc).
  assert (P1 : forall u, skipn 4 (wire_legacy u) = wire_body u ++ le 4 (tx_locktime u)) by (intro u; apply P, le_len).
  assert (P2 : forall u, skipn 4 (wire_bip144 u) = [0x00; 0x01] ++ wire_body u ++ concat (map wire_witness (tx_ins u)) ++ le 4 (tx_locktime u)) by (intro u; apply P, le_len).
  rewrite G1, G2, K1, K2, F1, F2. split; [|split; [|split]].
  - rewrite (P1 t). reflexivity.
  - destruct (HasWitness t); [rewrite (P2 t)|rewrite (P1 t)]; reflexivity.
  - rewrite (R t), Q by apply le_len. rewrite R. reflexivity.
  - destruct (HasWitness t); [rewrite (R2 t), Q, R2 by apply le_len; reflexivity|rewrite (R t), Q, R by apply le_len; reflexivity].
Qed.
Print Assumptions C153_setters.
(** Hence a receiver reads the values set, and the version of a transaction never set is 1, its lock time 0. *)
Theorem C153_received : forall t v k junk, tx_ok t -> 0 <= v < 2 ^ 32 -> 0 <= k < 2 ^ 32 -> Exists is_witness (tx_ins t) ->
  len (Serialize t ++ junk) <= 2 ^ 48 ->
  exists t', Deserialize (Serialize (SetLockTime k (SetVersion v t)) ++ junk) NewTransaction = Ok t' /\ tx_version t' = v /\ tx_locktime t' = k /\
    map in_view (tx_ins t') = map in_view (tx_ins t) /\ tx_outs t' = tx_outs t /\ same_witnesses t t'.
Proof.
  intros t v k junk T V K W L.
  assert (TV : tx_ok (SetVersion v t)) by (destruct T as (A & B); split; [exact V|exact B]).
  assert (TL : tx_ok (SetLockTime k (SetVersion v t))) by (destruct TV as (A & A2 & B); split; [exact A|]; split; [exact K|exact B]).
  assert (LL : len (Serialize (SetLockTime k (SetVersion v t)) ++ junk) <= 2 ^ 48).
  { destruct (C153_setters t v T V) as (_ & E1 & _). destruct (C153_setters _ k TV K) as (_ & _ & _ & E2).
    assert (N4 : (4 <= length (Serialize t))%nat).
    { rewrite (proj2 (C81_wire_format t T)). destruct (HasWitness t); unfold wire_bip144, wire_legacy; rewrite app_length, le_len; lia. }
    assert (E : length (Serialize (SetLockTime k (SetVersion v t))) = length (Serialize t)).
    { rewrite E2, E1, app_length, firstn_length, !app_length, !le_len, skipn_length. lia. }
    unfold len in *. rewrite app_length in *. rewrite E. exact L. }
  destruct (bip144_roundtrip _ junk TL W LL) as (t' & D & (B1 & B2 & B3 & B4) & S). exists t'. split; [exact D|]. symmetry in B1, B2, B3, B4. repeat split; assumption.
Qed.
Print Assumptions C153_received.
Example C153_example : tx_ok ex_segwit /\ tx_version NewTransaction = 1 /\ tx_locktime NewTransaction = 0 /\ firstn 4 (Serialize (SetVersion 258 ex_segwit)) = [2; 1; 0; 0] /\
  skipn 119 (Serialize (SetLockTime 65536 ex_segwit)) = [0; 0; 1; 0] /\ skipn 119 (Serialize ex_segwit) = [77; 0; 0; 0].
Proof. split; [exact ex_segwit_ok|]. vm_compute. repeat split. Qed.
