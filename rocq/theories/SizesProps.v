(** C165: the sizes in the text of a transaction. *)
From Verif Require Import GoBase BaseLemmas VmProofs BufferModel BufferSpec ScriptModel ScriptSpec HexModel AddressModel LockModel LockSpec TxModel TxSpec TxProofs TxProps TxSignSpec TxSign TxSignProps BuilderModel BuilderSpec BuilderProps ShowModel ShowSpec ShowProofs ShowProps LineProps.
From Coq Require Import ZifyBool ZifyNat ZifyN.
Local Open Scope Z_scope.

(** BIP141: base size, total size, weight, and virtual size rounded up. *)
Definition weight_of (t : transaction) : Z := 3 * len (SerializeNoWitness t) + len (Serialize t).
Definition virtual_size (t : transaction) : Z := (weight_of t + 3) / 4.
(** The text has a line with the name and the number. *)
Definition shows_number (s : bytes) (name : string) (n : Z) : Prop := exists d, decimal d n /\ has_line s (str_bytes ("  """ ++ name ++ """:") ++ 9 :: d ++ str_bytes ",").

Lemma sizes_pos t : 0 <= BaseSize t /\ 0 <= WitnessSize t.
Proof.
  assert (V : forall n, 0 <= VarIntSerializeSize n) by (intros n; unfold VarIntSerializeSize; repeat match goal with |- context [if ?c then _ else _] => destruct c end; lia).
    unfold BaseSize, WitnessSize. pose proof (V (len (tx_ins t))). pose proof (V (len (tx_outs t))).
    match goal with |- context [sumZ (map ?f (tx_ins t))] => pose proof (sumZ_pos f ltac:(intros i; cbv beta; pose proof (V (len (ti_unlock i))); unfold len in *; lia) (tx_ins t)) end.
    match goal with |- context [sumZ (map ?f (tx_outs t))] => pose proof (sumZ_pos f ltac:(intros i; cbv beta; pose proof (V (len (to_script i))); unfold len in *; lia) (tx_outs t)) end.
    split; [lia|]. destruct (HasWitness t); [|lia]. apply sumZ_pos. intros i. pose proof (V (len (ti_witness i))). apply Z.add_nonneg_nonneg; [assumption|]. apply sumZ_pos. intros w. pose proof (V (len w)). unfold len in *. lia.
Qed.
Lemma sizes_lines et t s : ToString et t = Ok s ->
  shows_number s "basesize" (BaseSize t) /\ shows_number s "witsize" (WitnessSize t) /\ shows_number s "vsize" (Vsize t) /\ shows_number s "size" (Size t) /\ shows_number s "weight" (Weight t).
Proof.
  intros E. unfold ToString in E. apply rbind_ok in E. destruct E as (ins & _ & E). apply rbind_ok in E. destruct E as (outs & _ & E). match type of E with Ok ?x = Ok s => assert (Es : s = x) by congruence end. rewrite Es. clear E Es.
  destruct (sizes_pos t) as [P1 P2].
  assert (L : forall k x, nth_error (sums t) k = Some x -> forall a b, has_line (JoinLines (a :: b ++ sums t ++ [str_bytes "}" ++ [10]])) x).
  { intros k x N a b. destruct (nth_error_split _ _ N) as (l1 & l2 & S & _). rewrite S. replace (a :: b ++ (l1 ++ x :: l2) ++ [str_bytes "}" ++ [10]]) with ((a :: b ++ l1) ++ x :: l2 ++ [str_bytes "}" ++ [10]]) by (cbn [app]; now rewrite <- !app_assoc). apply join_line; [discriminate|]. destruct l2; discriminate. }
  match goal with |- context [JoinLines ?l] => assert (X : exists a b, l = a :: b ++ sums t ++ [str_bytes "}" ++ [10]]) end.
  { eexists _, (_ :: ins ++ _ :: _ :: outs ++ [_]). cbn [app]. rewrite <- !app_assoc. cbn [app]. rewrite <- !app_assoc. reflexivity. }
  destruct X as (a & b & ->).
  split; [|split; [|split; [|split]]]; (eexists; split; [apply int_text_decimal|]).
  - exact P1.
  - apply (L 0%nat). reflexivity.
  - exact P2.
  - apply (L 1%nat). reflexivity.
  - unfold Vsize, Weight. apply Z.div_pos; lia.
  - apply (L 2%nat). reflexivity.
  - unfold Size. lia.
  - apply (L 3%nat). reflexivity.
  - unfold Weight. lia.
  - apply (L 4%nat). reflexivity.
Qed.

(** Without witness inputs all five are right.  Missing: transactions with witness inputs. *)
Theorem C165_sizes_partial : forall et t s, tx_ok t -> Forall (fun i => ti_code i = None) (tx_ins t) -> ToString et t = Ok s ->
  shows_number s "basesize" (len (SerializeNoWitness t)) /\ shows_number s "witsize" 0 /\ shows_number s "vsize" (virtual_size t) /\ shows_number s "size" (len (Serialize t)) /\ shows_number s "weight" (weight_of t).
Proof.
  intros et t s O F E. destruct (sizes_lines et t s E) as (L1 & L2 & L3 & L4 & L5). destruct (C35_no_witness_sizes_partial t O F) as (B & S & V).
  assert (W : WitnessSize t = 0). { unfold WitnessSize. destruct (HasWitness t) eqn:W; [|reflexivity]. apply has_witness_iff in W. apply Exists_exists in W. destruct W as (i & I & Wi). rewrite Forall_forall in F. elim Wi. auto. }
  assert (X : len (Serialize t) = len (SerializeNoWitness t)) by (unfold Size in S; lia).
  assert (Y : weight_of t = 4 * len (Serialize t)) by (unfold weight_of; lia).
  assert (Z1 : virtual_size t = len (Serialize t)) by (unfold virtual_size; rewrite Y; Z.div_mod_to_equations; lia).
  assert (Z2 : Weight t = weight_of t) by (unfold Weight; lia).
  rewrite B in L1. rewrite W in L2. rewrite V, <- Z1 in L3. rewrite S in L4. rewrite Z2 in L5. repeat split; assumption.
Qed.
Print Assumptions C165_sizes_partial.
(** With witness inputs (and no unlocking scripts there, as for native witness programs) base size and number of witness
    octets are right; total size and weight are two too small and the virtual size is one or two too small, always. *)
Theorem C165_short_partial : forall et t s, tx_ok t -> Exists is_witness (tx_ins t) -> Forall (fun i => ti_code i = None \/ ti_unlock i = []) (tx_ins t) -> ToString et t = Ok s ->
  shows_number s "basesize" (len (SerializeNoWitness t)) /\ shows_number s "witsize" (len (Serialize t) - len (SerializeNoWitness t) - 2) /\
  shows_number s "size" (len (Serialize t) - 2) /\ shows_number s "weight" (weight_of t - 2) /\
  exists v, shows_number s "vsize" v /\ virtual_size t - 2 <= v < virtual_size t.
Proof.
  intros et t s O W F E. destruct (sizes_lines et t s E) as (L1 & L2 & L3 & L4 & L5). pose proof (C35_unsigned_base_size_partial t O F) as B. pose proof (C35_size_partial t O) as S. pose proof (C35_base_size_partial t O) as B2.
  apply has_witness_iff in W. rewrite W in S. assert (S' : Size t = len (Serialize t) - 2) by lia. assert (Ws : WitnessSize t = len (Serialize t) - len (SerializeNoWitness t) - 2) by (unfold Size in S'; lia).
  assert (We : Weight t = weight_of t - 2) by (unfold Weight, weight_of; lia).
  rewrite B in L1. rewrite Ws in L2. rewrite S' in L4. rewrite We in L5. split; [exact L1|]. split; [exact L2|]. split; [exact L4|]. split; [exact L5|].
  exists (Vsize t). split; [exact L3|]. unfold Vsize, virtual_size. rewrite We. Z.div_mod_to_equations. lia.
Qed.
Print Assumptions C165_short_partial.
(** So the sizes are not those of BIP141: this virtual size is 87 and is not on the line. *)
Theorem C165_sizes_refuted : exists et t s, tx_ok t /\ ToString et t = Ok s /\ virtual_size t = 87 /\ ~ shows_number s "vsize" (virtual_size t).
Proof.
  exists no_text, (show_tx [[3]; [4]]). eexists. split; [tx_ok_tac|]. split; [vm_compute; reflexivity|]. replace (virtual_size (show_tx [[3]; [4]])) with 87 by (vm_compute; reflexivity). split; [reflexivity|].
  intros (d & (Dn & Dd & Dv) & (p & q & E)). set (pre := 10 :: str_bytes "  ""vsize"":" ++ [9]).
  match type of E with ?s = _ => assert (I : In (d ++ str_bytes "," ++ 10 :: q) (finds pre s)) end.
  { rewrite E. match goal with |- In ?r (finds pre ?x) => replace x with (p ++ pre ++ r); [apply finds_in|] end. unfold pre. cbn [append str_bytes list_ascii_of_string map app]. rewrite <- !app_assoc. reflexivity. }
  clear E. match type of I with In ?r _ => remember r as R eqn:ER end. subst pre. vm_compute in I. destruct I as [I|[]]. rewrite <- I in ER. clear I R.
  change (str_bytes ",") with [44] in ER. destruct d as [|d0 [|d1 [|d2 d]]]; cbn [app] in ER.
  - congruence.
  - assert (X : 56 = d0 /\ 54 = 44) by (split; congruence). lia.
  - assert (X : 56 = d0 /\ 54 = d1) by (split; congruence). destruct X as [<- <-]. vm_compute in Dv. discriminate.
  - assert (X : 44 = d2) by congruence. subst d2. inversion Dd as [|? ? _ D1]. inversion D1 as [|? ? _ D2]. inversion D2. lia.
Qed.
Print Assumptions C165_sizes_refuted.
Example C165_example : tx_ok (show_tx [[3]; [4]]) /\ Exists is_witness (tx_ins (show_tx [[3]; [4]])) /\ Forall (fun i => ti_code i = None \/ ti_unlock i = []) (tx_ins (show_tx [[3]; [4]])) /\ (exists s, ToString no_text (show_tx [[3]; [4]]) = Ok s) /\
  virtual_size (show_tx [[3]; [4]]) = 87 /\ Vsize (show_tx [[3]; [4]]) = 86 /\ Vsize (show_tx [[3]; [4; 4; 4]]) = 86 /\ virtual_size (show_tx [[3]; [4; 4; 4]]) = 88 /\ virtual_size ex_legacy_pays = 88 /\ (exists s, ToString no_text ex_legacy_pays = Ok s).
Proof.
  split; [tx_ok_tac|]. split; [left; discriminate|]. split; [constructor; [now right|constructor]|]. split; [eexists; vm_compute; reflexivity|]. repeat (split; [vm_compute; reflexivity|]). eexists. vm_compute. reflexivity.
Qed.
