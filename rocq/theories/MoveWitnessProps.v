(** C147, continued: the signatures of witness inputs. *)
From Verif Require Import GoBase BaseLemmas SecpSpec EcdsaModel EcdsaSpec PubKeyModel DerModel BufferModel Codec ScriptModel ScriptSpec ScriptProofs LockModel LockSpec LockProofs VmModel VmSpec VmProofs VmMore VmProps
  TxModel TxSpec TxProofs TxSig TxProps TxSignSpec TxSign TxSign2 TxSign3 TxSignProps WholeModel WholeProofs WholeProps MoveProps ReceiveSpec ReceiveProofs ReceiveProps.
From Coq Require Import ZifyBool ZifyNat ZifyN.
Local Open Scope Z_scope.

Lemma at_index {A} (l : list A) k x : index l k = Ok x -> 0 <= k /\ nth_error l (Z.to_nat k) = Some x.
Proof.
  unfold index. destruct (k <? 0) eqn:E; [discriminate|]. destruct (nth_error l (Z.to_nat k)) eqn:N; [|discriminate]. intro Q. assert (a = x) as -> by congruence. split; [lia|reflexivity].
Qed.
Lemma v0_code_at t i idx : v0_ok t -> index (tx_ins t) idx = Ok i -> v0_code_ok i.
Proof. intros V Hi. destruct (at_index _ _ _ Hi) as [_ N]. apply nth_error_In in N. destruct V as [V _]. rewrite Forall_forall in V. auto. Qed.
Lemma v0_outs t : v0_ok t -> Forall out_ok (tx_outs t).
Proof. intros V. apply V. Qed.

(** A signature of type ALL for an output that pays to a key's hash by witness, accepted in two transactions, is accepted
    for one input of one amount in transactions with the same inputs and outputs, unless it fits the digests of two
    different messages or the double hash collides on what these transactions consist of. *)
Theorem C147_witness_partial : forall sha256 t t' idx idx' i i' h der key,
  let H := DoubleSha256 sha256 in
  (forall x, len (H x) = 32) ->
  WVerify sha256 t = Ok tt -> WVerify sha256 t' = Ok tt -> index (tx_ins t) idx = Ok i -> index (tx_ins t') idx' = Ok i' ->
  spends_p2wpkh h i -> spends_p2wpkh h i' -> bytes_ok h -> len h = 20 -> ti_unlock i' = ti_unlock i ->
  in_memory (ti_unlock i ++ ti_finallock i) -> script_pushing (ti_unlock i) [der ++ [1]; key] ->
  tx_ok t -> tx_ok t' -> v0_ok t -> v0_ok t' -> uncached t -> uncached t' ->
  (forall m j, m < idx -> index (tx_ins t) m = Ok j -> exists s, ParseLockingScript (ti_rawlock j) = Ok s /\ witness_version s = false) ->
  (forall m j, m < idx' -> index (tx_ins t') m = Ok j -> exists s, ParseLockingScript (ti_rawlock j) = Ok s /\ witness_version s = false) ->
  (tx_version t = tx_version t' /\ tx_locktime t = tx_locktime t' /\ map link (tx_ins t) = map link (tx_ins t') /\ tx_outs t = tx_outs t' /\
    link i = link i' /\ ti_value i = ti_value i' /\ (NoDup (map link (tx_ins t)) -> idx = idx')) \/
  (exists x y, x <> y /\ signed_by_key key der (message_int (sha256 (sha256 x))) /\ signed_by_key key der (message_int (sha256 (sha256 y)))) \/
  exists x y, x <> y /\ H x = H y /\ ((x = prevouts_bytes t /\ y = prevouts_bytes t') \/ (x = sequences_bytes t /\ y = sequences_bytes t') \/ (x = outputs_bytes t /\ y = outputs_bytes t')).
Proof.
  intros sha256 t t' idx idx' i i' h der key H HL V V' Hi Hi' S S' O L U M P T T' V0 V0' C C' N N'.
  assert (Fi : ti_finallock i' = ti_finallock i) by (destruct S as (_ & -> & _); destruct S' as (_ & -> & _); reflexivity).
  destruct (C98_p2wpkh_spend_partial sha256 t idx i h [der ++ [1]; key] V Hi S O L M P C N) as (it & d & ht & k & dg & Ei & _ & _ & Sg & Dg).
  destruct (last_two _ _ _ _ _ _ _ Ei) as (-> & -> & ->).
  destruct (C98_p2wpkh_spend_partial sha256 t' idx' i' h [der ++ [1]; key] V' Hi' S' O L ltac:(rewrite Fi, U; exact M) ltac:(rewrite U; exact P) C' N') as (it' & d' & ht' & k' & dg' & Ei' & _ & _ & Sg' & Dg').
  destruct (last_two _ _ _ _ _ _ _ Ei') as (-> & -> & ->).
  pose proof (v0_code_at _ _ _ V0 Hi) as A. pose proof (v0_code_at _ _ _ V0' Hi') as A'. pose proof (v0_outs _ V0) as B. pose proof (v0_outs _ V0') as B'.
  rewrite (Dg eq_refl A B) in Sg. rewrite (Dg' eq_refl A' B') in Sg'. fold H in Sg, Sg'.
  destruct (list_eq_dec Z.eq_dec (bip143_preimage H idx 1 i t) (bip143_preimage H idx' 1 i' t')) as [E|E];
    [|right; left; exists (bip143_preimage H idx 1 i t), (bip143_preimage H idx' 1 i' t'); auto].
  assert (Dec : forall x y : bytes, (no_collision H x y) \/ (x <> y /\ H x = H y)).
  { intros x y. destruct (list_eq_dec Z.eq_dec x y) as [q|q]; [left; intro; exact q|]. destruct (list_eq_dec Z.eq_dec (H x) (H y)) as [r|r]; [right; auto|left; intro; contradiction]. }
  destruct (Dec (prevouts_bytes t) (prevouts_bytes t')) as [N1|[N1 K1]]; [|right; right; eexists _, _; split; [exact N1|]; split; [exact K1|]; auto].
  destruct (Dec (sequences_bytes t) (sequences_bytes t')) as [N2|[N2 K2]]; [|right; right; eexists _, _; split; [exact N2|]; split; [exact K2|]; auto].
  destruct (Dec (outputs_bytes t) (outputs_bytes t')) as [N3|[N3 K3]]; [|right; right; eexists _, _; split; [exact N3|]; split; [exact K3|]; auto].
  left. destruct (C38_bip143_all H idx i t Hi A B C) as (t1 & Q). destruct (C38_bip143_all H idx' i' t' Hi' A' B' C') as (t1' & Q'). rewrite <- E in Q'.
  destruct (C38_bip143_all_commits H idx idx' i i' t t' _ t1 t1' HL T T' V0 V0' C C' Hi Hi' (fun _ => E) N1 N2 N3 Q Q') as (R1 & R2 & R3 & R4 & R5 & R6 & _).
  do 6 (split; [assumption|]). intro ND. destruct (at_index _ _ _ Hi) as [G X]. destruct (at_index _ _ _ Hi') as [G' X'].
  apply (map_nth_error link) in X. apply (map_nth_error link) in X'. rewrite <- R3, <- R5 in X'. rewrite <- X in X'. symmetry in X'.
  apply Z2Nat.inj; try assumption. apply (proj1 (NoDup_nth_error _) ND); [|exact X']. apply nth_error_Some. congruence.
Qed.
Print Assumptions C147_witness_partial.

(** It is false of SINGLE, with NONE and what else has bit 1: whoever sees the transaction of one such input puts other
    outputs in the place of all of them.  BIP 143 has a signature of type SINGLE keep the output of its own place. *)
Theorem C147_witness_refuted : forall (Hash160 DS : bytes -> bytes) EcdsaVerify t i h der ht key outs,
  TxModel.Verify Hash160 DS EcdsaVerify t = Ok tt -> tx_ins t = [i] -> spends_p2wpkh h i -> bytes_ok h -> len h = 20 ->
  in_memory (ti_unlock i ++ ti_finallock i) -> script_pushing (ti_unlock i) [der ++ [ht]; key] -> Z.testbit ht 1 = true ->
  v0_code_ok i -> Forall out_ok (tx_outs t) -> Forall out_ok outs ->
  TxModel.Verify Hash160 DS EcdsaVerify (set_outs outs t) = Ok tt.
Proof.
  intros Hash160 DS EcdsaVerify t i h der ht key outs V I (Raw & Fin & _) O L M P Bit C F F'.
  assert (Hi : index (tx_ins t) 0 = Ok i) by (rewrite I; reflexivity).
  destruct (verify_nth _ _ _ _ _ _ V Hi) as (t' & _ & E & Q). rewrite (Q ltac:(intros m j Hm Hj; destruct (at_index _ _ _ Hj); lia)) in E.
  assert (Pi : ParseLockingScript (ti_rawlock i) = Ok (P2WPKH h)) by (rewrite Raw; exact (parse_of (P2WPKH h) O L)).
  rewrite Fin in M. destruct (verified_pkh _ _ _ 0 i t h _ _ Pi Fin L M P E) as (items & d & ht' & k & dg & Ei & Hk & Hd & Hv).
  destruct (last_two _ _ _ _ _ _ _ Ei) as (-> & -> & ->). cbn [witness_version] in Hd.
  destruct P as (is & So & Pu). inversion Pu as [|i1 ? l1 ? P1 Pu1]; subst. inversion Pu1 as [|i2 ? l2 ? P2 Pu2]; subst. inversion Pu2; subst.
  unfold TxModel.Verify. cbn [set_outs tx_ins]. rewrite I. cbn [TxModel.verify_from]. unfold TxModel.verify_input. rewrite Pi. cbn [rbind witness_version]. rewrite Fin.
  destruct (proj2 (C26_p2pkh_iff Hash160 (sigHashFn DS 0 true (set_outs outs t)) EcdsaVerify (ti_unlock i) (Hash160 key) i1 i2 (der ++ [ht]) key M L So P1 P2)) as (st' & R).
  { split; [reflexivity|]. exists der, ht, dg. split; [reflexivity|]. split; [|exact Hv]. unfold sigHashFn in *. rewrite <- Hd. apply C40_outputs_ignored_partial; auto. intros j Hj. congruence. }
  rewrite R. cbn [rbind]. 
  reflexivity.
Qed.
Print Assumptions C147_witness_refuted.

(** One input signed with type SINGLE as by the library, then other outputs. *)
Definition single_home : transaction := toy_tx [toy_in 2 (p2wpkh_script (toy160 (wide_pub 3 true))) None].
Example C147_single_example : exists t i, wide_sign_index 0 true 3 [3] single_home = Ok t /\ toy_check t = Ok tt /\ tx_ins t = [i] /\ spends_p2wpkh (toy160 (wide_pub 3 true)) i /\
  tx_outs t <> [MkOut 123456 [0x52]; MkOut 1 []] /\ toy_check (set_outs [MkOut 123456 [0x52]; MkOut 1 []] t) = Ok tt.
Proof.
  eexists _, _. split; [vm_compute; reflexivity|]. split; [vm_compute; reflexivity|]. split; [reflexivity|]. split; [repeat split; vm_compute; reflexivity|]. split; [vm_compute; discriminate|]. vm_compute. reflexivity.
Qed.
(** The transaction of C97 as a receiver has it, with its third input the one in question. *)
Definition ex_arrived : transaction := Eval vm_compute in match received (Hash160 ex_sha) ex_signed with Ok t => t | _ => ex_unsigned end.
Example C147_witness_example : WVerify ex_sha ex_arrived = Ok tt /\ uncached ex_arrived /\ tx_ok ex_arrived /\ v0_ok ex_arrived /\ (forall x, len (DoubleSha256 ex_sha x) = 32) /\
  NoDup (map link (tx_ins ex_arrived)) /\
  exists i s key, index (tx_ins ex_arrived) 2 = Ok i /\ spends_p2wpkh ex_h i /\ AllInstructions (ti_unlock i) = Ok [Instr 71 (s ++ [1]); Instr 33 key] /\
    (forall m j, m < 2 -> index (tx_ins ex_arrived) m = Ok j -> exists s, ParseLockingScript (ti_rawlock j) = Ok s /\ witness_version s = false).
Proof.
  split.
  { destruct C97_example as (H & F & S & _).
    destruct (C124_whole_partial ex_sha ex_hmac 1 true 1 [[ex_key]; [ex_key]; [ex_key]] ex_unsigned ex_signed H ltac:(lia) ltac:(repeat split) F) as (r & R & W & _).
    - repeat (apply Forall_cons; [intros h r E R; try (vm_compute in E; discriminate); try (vm_compute in R; discriminate)|]). constructor.
    - exact S.
    - tx_ok_tac.
    - vm_compute. discriminate.
    - assert (R' : received (Hash160 ex_sha) ex_signed = Ok ex_arrived) by (vm_compute; reflexivity). rewrite R' in R. assert (r = ex_arrived) as -> by congruence. exact W. }
  split; [repeat split|]. split; [tx_ok_tac|]. split; [split; [repeat (apply Forall_cons; [vm_compute; discriminate|]); constructor|]; repeat (apply Forall_cons; [split; vm_compute; [split; [discriminate|reflexivity]|discriminate]|]); constructor|].
  split; [intro x; apply ex_hash32|].
  split; [repeat (constructor; [vm_compute; intuition discriminate|]); constructor|].
  eexists _, (firstn 70 (skipn 1 (ti_unlock (nth 2 (tx_ins ex_arrived) ex_in)))), _. split; [reflexivity|]. split; [repeat split|]. split; [vm_compute; reflexivity|].
  intros m j Hm Hj. destruct (at_index _ _ _ Hj) as [G _]. assert (m = 0 \/ m = 1) as [-> | ->] by lia; [assert (j = nth 0 (tx_ins ex_arrived) ex_in) as -> by (vm_compute in Hj |- *; congruence)|assert (j = nth 1 (tx_ins ex_arrived) ex_in) as -> by (vm_compute in Hj |- *; congruence)]; eexists; (split; [vm_compute; reflexivity|reflexivity]).
Qed.
