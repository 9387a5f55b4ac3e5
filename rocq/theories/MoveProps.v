(** C147: whether the signature of one transaction can be used for another. *)
From Verif Require Import GoBase BaseLemmas SecpSpec EcdsaModel EcdsaSpec PubKeyModel DerModel BufferModel Codec ScriptModel ScriptSpec ScriptProofs LockModel LockSpec LockProofs VmModel VmSpec VmProofs VmMore VmProps
  TxModel TxSpec TxProofs TxSig TxProps TxSignSpec TxSign TxSign2 TxSign3 TxSignProps WholeModel WholeProofs WholeProps.
From Coq Require Import ZifyBool ZifyNat ZifyN.
Local Open Scope Z_scope.

Lemma last_two (items : list bytes) d ht k der ht' key : [der ++ [ht']; key] = items ++ [d ++ [ht]; k] -> d = der /\ ht = ht' /\ k = key.
Proof.
  intros Ei. destruct items as [|x [|y [|z items]]]; cbn [app] in Ei.
  - assert (E1 : der ++ [ht'] = d ++ [ht]) by congruence. apply app_inj_tail in E1. destruct E1 as [-> ->]. split; [reflexivity|]. split; [reflexivity|congruence].
  - discriminate.
  - discriminate.
  - apply (f_equal (@length _)) in Ei. cbn [length] in Ei. rewrite app_length in Ei. cbn [length] in Ei. lia.
Qed.

(** C147 is false of the types other than ALL on key hash outputs without witness: whoever sees one such signature in
    an accepted transaction can spend every output of that key, to outputs of their own choosing. *)
Theorem C147_moved_refuted : forall (Hash160 DS : bytes -> bytes) EcdsaVerify t idx i h der ht key (t2 : transaction),
  TxModel.Verify Hash160 DS EcdsaVerify t = Ok tt -> index (tx_ins t) idx = Ok i -> spends_p2pkh h i -> bytes_ok h -> len h = 20 ->
  in_memory (ti_unlock i ++ p2pkh_script h) -> script_pushing (ti_unlock i) [der ++ [ht]; key] -> ht <> 1 ->
  tx_version t2 = tx_version t -> tx_locktime t2 = tx_locktime t -> Forall (fun j => spends_p2pkh h j /\ ti_unlock j = ti_unlock i) (tx_ins t2) ->
  TxModel.Verify Hash160 DS EcdsaVerify t2 = Ok tt.
Proof.
  intros Hash160 DS EcdsaVerify t idx i h der ht key t2 V Hi (Raw & Fin & _) O L M P N Ve Lo F.
  destruct (verify_nth _ _ _ _ _ _ V Hi) as (t' & C & E & _).
  assert (Ps : forall j, spends_p2pkh h j -> ParseLockingScript (ti_rawlock j) = Ok (P2PKH h)) by (intros j (-> & _ & _); exact (parse_of (P2PKH h) O L)).
  assert (Pi : ParseLockingScript (ti_rawlock i) = Ok (P2PKH h)) by (rewrite Raw; exact (parse_of (P2PKH h) O L)).
  destruct (verified_pkh _ _ _ idx i t' h _ _ Pi Fin L M P E) as (items & d & ht' & k & dg & Ei & Hk & Hd & Hv).
  destruct (last_two _ _ _ _ _ _ _ Ei) as (-> & -> & ->). cbn [witness_version] in Hd. unfold sigHashFn in Hd. rewrite (raw_core _ idx ht t' t C) in Hd.
  destruct P as (is & So & Pu). inversion Pu as [|i1 ? l1 ? P1 Pu1]; subst. inversion Pu1 as [|i2 ? l2 ? P2 Pu2]; subst. inversion Pu2; subst.
  unfold TxModel.Verify. generalize 0 at 1. revert F. generalize (tx_ins t2). induction l as [|j l IH]; intros F n; [reflexivity|].
  inversion F as [|? ? (S & U) F']; subst. cbn [TxModel.verify_from]. unfold TxModel.verify_input. rewrite (Ps j S). cbn [rbind witness_version].
  destruct S as (_ & Fj & _). rewrite Fj, U.
  destruct (proj2 (C26_p2pkh_iff Hash160 (sigHashFn DS n false t2) EcdsaVerify (ti_unlock i) (Hash160 key) i1 i2 (der ++ [ht]) key M L So P1 P2)) as (st' & R).
  { split; [reflexivity|]. exists der, ht, dg. split; [reflexivity|]. split; [|exact Hv]. unfold sigHashFn. rewrite <- Hd. apply C37_other_types_partial; assumption. }
  rewrite R. cbn [rbind]. now apply IH.
Qed.
Print Assumptions C147_moved_refuted.

(** The preimages of two inputs of whatever places. *)
Lemma cleared_at idx l : forall k n i, nth_error l n = Some i -> exists j, nth_error (map stripped (cleared idx k l)) n = Some j /\ ti_unlock j = (if k + Z.of_nat n =? idx then script_code i else []).
Proof.
  induction l as [|x l IH]; intros k n i Hn; [now destruct n|]. destruct n as [|n]; cbn [cleared map nth_error] in *.
  - injection Hn as ->. eexists. split; [reflexivity|]. cbn. now rewrite Z.add_0_r.
  - destruct (IH (k + 1) n i Hn) as (j & J & E). exists j. split; [exact J|]. now replace (k + Z.of_nat (S n)) with (k + 1 + Z.of_nat n) by lia.
Qed.
Lemma preimages_bind idx idx' t t' i : tx_ok t -> tx_ok t' -> signed_ok idx t -> signed_ok idx' t' -> len (legacy_preimage idx t) <= 2 ^ 48 ->
  index (tx_ins t) idx = Ok i -> script_code i <> [] -> legacy_preimage idx t = legacy_preimage idx' t' ->
  idx = idx' /\ tx_version t = tx_version t' /\ tx_locktime t = tx_locktime t' /\ map link (tx_ins t) = map link (tx_ins t') /\ tx_outs t = tx_outs t'.
Proof.
  intros T T' C C' L Hi Ne E. rewrite !preimage_wire in *.
  pose proof (reads_inj dec_legacy _ _ _ _ _ _ (reads_legacy _ (cleared_tx_ok idx t T C)) (reads_legacy _ (cleared_tx_ok idx' t' T' C')) L E) as (R & _).
  injection R as V K I O. cbn [cleared_tx set_ins tx_version tx_locktime tx_ins tx_outs] in *.
  assert (Lk : map link (tx_ins t) = map link (tx_ins t')) by (rewrite <- (cleared_link idx (tx_ins t) 0), I; apply cleared_link).
  repeat (split; [|tauto]). unfold index in Hi. destruct (idx <? 0) eqn:Neg; [discriminate|].
  destruct (nth_error (tx_ins t) (Z.to_nat idx)) as [x|] eqn:Ex; [|discriminate]. injection Hi as ->.
  destruct (cleared_at idx _ 0 _ _ Ex) as (j & J & Ej).
  destruct (nth_error (tx_ins t') (Z.to_nat idx)) as [x'|] eqn:Ex'.
  - destruct (cleared_at idx' _ 0 _ _ Ex') as (j' & J' & Ej'). rewrite I, J' in J. injection J as ->. rewrite Ej in Ej'.
    replace (0 + Z.of_nat (Z.to_nat idx) =? idx) with true in Ej' by lia. destruct (0 + Z.of_nat (Z.to_nat idx) =? idx') eqn:Q; [lia|]. contradiction.
  - apply nth_error_None in Ex'. assert (Hl : nth_error (tx_ins t) (Z.to_nat idx) <> None) by congruence. apply nth_error_Some in Hl.
    apply (f_equal (@length _)) in Lk. rewrite !map_length in Lk. lia.
Qed.

(** What holds: an unlocking script of type ALL accepted in two transactions is accepted for the same input of the same
    inputs and outputs, unless the signature fits the digests of two different messages. *)
Theorem C147_moved_partial : forall sha256 t t' idx idx' i i' h der key,
  WVerify sha256 t = Ok tt -> WVerify sha256 t' = Ok tt -> index (tx_ins t) idx = Ok i -> index (tx_ins t') idx' = Ok i' ->
  spends_p2pkh h i -> spends_p2pkh h i' -> bytes_ok h -> len h = 20 -> ti_unlock i' = ti_unlock i ->
  in_memory (ti_unlock i ++ p2pkh_script h) -> script_pushing (ti_unlock i) [der ++ [1]; key] ->
  tx_ok t -> tx_ok t' -> code_ok i -> code_ok i' -> script_code i <> [] -> len (legacy_preimage idx t) <= 2 ^ 48 ->
  (idx = idx' /\ tx_version t = tx_version t' /\ tx_locktime t = tx_locktime t' /\ map link (tx_ins t) = map link (tx_ins t') /\ tx_outs t = tx_outs t') \/
  exists x y, x <> y /\ signed_by_key key der (message_int (sha256 (sha256 x))) /\ signed_by_key key der (message_int (sha256 (sha256 y))).
Proof.
  intros sha256 t t' idx idx' i i' h der key V V' Hi Hi' S S' O L U M P T T' Ci Ci' Ne B.
  assert (So : signed_ok idx t) by (intros j Hj; assert (j = i) as -> by congruence; exact Ci).
  assert (So' : signed_ok idx' t') by (intros j Hj; assert (j = i') as -> by congruence; exact Ci').
  assert (Fi : ti_finallock i = p2pkh_script h) by apply S. assert (Fi' : ti_finallock i' = p2pkh_script h) by apply S'.
  destruct (C98_p2pkh_spend sha256 t idx i h [der ++ [1]; key] V Hi S O L ltac:(rewrite Fi; exact M) P) as (it & d & ht & k & dg & Ei & _ & _ & Sg & Dg).
  destruct (last_two _ _ _ _ _ _ _ Ei) as (-> & -> & ->).
  destruct (C98_p2pkh_spend sha256 t' idx' i' h [der ++ [1]; key] V' Hi' S' O L ltac:(rewrite Fi', U; exact M) ltac:(rewrite U; exact P)) as (it' & d' & ht' & k' & dg' & Ei' & _ & _ & Sg' & Dg').
  destruct (last_two _ _ _ _ _ _ _ Ei') as (-> & -> & ->).
  rewrite (Dg eq_refl T So) in Sg. rewrite (Dg' eq_refl T' So') in Sg'.
  destruct (list_eq_dec Z.eq_dec (legacy_preimage idx t) (legacy_preimage idx' t')) as [E|E].
  - left. exact (preimages_bind idx idx' t t' i T T' So So' B Hi Ne E).
  - right. exists (legacy_preimage idx t), (legacy_preimage idx' t'). auto.
Qed.
Print Assumptions C147_moved_partial.

(** One input signed with type NONE: its unlocking script spends two other outputs of the key elsewhere.  Signed with
    type ALL it does not. *)
Definition toy_home := toy_tx [nth 0 toy_ins ex_in].
Definition toy_away (u : bytes) : transaction :=
  MkTx 2 0 (map (fun n => let i := toy_in n (p2pkh_script (toy160 (toy_pub 8 true))) None in MkIn (ti_hash i) (ti_index i) (ti_value i) (ti_seq i) (ti_sighash i) (ti_redeem i) (ti_witness i) (ti_code i) (ti_rawlock i) (ti_finallock i) u) [77; 78])
    [MkOut 123456 [0x52]] None None None.
Example C147_example :
  (exists t i, toy_sign_each true 2 0 [[8]] toy_home = Ok t /\ toy_check t = Ok tt /\ index (tx_ins t) 0 = Ok i /\ spends_p2pkh (toy160 (toy_pub 8 true)) i /\
    script_pushing (ti_unlock i) [([8; toy_sum (toy256 [2; 0; 0; 0; 0; 0; 0; 0; 2; 0; 0; 0])] ++ [2]); toy_pub 8 true] /\ toy_check (toy_away (ti_unlock i)) = Ok tt) /\
  exists t i e, toy_sign_each true 1 0 [[8]] toy_home = Ok t /\ toy_check t = Ok tt /\ index (tx_ins t) 0 = Ok i /\ toy_check (toy_away (ti_unlock i)) = Err e.
Proof.
  split.
  - eexists _, _. split; [vm_compute; reflexivity|]. split; [vm_compute; reflexivity|]. split; [vm_compute; reflexivity|]. split; [repeat split; vm_compute; reflexivity|]. split; [|vm_compute; reflexivity].
    match goal with |- script_pushing ?u ?ds => let u' := eval vm_compute in u in let ds' := eval vm_compute in ds in change (script_pushing u' ds') end.
    match goal with |- script_pushing _ [?a; ?b] => exists [Instr 3 a; Instr 3 b] end. split.
    + apply (so_cons (Instr 3 _) [3; _; _; _] _ [3; _; _; _]); [constructor; vm_compute; split; congruence|]. apply (so_cons (Instr 3 _) [3; _; _; _] _ []); [constructor; vm_compute; split; congruence|]. constructor.
    + repeat (constructor; [constructor; vm_compute; split; congruence|]). constructor.
  - eexists _, _, _. repeat (split; [vm_compute; reflexivity|]). vm_compute. reflexivity.
Qed.
(** A transaction as in the second theorem, whose first script could be looked for elsewhere. *)
Example C147_same_example : WVerify ex_sha ex_signed = Ok tt /\ tx_ok ex_signed /\ exists i s key, index (tx_ins ex_signed) 0 = Ok i /\ spends_p2pkh ex_h i /\ code_ok i /\ script_code i <> [] /\
  AllInstructions (ti_unlock i) = Ok [Instr 71 (s ++ [1]); Instr 33 key] /\ len (legacy_preimage 0 ex_signed) <= 2 ^ 48.
Proof.
  split; [apply C98_example|]. split; [tx_ok_tac|]. eexists _, (firstn 70 (skipn 1 (ti_unlock (nth 0 (tx_ins ex_signed) ex_in)))), _. split; [reflexivity|]. split; [repeat split|].
  split; [split; [bytes_ok_tac|vm_compute; discriminate]|]. split; [discriminate|]. split; [vm_compute; reflexivity|vm_compute; discriminate].
Qed.
