(** What a sign call leaves in the input; what a verified script-hash input revealed. *)
From Verif Require Import GoBase BaseLemmas BufferModel BufferSpec BufferProofs BufferMore ScriptNumModel ScriptNumSpec ScriptNumProofs ScriptModel ScriptSpec ScriptProofs
  LockSpec LockModel VmModel VmSpec VmProofs VmMore VmSig VmCond VmPanic VmLock LockProofs VmCalls TxModel TxSpec TxSignSpec TxSign TxSign2.
From Coq Require Import ZifyBool ZifyNat ZifyN.

Section Carried.
Variable Hash160 sha256 DS : bytes -> bytes.
Variable prvkey : Type.
Variable PubKeyBytes : prvkey -> bool -> bytes.
Variable EcdsaSign : prvkey -> bytes -> res bytes.
Variable EcdsaVerify : bytes -> bytes -> bytes -> res unit.
Notation digest := (sigHashFn DS).
Notation SignIndex := (SignIndex sha256 DS prvkey PubKeyBytes EcdsaSign).
Notation Verify := (TxModel.Verify Hash160 DS EcdsaVerify).
Notation verify_from := (TxModel.verify_from Hash160 DS EcdsaVerify).
Notation scheme_ok := (scheme_ok prvkey PubKeyBytes EcdsaSign EcdsaVerify).
Notation handed_over := (handed_over prvkey PubKeyBytes).
Notation signed_by := (signed_by prvkey PubKeyBytes EcdsaSign).

Lemma pkh_pushing x : pushable (pks_sig x) -> pushable (pks_key x) -> script_pushing (Script (AddData (pks_key x) (AddData (pks_sig x) NewScriptBuilder))) [pks_sig x; pks_key x].
Proof.
  intros Ps Pk. destruct (add_item (pks_sig x) NewScriptBuilder Ps) as (j1 & e1 & E1 & _ & _ & En1 & P1).
  destruct (add_item (pks_key x) (AddData (pks_sig x) NewScriptBuilder) Pk) as (j2 & e2 & E2 & _ & _ & En2 & P2).
  exists [j1; j2]. rewrite E2, E1. split; [constructor; [exact En1|now apply encodes_script]|repeat constructor; assumption].
Qed.
Lemma sh_pushing signs r : signs <> [] -> Forall (fun x => pushable (pks_sig x) /\ len (pks_sig x) <= 101) signs -> pushable r ->
  script_pushing (p2sh_unlocking signs r) ([] :: map pks_sig signs ++ [r]).
Proof.
  intros Ne Fs Pr.
  destruct (add_items (map pks_sig signs) 101 ltac:(lia)) with (b := AddOp 0x00 NewScriptBuilder) as (js & e1 & E1 & _ & _ & So1 & P1).
  { apply Forall_map. apply (Forall_impl _ (P := fun x => pushable (pks_sig x) /\ len (pks_sig x) <= 101)); [|exact Fs]. tauto. }
  { apply Forall_map. apply (Forall_impl _ (P := fun x => pushable (pks_sig x) /\ len (pks_sig x) <= 101)); [|exact Fs]. tauto. }
  destruct (add_item r (fold_left (fun b d => AddData d b) (map pks_sig signs) (AddOp 0x00 NewScriptBuilder)) Pr) as (j2 & e2 & E2 & _ & _ & En2 & P2).
  assert (Eu : p2sh_unlocking signs r = [0] ++ e1 ++ e2).
  { unfold p2sh_unlocking. replace (0 <? len signs) with true by (destruct signs; [congruence|rewrite len_cons; pose proof (len_nonneg signs); lia]). rewrite fold_sigs, E2, E1, <- app_assoc. reflexivity. }
  exists (Instr 0 [] :: js ++ [j2]). rewrite Eu. split.
  - constructor; [apply enc_plain; vm_compute; tauto|]. apply script_of_app; [exact So1|now apply encodes_script].
  - constructor; [constructor|]. apply Forall2_app; [exact P1|]. constructor; [exact P2|constructor].
Qed.

Lemma sign_carries idx c ht ks t i t' s : scheme_ok -> 0 <= ht < 256 -> index (tx_ins t) idx = Ok i -> ParseLockingScript (ti_rawlock i) = Ok s -> pushable (nilb (ti_redeem i)) -> ks <> [] ->
  SignIndex idx c ht ks t = Ok t' ->
  exists i' h sigs, index (tx_ins t') idx = Ok i' /\ digest idx (in_has_witness i) t ht = Ok h /\ Forall2 (fun k sg => exists der, EcdsaSign k h = Ok der /\ sg = der ++ [ht]) ks sigs /\
  ((exists p, s = P2WSH p /\ sha256 (nilb (ti_redeem i)) <> p /\ ti_unlock i' = []) \/
   let items := handed_over s c ks sigs (nilb (ti_redeem i)) in script_pushing (ti_unlock i') items /\ ti_witness i' = if witness_version s then items else []).
Proof.
  intros Sc R Hi Ps Pr Nk E. unfold TxModel.SignIndex in E. rewrite Hi in E. cbn [rbind] in E. destruct ((1 <? len ks) && _); [discriminate|].
  apply rbind_ok in E. destruct E as ((signs & t1) & El & E). destruct (sign_loop_spec Hash160 sha256 DS prvkey PubKeyBytes EcdsaSign EcdsaVerify idx c ht ks t i signs t1 Hi El) as (S1 & (i1 & Hi1) & Oth & [X|(dg & Dg & F)] & Lsg); [congruence|].
  destruct (core_index t t1 idx i (proj1 S1) Hi) as (i1' & Hi1' & Bl). rewrite Hi1 in Hi1'. injection Hi1' as <-.
  assert (ti_rawlock i1 = ti_rawlock i /\ ti_redeem i1 = ti_redeem i) as [Ra Re] by (unfold blank in Bl; split; congruence).
  unfold EmbedIdxSignature in E. rewrite Hi1 in E. cbn [rbind] in E. destruct ((1 <? len signs) && _); [discriminate|]. rewrite Ra, Re, Ps in E. cbn [rbind] in E.
  assert (Fp : forall ks0 signs0, Forall2 (signed_by c ht dg) ks0 signs0 ->
     Forall2 (fun k sg => exists der, EcdsaSign k dg = Ok der /\ sg = der ++ [ht]) ks0 (map pks_sig signs0) /\ Forall (fun x => pushable (pks_sig x) /\ len (pks_sig x) <= 101) signs0 /\ Forall (fun x => pushable (pks_key x)) signs0).
  { intros ks0 signs0 F0. induction F0 as [|k x ks1 signs1 Fx F1 IH]; [repeat constructor|]. destruct (pks_pushable Hash160 sha256 DS prvkey PubKeyBytes EcdsaSign EcdsaVerify c ht dg k x Sc R Fx) as (A & B & C & _ & der & D1 & D2).
    destruct IH as (I1 & I2 & I3). cbn [map]. split; [constructor; [exists der; auto|exact I1]|]. split; constructor; auto. }
  destruct (Fp ks signs F) as (F1 & F2 & F3).
  destruct s as [p|p|p|p]; cbn [GetRawUnlockingScriptBytes GetWitnessUnlockingScriptBytes rbind] in E.
  - destruct F as [|k x ks signs Fx F]; [congruence|]. injection E as <-. eexists _, dg, _. split; [apply index_set_in; exact Hi1|]. split; [exact Dg|]. split; [exact F1|]. right.
    cbn [TxSignSpec.handed_over witness_version ti_unlock ti_witness with_witness with_unlock map]. rewrite <- (proj1 Fx). split; [|reflexivity]. inversion F2; inversion F3; subst. apply pkh_pushing; tauto.
  - injection E as <-. eexists _, dg, _. split; [apply index_set_in; exact Hi1|]. split; [exact Dg|]. split; [exact F1|]. right.
    cbn [TxSignSpec.handed_over witness_version ti_unlock ti_witness with_witness with_unlock]. split; [|reflexivity]. apply sh_pushing; [|exact F2|exact Pr]. intros ->. destruct ks; [congruence|discriminate].
  - destruct F as [|k x ks signs Fx F]; [congruence|]. injection E as <-. eexists _, dg, _. split; [apply index_set_in; exact Hi1|]. split; [exact Dg|]. split; [exact F1|]. right.
    cbn [TxSignSpec.handed_over witness_version ti_unlock ti_witness with_witness with_unlock map]. rewrite <- (proj1 Fx). split; [|reflexivity]. inversion F2; inversion F3; subst. apply pkh_pushing; tauto.
  - destruct (list_Z_eqb (sha256 (nilb (ti_redeem i))) p) eqn:Q; cbn [negb rbind] in E; injection E as <-; eexists _, dg, _; (split; [apply index_set_in; exact Hi1|]); (split; [exact Dg|]); (split; [exact F1|]).
    + right. cbn [TxSignSpec.handed_over witness_version ti_unlock ti_witness with_witness with_unlock]. assert (Ne : signs <> []) by (intros ->; destruct ks; [congruence|discriminate]). split; [apply sh_pushing; [exact Ne|exact F2|exact Pr]|].
      destruct signs; [congruence|]. reflexivity.
    + left. exists p. split; [reflexivity|]. split; [now apply list_Z_eqb_neq|reflexivity].
Qed.

(** A verified input spending through [p2sh_script (Hash160 r)] with a push-only unlocking script revealed a script
    with the hash of [r] as its last item. *)
Lemma verify_from_input : forall ins idx t n i, verify_from idx ins t = Ok tt -> nth_error ins n = Some i -> exists t', TxModel.verify_input Hash160 DS EcdsaVerify (idx + Z.of_nat n) i t' = Ok tt.
Proof.
  induction ins as [|x ins IH]; intros idx t n i V Hn; [destruct n; discriminate|]. cbn [TxModel.verify_from] in V. apply rbind_ok in V. destruct V as ([] & V1 & V). apply rbind_ok in V. destruct V as (s & _ & V).
  destruct n as [|n]; [injection Hn as <-; exists t; now rewrite Z.add_0_r|]. destruct (IH _ _ n i V Hn) as (t' & E). exists t'. replace (idx + Z.of_nat (S n)) with (idx + 1 + Z.of_nat n) by lia. exact E.
Qed.
Lemma verified_reveals t idx i r ds : Verify t = Ok tt -> index (tx_ins t) idx = Ok i -> ti_finallock i = p2sh_script (Hash160 r) -> len (Hash160 r) = 20 ->
  in_memory (ti_unlock i ++ ti_finallock i) -> script_pushing (ti_unlock i) ds -> exists items w, ds = items ++ [w] /\ Hash160 w = Hash160 r.
Proof.
  intros V Hi F L M (is & So & Pu). unfold index in Hi. destruct (idx <? 0); [discriminate|]. destruct (nth_error (tx_ins t) (Z.to_nat idx)) as [x|] eqn:Hn; [|discriminate]. injection Hi as ->.
  destruct (verify_from_input _ _ _ _ _ V Hn) as (t' & E). unfold TxModel.verify_input in E. apply rbind_ok in E. destruct E as (s & _ & E). rewrite F in *.
  destruct (VmModel.Verify _ _ _ _ _ _) as [st'| |] eqn:W; try discriminate. pose proof (mem_l _ _ M) as Mu.
  assert (X : execute Hash160 (Some (sigHashFn DS (0 + Z.of_nat (Z.to_nat idx)) (witness_version s) t')) (Some EcdsaVerify) (ti_unlock i) false NewEngine = Ok (Vm (rev ds) [])).
  { rewrite (exec_of Hash160 _ _ _ _ false _ Mu So). unfold NewEngine. rewrite (run_pushes _ _ _ _ _ Pu). rewrite app_nil_r. reflexivity. }
  apply (p2sh_iff Hash160 _ _ _ _ _ _ M L X) in W. destruct W as (w & rest & Er & Hw & _). exists (rev rest), w. split; [|exact Hw]. rewrite <- (rev_involutive ds), Er. reflexivity.
Qed.
Lemma own_script t idx i r ds : Verify t = Ok tt -> index (tx_ins t) idx = Ok i -> spends_p2wsh Hash160 sha256 r i -> len (Hash160 r) = 20 -> in_memory (ti_unlock i ++ ti_finallock i) ->
  script_pushing (ti_unlock i) ds -> exists items w, ds = items ++ [w] /\ Hash160 w = Hash160 r /\ ((Hash160 w = Hash160 r -> w = r) -> ti_rawlock i = p2wsh_script (sha256 w)).
Proof.
  intros V Hi (Ra & Fi & _) L M S. destruct (verified_reveals t idx i r ds V Hi Fi L M S) as (items & w & E & Hw). exists items, w. split; [exact E|]. split; [exact Hw|].
  intros C. rewrite Ra, (C Hw). reflexivity.
Qed.
End Carried.

(** ** Any P2WSH output, any key material: a witness without signatures and with a foreign script. *)
Definition theft_redeem : bytes := [0x51; 33] ++ (2 :: repeat 7 32) ++ [0x51; 0xae].
Definition theft_tx : transaction := MkTx 2 0 [MkIn (repeat 0xab 32) 0 0 0xffffffff [] None [[]; theft_redeem] None [] [] []] [MkOut 1000 [0x51]] None None None.
Lemma theft (Hash160 sha256 DS : bytes -> bytes) EcdsaVerify h amount : (forall x, bytes_ok (Hash160 x) /\ len (Hash160 x) = 20) -> bytes_ok h -> len h = 32 ->
  exists t i, SetTxIn Hash160 0 amount (p2wsh_script h) (Some theft_redeem) theft_tx = Ok t /\ index (tx_ins t) 0 = Ok i /\ ti_rawlock i = p2wsh_script h /\ ti_witness i = [[]; theft_redeem] /\
    TxModel.Verify Hash160 DS EcdsaVerify t = Ok tt.
Proof.
  intros Hh O L. destruct (Hh theft_redeem) as [O2 L2]. unfold SetTxIn. change (index (tx_ins theft_tx) 0) with (Ok (nth 0 (tx_ins theft_tx) (MkIn [] 0 0 0 [] None [] None [] [] []))). cbn [rbind].
  change (p2wsh_script h) with (template (P2WSH h)) at 1. rewrite (parse_of (P2WSH h)) by assumption. cbn [rbind].
  assert (W : WitnessToUnlockingScriptBytes (P2WSH h) [[]; theft_redeem] = Ok (0 :: 37 :: theft_redeem)) by (vm_compute; reflexivity).
  change (ti_witness (nth 0 (tx_ins theft_tx) _)) with [[]; theft_redeem]. rewrite W. cbn [rbind]. eexists _, _. split; [reflexivity|]. split; [reflexivity|]. cbn [ti_rawlock ti_witness].
  assert (Rw : GetRawLockingScriptBytes (P2WSH h) = p2wsh_script h) by now apply (raw_locking (P2WSH h)). split; [exact Rw|]. split; [reflexivity|].
  unfold TxModel.Verify, theft_tx, set_in, set_ins. change (Z.to_nat 0) with 0%nat. cbn [tx_ins update]. cbn [TxModel.verify_from].
  match goal with |- context [TxModel.verify_input _ _ _ 0 ?i ?t] => assert (V : TxModel.verify_input Hash160 DS EcdsaVerify 0 i t = Ok tt) end.
  { unfold TxModel.verify_input. cbn [ti_rawlock ti_unlock ti_finallock]. rewrite Rw. change (p2wsh_script h) with (template (P2WSH h)). rewrite (parse_of (P2WSH h)) by assumption. cbn [rbind witness_version].
    cbn [GetFinalLockingScriptBytes nilb]. replace (GetRawLockingScriptBytes (P2SH (Hash160 theft_redeem))) with (p2sh_script (Hash160 theft_redeem)) by (symmetry; now apply (raw_locking (P2SH _))).
    match goal with |- context [sigHashFn DS 0 true ?t] => generalize (sigHashFn DS 0 true t) end. intros hasher.
    assert (M : in_memory ((0 :: 37 :: theft_redeem) ++ p2sh_script (Hash160 theft_redeem))).
    { unfold p2sh_script. split; [rewrite !bytes_ok_app; repeat split; auto; bytes_ok_tac|]. rewrite !len_app, L2. vm_compute. discriminate. }
    assert (X : execute Hash160 (Some hasher) (Some EcdsaVerify) (0 :: 37 :: theft_redeem) false NewEngine = Ok (Vm [theft_redeem; []] [])).
    { rewrite (exec_of Hash160 _ _ [Instr 0 []; Instr 37 theft_redeem] _ false _ (mem_l _ _ M)).
      - unfold NewEngine. rewrite (run_pushes _ _ _ _ [[]; theft_redeem]); [reflexivity|]. constructor; [constructor|]. constructor; [|constructor]. apply push_data. lia.
      - change (0 :: 37 :: theft_redeem) with ([0] ++ (37 :: theft_redeem)). constructor; [apply enc_plain; vm_compute; tauto|]. apply encodes_script. apply enc_direct; [lia|reflexivity]. }
    rewrite (proj2 (p2sh_iff Hash160 hasher EcdsaVerify _ _ _ (Vm [[]] []) M L2 X)); [reflexivity|].
    exists theft_redeem, [[]]. split; [reflexivity|]. split; [reflexivity|]. left. split; [vm_compute; discriminate|reflexivity]. }
  rewrite V. cbn [rbind]. cbn [ti_rawlock]. rewrite Rw. change (p2wsh_script h) with (template (P2WSH h)). rewrite (parse_of (P2WSH h)) by assumption. reflexivity.
Qed.
Lemma theft_spends (Hash160 sha256 DS : bytes -> bytes) EcdsaVerify h amount : (forall x, bytes_ok (Hash160 x) /\ len (Hash160 x) = 20) -> bytes_ok h -> len h = 32 -> sha256 theft_redeem <> h ->
  exists t i, SetTxIn Hash160 0 amount (p2wsh_script h) (Some theft_redeem) theft_tx = Ok t /\ index (tx_ins t) 0 = Ok i /\ ti_rawlock i = p2wsh_script h /\ ti_witness i = [[]; theft_redeem] /\
    sha256 (last (ti_witness i) []) <> h /\ TxModel.Verify Hash160 DS EcdsaVerify t = Ok tt.
Proof. intros Hh O L N. destruct (theft Hash160 sha256 DS EcdsaVerify h amount Hh O L) as (t & i & A & B & C & D & E). exists t, i. rewrite D. repeat split; auto. Qed.
