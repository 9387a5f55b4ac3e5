(** What a relay can change in a signed transaction (C130). *)
From Verif Require Import GoBase BaseLemmas BufferModel BufferSpec BufferProofs BufferMore ScriptNumModel ScriptNumSpec ScriptNumProofs ScriptModel ScriptSpec ScriptProofs
  LockSpec LockModel VmModel VmSpec VmProofs VmMore VmSig VmCond VmPanic VmLock LockProofs VmCalls TxModel TxSpec TxProofs TxSignSpec TxSign TxSign2 TxSign3 WholeProofs MallSpec.
From Coq Require Import ZifyBool ZifyNat ZifyN.

Lemma rewritten_update n u t : rewritten n u t = MkTx (tx_version t) (tx_locktime t) (update n (new_script u) (tx_ins t)) (tx_outs t) (tx_prevouts t) (tx_sequence t) (tx_outputs t).
Proof.
  unfold rewritten. f_equal. generalize (tx_ins t) as l. revert n. induction n as [|n IH]; intros [|x l]; try reflexivity. cbn [firstn skipn app update]. f_equal. apply IH.
Qed.

(** The engine uses its hasher only by calling it. *)
Section Ext.
Variable H : bytes -> bytes.
Variable f g : Z -> res bytes.
Variable v : bytes -> bytes -> bytes -> res unit.
Hypothesis fg : forall ht, f ht = g ht.
Lemma verify_sig_ext sg k : verify_sig f v sg k = verify_sig g v sg k.
Proof. unfold verify_sig. destruct (index sg (len sg - 1)) as [ht| |]; [|reflexivity|reflexivity]. cbn [rbind]. destruct (slice sg 0 (len sg - 1)); [|reflexivity|reflexivity]. cbn [rbind]. now rewrite fg. Qed.
Lemma multisig_loop_ext keys : forall sigs, multisig_loop (Some f) (Some v) keys sigs = multisig_loop (Some g) (Some v) keys sigs.
Proof.
  induction keys as [|k keys IH]; intros [|sg sigs]; try reflexivity. cbn [multisig_loop]. rewrite verify_sig_ext. destruct (verify_sig g v sg k) as [b| |]; [|reflexivity|reflexivity].
  cbn [rbind]. destruct (len keys <? len (if b then sigs else sg :: sigs)); [reflexivity|apply IH].
Qed.
Lemma checksig_ext st : opCheckSig (Some f) (Some v) st = opCheckSig (Some g) (Some v) st.
Proof.
  unfold opCheckSig, on_stack. destruct (PopByteArray (dstack st)) as [[k s1]| |]; [|reflexivity|reflexivity]. cbn [rbind]. destruct (PopByteArray s1) as [[sg s2]| |]; [|reflexivity|reflexivity].
  cbn [rbind]. destruct (len sg <? 1); [reflexivity|]. now rewrite verify_sig_ext.
Qed.
Lemma multisig_ext st : opCheckMultiSig (Some f) (Some v) st = opCheckMultiSig (Some g) (Some v) st.
Proof.
  unfold opCheckMultiSig, on_stack. destruct (PopInt (dstack st)) as [[n s1]| |]; [|reflexivity|reflexivity]. cbn [rbind]. destruct (Int32 n <? 0); [reflexivity|].
  destruct (pop_items (Z.to_nat (Int32 n)) s1) as [[ks s2]| |]; [|reflexivity|reflexivity]. cbn [rbind]. destruct (PopInt s2) as [[m s3]| |]; [|reflexivity|reflexivity]. cbn [rbind].
  destruct (Int32 n <? Int32 m); [reflexivity|]. destruct (Int32 m <? 0); [reflexivity|]. destruct (pop_items (Z.to_nat (Int32 m)) s3) as [[sigs s4]| |]; [|reflexivity|reflexivity]. cbn [rbind].
  destruct (PopByteArray s4) as [[x s5]| |]; [|reflexivity|reflexivity]. cbn [rbind]. now rewrite multisig_loop_ext.
Qed.
Lemma step_ext i st : step H (Some f) (Some v) i st = step H (Some g) (Some v) i st.
Proof.
  unfold step. destruct (branchShouldSkip st && negb (isConditional i)); [reflexivity|]. unfold opfunc.
  repeat match goal with |- (if ?c then _ else _) st = _ => destruct c; [first [reflexivity|exact (checksig_ext st)|exact (multisig_ext st)|idtac]|] end.
  - unfold opCheckSigVerify. now rewrite checksig_ext.
  - unfold opCheckMultiSigVerify. now rewrite multisig_ext.
  - reflexivity.
Qed.
Lemma exec_loop_ext fuel : forall b st, exec_loop H (Some f) (Some v) fuel b st = exec_loop H (Some g) (Some v) fuel b st.
Proof.
  induction fuel as [|n IH]; intros b st; [reflexivity|]. cbn [exec_loop]. destruct (NextInstruction b) as [[[i|]| |] b']; [|reflexivity|reflexivity|reflexivity]. generalize (step_ext i st).
  generalize (step H (Some f) (Some v) i st) (step H (Some g) (Some v) i st). intros x y ->. destruct y; cbn [rbind]; [apply IH|reflexivity|reflexivity].
Qed.
Lemma execute_ext p fin st : execute H (Some f) (Some v) p fin st = execute H (Some g) (Some v) p fin st.
Proof. unfold execute. generalize (exec_loop_ext (S (length p)) (NewBufferReader p) st). generalize (exec_loop H (Some f) (Some v)) (exec_loop H (Some g) (Some v)). intros x y E. now rewrite E. Qed.
Lemma vm_verify_ext un lock st : VmModel.Verify H (Some f) (Some v) un lock st = VmModel.Verify H (Some g) (Some v) un lock st.
Proof.
  unfold VmModel.Verify. generalize execute_ext. generalize (execute H (Some f) (Some v)) (execute H (Some g) (Some v)). intros x y E. rewrite E. destruct (y un false st) as [st1| |]; [|reflexivity|reflexivity].
  cbn [rbind]. rewrite E. destruct (y (un ++ lock) true _) as [st2| |]; [|reflexivity|reflexivity]. cbn [rbind]. destruct (1 <? len (dstack st2)); [|reflexivity].
  destruct (PopByteArray (dstack st1)) as [[r s]| |]; [|reflexivity|reflexivity]. cbn [rbind]. apply E.
Qed.
Lemma loop_calls_ext keys : forall sigs, multisig_loop_calls f v keys sigs = multisig_loop_calls g v keys sigs.
Proof.
  induction keys as [|k keys IH]; intros [|sg sigs]; try reflexivity. cbn [multisig_loop_calls]. rewrite verify_sig_ext. destruct (verify_sig g v sg k) as [b| |]; [|reflexivity|reflexivity].
  destruct (len keys <? len (if b then sigs else sg :: sigs)); [reflexivity|]. now rewrite IH.
Qed.
Lemma instr_calls_ext i st : instr_calls f v i st = instr_calls g v i st.
Proof.
  unfold instr_calls, multisig_calls. destruct (branchShouldSkip st && negb (isConditional i)); [reflexivity|]. destruct ((iop i =? 172) || (iop i =? 173)); [reflexivity|].
  destruct ((iop i =? 174) || (iop i =? 175)); [|reflexivity]. match goal with |- context [match ?e with Ok _ => _ | _ => _ end] => destruct e as [[ks sigs]| |] end; [apply loop_calls_ext|reflexivity|reflexivity].
Qed.
Lemma execute_calls_ext p st : execute_calls H f v p st = execute_calls H g v p st.
Proof.
  unfold execute_calls. generalize (NewBufferReader p) as b. generalize (S (length p)) as fuel. intros fuel. revert st. induction fuel as [|n IH]; intros st b; [reflexivity|]. cbn [exec_loop_calls].
  destruct (NextInstruction b) as [[[i|]| |] b']; [|reflexivity|reflexivity|reflexivity]. rewrite instr_calls_ext. generalize (step_ext i st).
  generalize (step H (Some f) (Some v) i st) (step H (Some g) (Some v) i st). intros x y ->. destruct y as [st'| |]; cbv iota; [exact (f_equal (app (instr_calls g v i st)) (IH st' b'))|reflexivity|reflexivity].
Qed.
Lemma verify_calls_ext un lock st : verify_calls H f v un lock st = verify_calls H g v un lock st.
Proof.
  unfold verify_calls. generalize execute_ext execute_calls_ext. generalize (execute H (Some f) (Some v)) (execute H (Some g) (Some v)) (execute_calls H f v) (execute_calls H g v). intros x y a b E C.
  rewrite C, E. f_equal. destruct (y un false st) as [st1| |]; [|reflexivity|reflexivity]. rewrite C, E. f_equal. destruct (y (un ++ lock) true _) as [st2| |]; [|reflexivity|reflexivity].
  destruct (1 <? len (dstack st2)); [|reflexivity]. destruct (PopByteArray (dstack st1)) as [[r s]| |]; [|reflexivity|reflexivity]. apply C.
Qed.
End Ext.

Section Mall.
Variable Hash160 DS : bytes -> bytes.
Variable EcdsaVerify : bytes -> bytes -> bytes -> res unit.
Notation verify_input := (verify_input Hash160 DS EcdsaVerify).
Notation verify_from := (verify_from Hash160 DS EcdsaVerify).
Notation Verify := (TxModel.Verify Hash160 DS EcdsaVerify).

(** Transactions whose digests are the same for every type, now and later. *)
Definition alike (t t' : transaction) : Prop := core t = core t' /\ tx_prevouts t = tx_prevouts t' /\ tx_sequence t = tx_sequence t' /\ tx_outputs t = tx_outputs t'.
Lemma alike_same ht t t' : alike t t' -> same DS ht t t'.
Proof.
  intros (C & P & S & O). split; [exact C|]. unfold core in C. injection C as _ _ I U. unfold eff, eff_prevouts, eff_sequence, eff_outputs. now rewrite P, S, O, I, U.
Qed.
Lemma alike_whash idx ht t t' h t1 : alike t t' -> WitnessV0SignatureHash DS idx ht t = Ok (h, t1) -> exists t1', WitnessV0SignatureHash DS idx ht t' = Ok (h, t1') /\ alike t1 t1'.
Proof.
  intros A. pose proof (alike_same ht t t' A) as [C E]. destruct A as (_ & P & S & O). rewrite !whash_eq. destruct (index (tx_ins t) idx) as [i| |] eqn:Hi; try discriminate.
  destruct (core_index t t' idx i C Hi) as (i' & Hi' & B). rewrite Hi'. cbn [rbind]. intros X. apply ok_pair in X. destruct X as [Eh Et]. eexists. split.
  - f_equal. f_equal. rewrite <- Eh, <- E. unfold core in C. injection C as V K _ _. rewrite <- V, <- K. symmetry. now apply v0_hash_blank.
  - rewrite <- Et. unfold eff in E. assert (E1 : eff_prevouts DS ht t = eff_prevouts DS ht t') by congruence. assert (E2 : eff_sequence DS ht t = eff_sequence DS ht t') by congruence.
    assert (E3 : eff_outputs DS ht t = eff_outputs DS ht t') by congruence. unfold alike, core, set_caches in *. cbn [tx_version tx_locktime tx_ins tx_outs tx_prevouts tx_sequence tx_outputs].
    rewrite E1, E2, E3. auto.
Qed.
Lemma alike_sym t t' : alike t t' -> alike t' t. Proof. unfold alike. intuition congruence. Qed.
Lemma alike_calls idx calls : forall t t', alike t t' -> alike (after_calls DS idx calls t) (after_calls DS idx calls t').
Proof.
  unfold after_calls. induction calls as [|c calls IH]; intros t t' A; [exact A|]. cbn [fold_left]. apply IH.
  destruct (WitnessV0SignatureHash DS idx c t) as [[h t1]| |] eqn:E.
  - destruct (alike_whash idx c t t' h t1 A E) as (t1' & E' & A'). now rewrite E'.
  - destruct (WitnessV0SignatureHash DS idx c t') as [[h t1']| |] eqn:E'; [|exact A|exact A]. destruct (alike_whash idx c t' t h t1' (alike_sym _ _ A) E') as (? & X & _). congruence.
  - destruct (WitnessV0SignatureHash DS idx c t') as [[h t1']| |] eqn:E'; [|exact A|exact A]. destruct (alike_whash idx c t' t h t1' (alike_sym _ _ A) E') as (? & X & _). congruence.
Qed.

Lemma verify_input_alike idx i t t' : alike t t' -> verify_input idx i t = verify_input idx i t'.
Proof.
  intros A. unfold TxModel.verify_input. destruct (ParseLockingScript (ti_rawlock i)) as [s| |]; cbn [rbind]; [|reflexivity|reflexivity].
  pose proof (vm_verify_ext Hash160 (sigHashFn DS idx (witness_version s) t) (sigHashFn DS idx (witness_version s) t') EcdsaVerify) as X. match type of X with ?P -> _ => assert (Y : P); [|specialize (X Y); clear Y] end.
  2:{ specialize (X (ti_unlock i) (ti_finallock i) NewEngine). revert X. generalize (VmModel.Verify Hash160 (Some (sigHashFn DS idx (witness_version s) t)) (Some EcdsaVerify) (ti_unlock i) (ti_finallock i) NewEngine)
        (VmModel.Verify Hash160 (Some (sigHashFn DS idx (witness_version s) t')) (Some EcdsaVerify) (ti_unlock i) (ti_finallock i) NewEngine). intros x y ->. reflexivity. }
  intros ht. apply same_digest. now apply alike_same.
Qed.
(** [j] takes the place of [i]: the same input, or one without witness that is accepted whenever [i] is. *)
Definition stands_in (i j : TxIn) : Prop := i = j \/
  ti_rawlock j = ti_rawlock i /\ (exists s, ParseLockingScript (ti_rawlock i) = Ok s /\ witness_version s = false) /\ (forall idx t, verify_input idx i t = Ok tt -> verify_input idx j t = Ok tt).
Lemma verify_stands ins js : Forall2 stands_in ins js -> forall idx t t', alike t t' -> verify_from idx ins t = Ok tt -> verify_from idx js t' = Ok tt.
Proof.
  induction 1 as [|i j ins js S F IH]; intros idx t t' A V; [reflexivity|]. cbn [TxModel.verify_from] in *. apply rbind_ok in V. destruct V as ([] & V1 & V). apply rbind_ok in V. destruct V as (s & Ps & V).
  destruct S as [<-|(R & (s' & Ps' & W) & Acc)].
  - rewrite <- (verify_input_alike idx i t t' A), V1, Ps. cbn [rbind]. refine (IH _ _ _ _ V). destruct (witness_version s); [|exact A].
    rewrite <- (verify_calls_ext Hash160 (sigHashFn DS idx true t) (sigHashFn DS idx true t')) by (intros ht; apply same_digest; now apply alike_same). now apply alike_calls.
  - assert (s' = s) as -> by congruence. rewrite W in V. rewrite (verify_input_alike idx i t t' A) in V1. rewrite (Acc idx t' V1), R, Ps. cbn [rbind]. rewrite W. exact (IH _ _ _ A V).
Qed.
Lemma verify_rewritten n u t i : nth_error (tx_ins t) n = Some i -> stands_in i (new_script u i) -> Verify t = Ok tt -> Verify (rewritten n u t) = Ok tt.
Proof.
  intros Hn S V. rewrite rewritten_update. unfold TxModel.Verify in *. refine (verify_stands (tx_ins t) _ _ 0 t _ _ V).
  - cbn [tx_ins]. clear V. revert n Hn. induction (tx_ins t) as [|x l IH]; intros [|n] Hn; try discriminate; cbn [update nth_error] in *.
    + assert (x = i) as -> by congruence. constructor; [exact S|]. clear. induction l; constructor; [now left|assumption].
    + constructor; [now left|]. now apply IH.
  - unfold alike, core. cbn [tx_version tx_locktime tx_ins tx_outs tx_prevouts tx_sequence tx_outputs]. rewrite update_blank by reflexivity. auto.
Qed.

(** A P2PKH input whose signature is replaced, with at most one item more below it. *)
Lemma p2pkh_stands i h u der der' ht key below : spends_p2pkh h i -> bytes_ok h -> len h = 20 -> in_memory (ti_unlock i ++ p2pkh_script h) -> in_memory (u ++ p2pkh_script h) ->
  script_pushing (ti_unlock i) [der ++ [ht]; key] -> script_pushing u (below ++ [der' ++ [ht]; key]) -> len below <= 1 ->
  (forall dg, EcdsaVerify dg der key = Ok tt -> EcdsaVerify dg der' key = Ok tt) -> stands_in i (new_script u i).
Proof.
  intros (Raw & Fin & _) O L M M' P (is & So & Pu) B V. right. split; [reflexivity|]. assert (Ps : ParseLockingScript (ti_rawlock i) = Ok (P2PKH h)) by (rewrite Raw; exact (parse_of (P2PKH h) O L)).
  split; [exists (P2PKH h); auto|]. intros idx t E.
  destruct (verified_pkh Hash160 DS EcdsaVerify idx i t h _ _ Ps Fin L M P E) as (items & d & ht' & k & dg & Ei & Hk & Dg & Vd).
  assert (X : d = der /\ ht' = ht /\ k = key).
  { destruct items as [|x [|y [|z items]]]; cbn [app] in Ei.
    - assert (E1 : der ++ [ht] = d ++ [ht']) by congruence. apply app_inj_tail in E1. destruct E1 as [-> ->]. split; [reflexivity|]. split; [reflexivity|congruence].
    - discriminate.
    - discriminate.
    - apply (f_equal (@length _)) in Ei. cbn [length] in Ei. rewrite app_length in Ei. cbn [length] in Ei. lia. }
  destruct X as (-> & -> & ->). unfold TxModel.verify_input. change (ti_rawlock (new_script u i)) with (ti_rawlock i). change (ti_unlock (new_script u i)) with u. change (ti_finallock (new_script u i)) with (ti_finallock i).
  rewrite Ps, Fin. cbn [rbind witness_version] in *. set (hs := sigHashFn DS idx false t) in *. pose proof (mem_l _ _ M') as Mu.
  assert (Ex : execute Hash160 (Some hs) (Some EcdsaVerify) u false NewEngine = Ok (Vm (key :: (der' ++ [ht]) :: rev below) [])).
  { rewrite (exec_of Hash160 _ _ _ _ false _ Mu So). unfold NewEngine. rewrite (run_pushes _ _ _ _ _ Pu). cbn [rbind]. rewrite rev_app_distr, app_nil_r. reflexivity. }
  assert (Ex2 : execute Hash160 (Some hs) (Some EcdsaVerify) (u ++ p2pkh_script h) true (Vm [] []) = Ok (Vm (rev below) [])).
  { rewrite (verify_closed Hash160 hs EcdsaVerify u (p2pkh_script h) is (p2pkh_instrs h) _ M' (p2pkh_parses h L) Ex So). apply p2pkh_half. exists key, (der' ++ [ht]), (rev below). split; [reflexivity|].
    split; [exact Hk|]. split; [|reflexivity]. exists der', ht, dg. auto. }
  unfold VmModel.Verify. rewrite Ex. cbn [rbind dstack cstack]. rewrite Ex2. cbn [rbind dstack cstack].
  replace (1 <? len (rev below)) with false; [reflexivity|]. symmetry. unfold len in *. rewrite rev_length. lia.
Qed.

(** A script pushes one list of items. *)
Lemma pushing_unique u ds ds' : in_memory u -> script_pushing u ds -> script_pushing u ds' -> ds = ds'.
Proof.
  intros M (is & So & Pu) (is' & So' & Pu').
  assert (X : forall is ds, script_of is u -> Forall2 pushes is ds -> execute Hash160 (Some (fun _ => Ok [])) (Some EcdsaVerify) u false (Vm [] []) = Ok (Vm (rev ds) [])).
  { intros j es Sj Pj. rewrite (exec_of Hash160 _ _ _ _ false _ M Sj). rewrite (run_pushes _ _ _ _ _ Pj), app_nil_r. reflexivity. }
  pose proof (X _ _ So Pu) as A. rewrite (X _ _ So' Pu') in A. rewrite <- (rev_involutive ds), <- (rev_involutive ds'). congruence.
Qed.
Lemma other_id n u t i : tx_ok t -> len (SerializeNoWitness t) <= 2 ^ 48 -> nth_error (tx_ins t) n = Some i -> ti_code i = None -> fits_memory 1 u -> u <> ti_unlock i ->
  SerializeNoWitness (rewritten n u t) <> SerializeNoWitness t.
Proof.
  intros T L Hn C Fu Nu E. rewrite rewritten_update in E. symmetry in E. apply txid_covers in E; [|exact T| |exact L].
  - destruct E as (_ & _ & E & _). apply (f_equal (fun l => nth_error l n)) in E. cbn [tx_ins] in E. rewrite !nth_error_map, nth_update, Nat.eqb_refl, Hn in E. cbn [option_map] in E.
    assert (Y : script_sig i = script_sig (new_script u i)) by (unfold in_view in E; congruence). unfold script_sig in Y. cbn [new_script ti_code ti_unlock] in Y. rewrite C in Y. congruence.
  - destruct T as (T1 & T2 & T3 & T4 & T5 & T6). unfold tx_ok. cbn [tx_version tx_locktime tx_ins tx_outs].
    assert (Lu : length (update n (new_script u) (tx_ins t)) = length (tx_ins t)) by (clear; generalize (tx_ins t) as l; revert n; induction n as [|n IH]; intros [|x l]; cbn [update length]; auto).
    split; [exact T1|]. split; [exact T2|]. split; [unfold fits_memory, len in *; now rewrite Lu|]. split; [exact T4|]. split; [|exact T6].
    clear -T5 Fu. revert n. induction T5 as [|x l X F IH]; intros [|n]; cbn [update]; constructor; auto. unfold in_ok in *. cbn [new_script ti_hash ti_index ti_seq ti_value ti_unlock ti_witness]. tauto.
Qed.

End Mall.
