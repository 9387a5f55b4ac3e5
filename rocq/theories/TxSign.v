(** Signing and verifying. *)
From Verif Require Import GoBase BaseLemmas BufferModel BufferSpec BufferProofs BufferMore ScriptNumModel ScriptNumSpec ScriptNumProofs ScriptModel ScriptSpec ScriptProofs
  LockSpec LockModel VmModel VmSpec VmProofs VmMore VmSig VmCond VmPanic VmLock LockProofs VmCalls TxModel TxSpec TxSignSpec.
From Coq Require Import ZifyBool ZifyNat ZifyN.

Lemma mem_l a b : in_memory (a ++ b) -> in_memory a.
Proof. intros [O L]. apply bytes_ok_app in O. rewrite len_app in L. pose proof (len_nonneg b). split; [tauto|lia]. Qed.

(** ** Builders that push a list of items. *)
Definition pushable (d : bytes) : Prop := bytes_ok d /\ len d < 2 ^ 32 /\ d <> [0] /\ d <> [0x81].
Lemma add_item d b : pushable d -> exists i e, Script (AddData d b) = Script b ++ e /\ bytes_ok e /\ len e <= len d + 5 /\ encodes i e /\ pushes i d.
Proof.
  intros (O & L & N0 & N1). destruct (AddData_spec d b O L N1) as (i & e & E & Oe & En & P). replace (list_Z_eqb d [0]) with false in P by (symmetry; now apply list_Z_eqb_neq).
  exists i, e. pose proof (encodes_len_push d b e E L). auto.
Qed.
Lemma add_items ds B : 0 <= B -> Forall pushable ds -> Forall (fun d => len d <= B) ds -> forall b, exists is e, Script (fold_left (fun b d => AddData d b) ds b) = Script b ++ e /\ bytes_ok e /\
  len e <= len ds * (B + 5) /\ script_of is e /\ Forall2 pushes is ds.
Proof.
  intros Bp F G. induction F as [|d ds Hd _ IH]; intros b.
  - exists [], []. cbn [fold_left]. rewrite app_nil_r. split; [reflexivity|]. split; [constructor|]. split; [change (len (@nil Z)) with 0; change (len (@nil bytes)) with 0; lia|]. split; constructor.
  - inversion G as [|? ? Bd G']; subst. cbn [fold_left]. destruct (IH G' (AddData d b)) as (is & e & E & Oe & Le & S & P). destruct (add_item d b Hd) as (i & e0 & E0 & Oe0 & Le0 & En & P0).
    exists (i :: is), (e0 ++ e). rewrite E, E0, <- app_assoc. split; [reflexivity|]. split; [apply bytes_ok_app; auto|]. split; [rewrite len_app, len_cons; lia|].
    split; [now constructor|now constructor].
Qed.

(** ** The hash types a run asks for. *)
Section Calls.
Variable H : bytes -> bytes.
Variable hasher : Z -> res bytes.
Variable verifier : bytes -> bytes -> bytes -> res unit.
Notation step := (step H (Some hasher) (Some verifier)).
Notation run := (run H (Some hasher) (Some verifier)).
Notation execute := (execute H (Some hasher) (Some verifier)).
Notation Verify := (VmModel.Verify H (Some hasher) (Some verifier)).
Notation instr_calls := (instr_calls hasher verifier).

Fixpoint run_calls (is : list instruction) (st : vm) : list Z :=
  match is with [] => [] | i :: r => instr_calls i st ++ match step i st with Ok st' => run_calls r st' | _ => [] end end.
Lemma loop_calls_of is d : script_of is d -> bytes_ok d -> forall fuel pre st, fits pre d -> (length d < fuel)%nat ->
  exec_loop_calls H hasher verifier fuel (rbuf pre d) st = run_calls is st.
Proof.
  induction 1 as [|i e is d He Hs IH]; intros O fuel pre st F L; (destruct fuel as [|fuel]; [lia|]); cbn [exec_loop_calls].
  - unfold NextInstruction. rewrite End_rbuf. reflexivity.
  - apply bytes_ok_app in O. destruct O as [Oe Od]. rewrite (next_app pre i e d He Oe F). cbn [run_calls]. f_equal.
    destruct (step i st); [|reflexivity|reflexivity]. apply IH; [exact Od|now apply fits_shift|]. pose proof (encodes_nonempty i e He). rewrite app_length in L. destruct e; [congruence|]. cbn [length] in L. lia.
Qed.
Lemma calls_of is d st : in_memory d -> script_of is d -> execute_calls H hasher verifier d st = run_calls is st.
Proof. intros [O L] S. unfold execute_calls. rewrite NewBufferReader_rbuf. apply loop_calls_of; auto. Qed.

Lemma run_pushes is ds : Forall2 pushes is ds -> forall s, run is (Vm s []) = Ok (Vm (rev ds ++ s) []).
Proof.
  induction 1 as [|i d is ds P _ IH]; intros s; [reflexivity|]. cbn [VmProofs.run]. rewrite (step_push H _ _ i d s [] P eq_refl). cbn [rbind]. rewrite IH. cbn [rev]. now rewrite <- app_assoc.
Qed.
Lemma push_no_call i d st : pushes i d -> instr_calls i st = [].
Proof.
  intros P. unfold VmCalls.instr_calls. destruct (branchShouldSkip st && negb (isConditional i)); [reflexivity|].
  destruct P as [|op d P|n P]; cbn [iop]; [reflexivity| |]; repeat match goal with |- context [?a =? ?b] => replace (a =? b) with false by lia end; reflexivity.
Qed.
Lemma calls_pushes is ds : Forall2 pushes is ds -> forall s r, run_calls (is ++ r) (Vm s []) = run_calls r (Vm (rev ds ++ s) []).
Proof.
  induction 1 as [|i d is ds P _ IH]; intros s r; [reflexivity|]. cbn [app run_calls]. rewrite (push_no_call i d _ P). cbn [app]. rewrite (step_push H _ _ i d s [] P eq_refl).
  rewrite IH. cbn [rev]. now rewrite <- app_assoc.
Qed.

Lemma calls_only is ds s : Forall2 pushes is ds -> run_calls is (Vm s []) = [].
Proof. intros P. rewrite <- (app_nil_r is), (calls_pushes is ds P). reflexivity. Qed.

(** Spending by public key hash: verified, and only the type of the signature is asked for. *)
Lemma p2pkh_verified un h is der ht key : in_memory (un ++ p2pkh_script h) -> len h = 20 -> script_of is un -> Forall2 pushes is [der ++ [ht]; key] ->
  H key = h -> valid_sig hasher verifier (der ++ [ht]) key ->
  (exists st, Verify un (p2pkh_script h) NewEngine = Ok st) /\ verify_calls H hasher verifier un (p2pkh_script h) NewEngine = [ht].
Proof.
  intros M L Su P E V. pose proof P as P0. inversion P as [|i1 ? ? ? P1 P']; subst. inversion P' as [|i2 ? ? ? P2 P'']; subst. inversion P''; subst.
  split; [apply (p2pkh_iff H hasher verifier un (H key) i1 i2 (der ++ [ht]) key M L Su P1 P2); auto|].
  pose proof (mem_l _ _ M) as Mu. unfold verify_calls. rewrite (calls_of _ _ _ Mu Su). unfold NewEngine. rewrite (calls_only _ _ _ P0). cbn [app].
  rewrite (exec_of H _ _ _ un false _ Mu Su). rewrite (run_pushes _ _ P0). cbn [rbind rev app]. unfold finish. cbn [andb]. cbn [cstack dstack].
  assert (Sc : script_of ([i1; i2] ++ p2pkh_instrs (H key)) (un ++ p2pkh_script (H key))) by (apply script_of_app; [exact Su|now apply p2pkh_parses]).
  rewrite (calls_of _ _ _ M Sc). rewrite (calls_pushes _ _ P0). cbn [rev app]. unfold p2pkh_instrs. cbn [run_calls].
  rewrite step_dup. rewrite step_hash. rewrite (step_push H _ _ (Instr 0x14 (H key)) (H key)) by (try reflexivity; constructor; lia). rewrite step_equalverify.
  replace (list_Z_eqb (H key) (H key)) with true by (symmetry; now apply list_Z_eqb_spec).
  change (instr_calls (Instr 0x76 []) (Vm [key; der ++ [ht]] [])) with (@nil Z). change (instr_calls (Instr 0xa9 []) (Vm [key; key; der ++ [ht]] [])) with (@nil Z).
  rewrite (push_no_call (Instr 0x14 (H key)) (H key)) by (constructor; lia). change (instr_calls (Instr 0x88 []) (Vm [H key; H key; key; der ++ [ht]] [])) with (@nil Z).
  change (instr_calls (Instr 0xac []) (Vm [key; der ++ [ht]] [])) with (sig_call (der ++ [ht])). unfold sig_call. rewrite index_last. cbn [app].
  assert (X : execute (un ++ p2pkh_script (H key)) true (Vm [] []) = Ok (Vm [] [])).
  { rewrite (exec_of H _ _ _ _ true _ M Sc), run_app, (run_pushes _ _ P0). cbn [rbind rev app]. apply (p2pkh_half H hasher verifier (H key) [key; der ++ [ht]]). exists key, (der ++ [ht]), []. auto. }
  rewrite X. cbn [dstack]. change (1 <? len (@nil bytes)) with false. cbv iota. destruct (step (Instr 172 []) _); reflexivity.
Qed.

(** Spending a script hash with a multisig redeem script. *)
Definition multi_instrs (im : instruction) (iks : list instruction) (ine : instruction) : list instruction := im :: iks ++ [ine; Instr 0xae []].
Lemma loop_calls_all ht keys : forall sigs, Forall (fun s : bytes => exists der, s = der ++ [ht]) sigs -> Forall (eq ht) (multisig_loop_calls hasher verifier keys sigs).
Proof.
  induction keys as [|k keys IH]; intros [|sg sigs] F; cbn [multisig_loop_calls]; try constructor. inversion F as [|? ? [der Ed] F']; subst.
  apply Forall_app. split; [unfold sig_call; rewrite index_last; constructor; [reflexivity|constructor]|].
  destruct (verify_sig hasher verifier (der ++ [ht]) k) as [v| |]; [|constructor|constructor]. match goal with |- context [if ?c then [] else _] => destruct c end; [constructor|]. apply IH. destruct v; assumption.
Qed.
Lemma calls_tail i st : skipping (cstack st) = false -> (iop i =? 0xae) = true -> (iop i =? 0xac) = false -> (iop i =? 0xad) = false -> instr_calls i st = multisig_calls hasher verifier (dstack st).
Proof.
  intros Sk E1 E2 E3. unfold VmCalls.instr_calls. replace (branchShouldSkip st) with false by (symmetry; destruct st as [s c]; cbn in *; destruct c; auto).
  cbn [andb]. rewrite E1, E2, E3. reflexivity.
Qed.
Lemma p2sh_verified un r im iks ine is nb mb keys sigs ht : in_memory (un ++ p2sh_script (H r)) -> in_memory r -> len (H r) = 20 ->
  script_of is un -> Forall2 pushes is ([] :: sigs ++ [r]) ->
  script_of (multi_instrs im iks ine) r -> pushes im mb -> Forall2 pushes iks keys -> pushes ine nb -> num_item nb (len keys) -> num_item mb (len sigs) ->
  oracles_return hasher verifier -> 1 <= len sigs -> Forall (fun s => exists der, s = der ++ [ht]) sigs -> matched (valid_sig hasher verifier) sigs keys ->
  (exists st, Verify un (p2sh_script (H r)) NewEngine = Ok st) /\ Forall (eq ht) (verify_calls H hasher verifier un (p2sh_script (H r)) NewEngine).
Proof.
  intros M Mr L Su Pu Sr Pm Pk Pn Hn Hm Or L1 Fs Mt. pose proof (mem_l _ _ M) as Mu.
  assert (Rv : rev ([] :: sigs ++ [r]) = r :: rev sigs ++ [[]]) by (cbn [rev]; rewrite rev_app_distr; reflexivity).
  assert (Eu : execute un false NewEngine = Ok (Vm (r :: rev sigs ++ [[]]) [])).
  { rewrite (exec_of H _ _ _ un false _ Mu Su). unfold NewEngine. rewrite (run_pushes _ _ Pu). cbn [rbind]. rewrite Rv, app_nil_r. reflexivity. }
  assert (Rr : run (im :: iks ++ [ine]) (Vm (rev sigs ++ [[]]) []) = Ok (Vm (nb :: rev keys ++ mb :: rev sigs ++ [[]]) [])).
  { cbn [VmProofs.run]. rewrite (step_push H _ _ im mb _ [] Pm eq_refl). cbn [rbind]. rewrite run_app, (run_pushes _ _ Pk). cbn [rbind VmProofs.run].
    rewrite (step_push H _ _ ine nb _ [] Pn eq_refl). reflexivity. }
  assert (Ne : Forall (fun s : bytes => s <> []) sigs).
  { apply (Forall_impl _ (P := fun s => exists der, s = der ++ [ht])); [|exact Fs]. intros s [der ->]. destruct der; discriminate. }
  destruct (checkmultisig hasher verifier H keys sigs nb mb [] [] [] Or eq_refl Hn Hm (matched_len _ _ _ Mt) Ne) as (b & St & [[-> _]|[_ X]]); [|contradiction].
  assert (Ee : execute r true (Vm (rev sigs ++ [[]]) []) = Ok (Vm [] [])).
  { rewrite (exec_of H _ _ _ r true _ Mr Sr). unfold multi_instrs. change (im :: iks ++ [ine; Instr 0xae []]) with ((im :: iks) ++ [ine] ++ [Instr 0xae []]). rewrite app_assoc, run_app.
    change ((im :: iks) ++ [ine]) with (im :: iks ++ [ine]). rewrite Rr. cbn [rbind VmProofs.run]. rewrite St. cbn [rbind]. apply (finish_bool true). }
  assert (Lr : 2 <= len (rev sigs ++ [[]])) by (rewrite len_app, len_rev; change (len [@nil Z]) with 1; lia).
  split.
  - exists (Vm [] []). apply (p2sh_iff H hasher verifier un (H r) (r :: rev sigs ++ [[]]) (Vm [] []) M L Eu). exists r, (rev sigs ++ [[]]). auto.
  - unfold verify_calls. rewrite (calls_of _ _ _ Mu Su). change NewEngine with (Vm [] []) at 1. rewrite (calls_only _ _ _ Pu). cbn [app]. rewrite Eu. cbn [cstack dstack].
    assert (Sc : script_of (is ++ p2sh_instrs (H r)) (un ++ p2sh_script (H r))) by (apply script_of_app; [exact Su|now apply p2sh_parses]).
    rewrite (calls_of _ _ _ M Sc). rewrite (calls_pushes _ _ Pu). rewrite Rv, app_nil_r. cbn [app]. unfold p2sh_instrs. cbn [run_calls].
    rewrite step_hash. rewrite (step_push H _ _ (Instr 0x14 (H r)) (H r)) by (try reflexivity; constructor; lia). rewrite step_equal.
    rewrite (push_no_call (Instr 0x14 (H r)) (H r)) by (constructor; lia).
    change (instr_calls (Instr 0xa9 []) (Vm (r :: rev sigs ++ [[]]) [])) with (@nil Z).
    match goal with |- context [instr_calls (Instr 0x87 []) ?x] => change (instr_calls (Instr 0x87 []) x) with (@nil Z) end. cbn [app].
    destruct (execute (un ++ p2sh_script (H r)) true (Vm [] [])) as [st2| |] eqn:E2; [|constructor|constructor].
    assert (C2 : st2 = Vm (rev sigs ++ [[]]) []).
    { rewrite (exec_of H _ _ _ _ true _ M Sc), run_app, (run_pushes _ _ Pu) in E2. cbn [rbind] in E2. rewrite Rv, app_nil_r in E2.
      apply (p2sh_half H hasher verifier (H r) (r :: rev sigs ++ [[]])) in E2. destruct E2 as (r' & rest & E & _ & ->). injection E as _ <-. reflexivity. }
    subst st2. cbn [dstack cstack]. match goal with |- context [if ?c then _ else _] => destruct c end; [|constructor].
    rewrite pop_cons. rewrite (calls_of _ _ _ Mr Sr). unfold multi_instrs.
    change (im :: iks ++ [ine; Instr 0xae []]) with ((im :: iks) ++ [ine] ++ [Instr 0xae []]). rewrite app_assoc.
    assert (P3 : Forall2 pushes ((im :: iks) ++ [ine]) ((mb :: keys) ++ [nb])) by (apply Forall2_app; [now constructor|constructor; [exact Pn|constructor]]).
    rewrite (calls_pushes _ _ P3). cbn [run_calls]. rewrite calls_tail by reflexivity. cbn [dstack]. rewrite rev_app_distr. cbn [rev app].
    replace (nb :: (rev keys ++ [mb]) ++ rev sigs ++ [[]]) with (nb :: rev keys ++ mb :: rev sigs ++ [[]]) by (rewrite <- app_assoc; reflexivity).
    rewrite St. cbn [run_calls]. rewrite app_nil_r. unfold multisig_calls. rewrite (pop_int_item nb _ _ Hn). cbn [rbind]. rewrite Int32_id by (eapply num_item_range; eauto).
    pose proof (len_nonneg keys). pose proof (matched_len _ _ _ Mt). replace (len keys <? 0) with false by lia.
    rewrite to_nat_len. rewrite <- (rev_length keys). rewrite pop_items_app. cbn [rbind].
    rewrite (pop_int_item mb _ _ Hm). cbn [rbind]. rewrite Int32_id by (eapply num_item_range; eauto).
    replace (len keys <? len sigs) with false by lia. replace (len sigs <? 0) with false by lia.
    rewrite to_nat_len. rewrite <- (rev_length sigs). rewrite pop_items_app. cbn [rbind]. rewrite pop_cons. cbn [rbind]. apply loop_calls_all. now apply Forall_rev.
Qed.
End Calls.

(** ** Digests depend on the core of the transaction and on what its caches hold for the type. *)
Section Digests.
Variable DS : bytes -> bytes.
Notation WHash := (WitnessV0SignatureHash DS).
Notation Raw := (RawSignatureHash DS).

Lemma sig_ins_blank idx ins : forall k b, write_sig_ins idx k ins b = write_sig_ins idx k (map blank ins) b.
Proof.
  induction ins as [|i ins IH]; intros k b; [reflexivity|]. cbn [map write_sig_ins]. cbn [blank ti_hash ti_index ti_seq ti_redeem ti_finallock].
  destruct (k =? idx); [destruct (ti_redeem i); [|destruct (RemoveOpcode (ti_finallock i) 171)]|]; cbn [rbind]; auto.
Qed.
Lemma raw_core idx ht t t' : core t = core t' -> Raw idx ht t = Raw idx ht t'.
Proof.
  unfold core. intros E. injection E as V K I O. unfold RawSignatureHash. rewrite (sig_ins_blank idx (tx_ins t)), (sig_ins_blank idx (tx_ins t')), I, V, K, O.
  replace (len (tx_ins t')) with (len (tx_ins t)); [reflexivity|]. apply (f_equal (@length _)) in I. rewrite !map_length in I. unfold len. lia.
Qed.
(** The digests a call of type [ht] uses, on the caches of [t]. *)
Definition eff_prevouts (ht : Z) (t : transaction) : bytes :=
  if Z.land ht 0x80 =? 0 then cached (tx_prevouts t) (DS (Bytes (fold_left (fun b i => WriteU32 (ti_index i) (WriteBytes (ti_hash i) b)) (map blank (tx_ins t)) NewBuffer))) else zeroHash.
Definition eff_sequence (ht : Z) (t : transaction) : bytes :=
  if (Z.land ht 0x80 =? 0) && negb (Z.land ht 0x1f =? 3) && negb (Z.land ht 0x1f =? 2) then
    cached (tx_sequence t) (DS (Bytes (fold_left (fun b i => WriteU32 (ti_seq i) b) (map blank (tx_ins t)) NewBuffer))) else zeroHash.
Definition eff_outputs (ht : Z) (t : transaction) : bytes :=
  if negb (Z.land ht 3 =? 3) && negb (Z.land ht 2 =? 2) then cached (tx_outputs t) (DS (Bytes (fold_left write_out (tx_outs t) NewBuffer))) else zeroHash.
Definition eff (ht : Z) (t : transaction) : bytes * bytes * bytes := (eff_prevouts ht t, eff_sequence ht t, eff_outputs ht t).
Definition same (ht : Z) (t t' : transaction) : Prop := core t = core t' /\ eff ht t = eff ht t'.
Lemma same_refl ht t : same ht t t. Proof. split; reflexivity. Qed.
Lemma same_sym ht t t' : same ht t t' -> same ht t' t. Proof. intros [A B]. split; auto. Qed.
Lemma same_trans ht a b c : same ht a b -> same ht b c -> same ht a c. Proof. intros [A B] [C D]. split; congruence. Qed.

Definition v0_hash (ht : Z) (i : TxIn) (v k : Z) (e : bytes * bytes * bytes) : bytes :=
  let '(p, s, o) := e in
  let b := WriteU32 v NewBuffer in
  let b := WriteBytes s (WriteBytes p b) in
  let b := WriteU32 (ti_index i) (WriteBytes (ti_hash i) b) in
  let b := WriteVarBytes (nilb (ti_code i)) b in
  let b := WriteU32 (ti_seq i) (WriteU64 (ti_value i) b) in
  let b := WriteBytes o b in
  DS (Bytes (WriteU32 ht (WriteU32 k b))).
Lemma fold_blank (f : buffer -> TxIn -> buffer) l : (forall b i, f b i = f b (blank i)) -> forall b, fold_left f l b = fold_left f (map blank l) b.
Proof. intros E. induction l as [|i l IH]; intros b; [reflexivity|]. cbn [fold_left map]. rewrite IH. now rewrite <- E. Qed.
Lemma whash_eq idx ht t : WHash idx ht t = let! i := index (tx_ins t) idx in
  Ok (v0_hash ht i (tx_version t) (tx_locktime t) (eff ht t), set_caches (Some (eff_prevouts ht t)) (Some (eff_sequence ht t)) (Some (eff_outputs ht t)) t).
Proof.
  unfold WitnessV0SignatureHash. destruct (index (tx_ins t) idx) as [i| |]; [|reflexivity|reflexivity]. cbn [rbind].
  rewrite (fold_blank (fun b i => WriteU32 (ti_index i) (WriteBytes (ti_hash i) b))) by reflexivity. rewrite (fold_blank (fun b i => WriteU32 (ti_seq i) b)) by reflexivity. reflexivity.
Qed.
Lemma index_map {A B} (f : A -> B) l k : index (map f l) k = let! x := index l k in Ok (f x).
Proof. unfold index. destruct (k <? 0); [reflexivity|]. rewrite nth_error_map. destruct (nth_error l (Z.to_nat k)); reflexivity. Qed.
Lemma core_index t t' idx i : core t = core t' -> index (tx_ins t) idx = Ok i -> exists i', index (tx_ins t') idx = Ok i' /\ blank i' = blank i.
Proof.
  unfold core. intros E Hi. injection E as _ _ I _. pose proof (index_map blank (tx_ins t) idx) as X. pose proof (index_map blank (tx_ins t') idx) as Y. rewrite <- I, X, Hi in Y. cbn [rbind] in Y.
  destruct (index (tx_ins t') idx) as [i'| |]; try discriminate. exists i'. split; [reflexivity|]. assert (Z : forall a b : TxIn, Ok a = Ok b -> b = a) by congruence. now apply Z.
Qed.
Lemma v0_hash_blank ht i i' v k e : blank i' = blank i -> v0_hash ht i v k e = v0_hash ht i' v k e.
Proof. intros B. transitivity (v0_hash ht (blank i) v k e); [reflexivity|]. rewrite <- B. reflexivity. Qed.
Lemma same_digest ht idx w t t' : same ht t t' -> sigHashFn DS idx w t ht = sigHashFn DS idx w t' ht.
Proof.
  intros [C E]. unfold sigHashFn. destruct w; [|now apply raw_core]. rewrite !whash_eq. destruct (index (tx_ins t) idx) as [i| |] eqn:Hi.
  - destruct (core_index t t' idx i C Hi) as (i' & Hi' & B). rewrite Hi'. cbn [rbind]. rewrite <- E. unfold core in C. injection C as -> -> _ _. f_equal. now apply v0_hash_blank.
  - destruct (index (tx_ins t') idx) as [i'| |] eqn:Hi'; [|unfold index in *..].
    + destruct (core_index t' t idx i' (eq_sym C) Hi') as (x & X & _). congruence.
    + destruct (idx <? 0); [discriminate|]. destruct (nth_error (tx_ins t) _); discriminate.
    + destruct (idx <? 0); [discriminate|]. destruct (nth_error (tx_ins t) _); discriminate.
  - destruct (index (tx_ins t') idx) as [i'| |] eqn:Hi'.
    + destruct (core_index t' t idx i' (eq_sym C) Hi') as (x & X & _). congruence.
    + unfold index in Hi'. destruct (idx <? 0); [discriminate|]. destruct (nth_error (tx_ins t') _); discriminate.
    + reflexivity.
Qed.
Lemma ok_pair {A B} (a a' : A) (b b' : B) : Ok (a, b) = Ok (a', b') -> a = a' /\ b = b'.
Proof. intros E. injection E as -> ->. auto. Qed.
Lemma whash_same idx ht t h t' : WHash idx ht t = Ok (h, t') -> same ht t t' /\ tx_ins t' = tx_ins t.
Proof.
  rewrite whash_eq. destruct (index (tx_ins t) idx) as [i| |]; try discriminate. cbn [rbind]. intros E. apply ok_pair in E. destruct E as [_ <-]. split; [|reflexivity]. split; [reflexivity|].
  unfold eff, eff_prevouts, eff_sequence, eff_outputs. cbn [tx_prevouts tx_sequence tx_outputs tx_ins tx_outs set_caches cached].
  repeat match goal with |- context [if ?c then _ else _] => destruct c end; reflexivity.
Qed.
Lemma update_blank f l : (forall i, blank (f i) = blank i) -> forall n, map blank (update n f l) = map blank l.
Proof. intros F. induction l as [|x l IH]; intros [|n]; cbn [update map]; try reflexivity; [now rewrite F|now rewrite IH]. Qed.
Lemma set_in_same ht idx f t : (forall i, blank (f i) = blank i) -> same ht t (set_in idx f t).
Proof.
  intros F. unfold same, core, eff, eff_prevouts, eff_sequence, eff_outputs, set_in, set_ins. cbn [tx_version tx_locktime tx_ins tx_outs tx_prevouts tx_sequence tx_outputs].
  rewrite (update_blank f (tx_ins t) F). auto.
Qed.
Lemma nth_update {A} (f : A -> A) l : forall n m, nth_error (update n f l) m = if Nat.eqb n m then option_map f (nth_error l m) else nth_error l m.
Proof. induction l as [|x l IH]; intros [|n] [|m]; cbn [update nth_error Nat.eqb option_map]; try reflexivity. - now destruct (Nat.eqb n m). - apply IH. Qed.
Lemma index_set_in idx f t i : index (tx_ins t) idx = Ok i -> index (tx_ins (set_in idx f t)) idx = Ok (f i).
Proof.
  unfold set_in, set_ins. cbn [tx_ins]. unfold index. destruct (idx <? 0); [discriminate|]. rewrite nth_update, Nat.eqb_refl. destruct (nth_error (tx_ins t) (Z.to_nat idx)); [|discriminate].
  intros E; injection E as ->. reflexivity.
Qed.
Lemma index_set_other idx k f t : idx <> k -> 0 <= idx -> index (tx_ins (set_in idx f t)) k = index (tx_ins t) k.
Proof.
  intros N P. unfold set_in, set_ins. cbn [tx_ins]. unfold index. destruct (k <? 0) eqn:K; [reflexivity|]. rewrite nth_update. replace (Nat.eqb (Z.to_nat idx) (Z.to_nat k)) with false; [reflexivity|].
  symmetry. apply Nat.eqb_neq. lia.
Qed.
Lemma index_nonneg {A} (l : list A) k x : index l k = Ok x -> 0 <= k < len l.
Proof.
  unfold index. destruct (k <? 0) eqn:K; [discriminate|]. destruct (nth_error l (Z.to_nat k)) eqn:E; [|discriminate]. intros _. assert (H : nth_error l (Z.to_nat k) <> None) by congruence; apply nth_error_Some in H. unfold len. lia.
Qed.
End Digests.
