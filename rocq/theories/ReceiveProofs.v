(** Transactions that were signed, written, read back and completed. *)
From Verif Require Import GoBase BaseLemmas BufferModel BufferSpec BufferProofs BufferMore ScriptNumModel ScriptNumSpec ScriptNumProofs ScriptModel ScriptSpec ScriptProofs
  LockSpec LockModel VmModel VmSpec VmProofs VmMore VmSig VmCond VmPanic VmLock LockProofs VmCalls TxModel TxSpec TxProofs TxSignSpec TxSign TxSign2 TxSign3 BuilderMore ReceiveSpec.
From Coq Require Import ZifyBool ZifyNat ZifyN.

Lemma small_multisig_seen r : small_multisig r -> exists is, AllInstructions r = Ok is /\ isMultiSig is = true.
Proof.
  intros (m & keys & Hm & Hn & F & G). assert (Fk : Forall key_sized keys) by (apply (Forall_impl _ (P := fun k : bytes => (len k = 33 \/ len k = 65) /\ bytes_ok k)); [intros k [K _]; exact K|exact F]).
  rewrite gen_multisig in G by (auto; lia). assert (r = multisig_bytes m keys) as -> by congruence.
  destruct (multisig_recognised m keys Hm Hn F) as (is & A & B & _). eauto.
Qed.

Lemma script_nonempty d b : Script (AddData d b) <> [].
Proof.
  assert (A : forall x y : bytes, x <> [] -> x ++ y <> []) by (intros [|a x] y N; [congruence|discriminate]). assert (B : forall (x : bytes) n, x ++ [n] <> []) by (intros [|a x] n; discriminate).
  unfold Script, AddData. destruct d as [|a [|c d]]; [apply B| |].
  - destruct (a =? 0); [apply B|]. destruct (a <=? 16); [apply B|]. destruct (a =? 0x81); [apply B|]. apply A, B.
  - set (l := len _). apply A. destruct (l <? 0x4c); [apply B|]. destruct (l <=? 0xff); [apply B|]. destruct (l <=? 0xffff); apply A, B.
Qed.

Section Receive.
Variable Hash160 sha256 DS : bytes -> bytes.
Variable prvkey : Type.
Variable PubKeyBytes : prvkey -> bool -> bytes.
Variable EcdsaSign : prvkey -> bytes -> res bytes.
Variable EcdsaVerify : bytes -> bytes -> bytes -> res unit.
Notation same := (same DS).
Notation SignIndex := (SignIndex sha256 DS prvkey PubKeyBytes EcdsaSign).
Notation Verify := (TxModel.Verify Hash160 DS EcdsaVerify).
Notation scheme_ok := (scheme_ok prvkey PubKeyBytes EcdsaSign EcdsaVerify).
Notation hashes_ok := (hashes_ok Hash160 sha256).
Notation accepted := (accepted Hash160 DS EcdsaVerify).
Notation signers := (signers Hash160 sha256 prvkey PubKeyBytes).
Notation sign_each := (sign_each sha256 prvkey PubKeyBytes EcdsaSign DS).
Notation SetTxIn := (SetTxIn Hash160).
Notation look_up := (look_up Hash160).

(** An input whose fields are what the receiver computes from the output spent and from the witness. *)
Definition sendable (i : TxIn) : Prop := exists s, ParseLockingScript (ti_rawlock i) = Ok s /\ GetRawLockingScriptBytes s = ti_rawlock i /\
  GetWitnessScriptCode s (ti_redeem i) = ti_code i /\ GetFinalLockingScriptBytes Hash160 s (nilb (ti_redeem i)) = ti_finallock i /\
  match ti_code i with
  | None => forall w, WitnessToUnlockingScriptBytes s w = Ok []
  | Some _ => WitnessToUnlockingScriptBytes s (ti_witness i) = Ok (ti_unlock i) /\ ti_unlock i <> []
  end.
Definition restored (i j : TxIn) : Prop := blank j = blank i /\ ti_unlock j = ti_unlock i.

(** What may arrive for it. *)
Definition arrives (i a : TxIn) : Prop := ti_hash a = ti_hash i /\ ti_index a = ti_index i /\ ti_seq a = ti_seq i /\
  match ti_code i with
  | None => ti_unlock a = ti_unlock i
  | Some _ => forall s, ParseLockingScript (ti_rawlock i) = Ok s -> WitnessToUnlockingScriptBytes s (ti_witness a) = WitnessToUnlockingScriptBytes s (ti_witness i)
  end.
Lemma look_up_ok v k o : forall ins arr done, Forall sendable ins -> Forall2 arrives ins arr ->
  exists js, look_up (len done) (map spent ins) (MkTx v k (done ++ arr) o None None None) = Ok (MkTx v k (done ++ js) o None None None) /\ Forall2 restored ins js.
Proof.
  induction ins as [|i ins IH]; intros arr done F A; [inversion A; subst; exists []; split; [reflexivity|constructor]|].
  inversion F as [|? ? Si F']; subst. inversion A as [|? a ? arr' Ai A']; subst. cbn [map ReceiveSpec.look_up spent].
  destruct Si as (s & Ps & Rw & Cd & Fn & Un). destruct Ai as (Ah & Ax & As & Au). unfold TxModel.SetTxIn at 1. cbn [tx_ins].
  assert (Ix : forall (x : TxIn) l, index (done ++ x :: l) (len done) = Ok x).
  { intros x l. unfold index. pose proof (len_nonneg done). replace (len done <? 0) with false by lia. rewrite to_nat_len, nth_error_app2, Nat.sub_diag by lia. reflexivity. }
  rewrite Ix. cbn [rbind]. rewrite Ps. cbn [rbind].
  assert (U : exists u, WitnessToUnlockingScriptBytes s (ti_witness a) = Ok u /\ match u with [] => ti_unlock a | _ => u end = ti_unlock i).
  { destruct (ti_code i) as [c|] eqn:C.
    - rewrite (Au s Ps). destruct Un as [Un Ne]. exists (ti_unlock i). split; [exact Un|]. destruct (ti_unlock i); [congruence|reflexivity].
    - exists []. split; [apply Un|exact Au]. }
  destruct U as (u & Eu & Eq). rewrite Eu. cbn [rbind].
  set (f := fun i1 : TxIn => MkIn (ti_hash i1) (ti_index i1) (ti_value i) (ti_seq i1) (ti_sighash i1) (ti_redeem i) (ti_witness i1) (GetWitnessScriptCode s (ti_redeem i)) (GetRawLockingScriptBytes s)
     (GetFinalLockingScriptBytes Hash160 s (nilb (ti_redeem i))) (match u with [] => ti_unlock i1 | _ => u end)).
  assert (St : set_in (len done) f (MkTx v k (done ++ a :: arr') o None None None) = MkTx v k ((done ++ [f a]) ++ arr') o None None None).
  { unfold set_in, set_ins. cbn [tx_version tx_locktime tx_ins tx_outs tx_prevouts tx_sequence tx_outputs]. f_equal. rewrite to_nat_len, <- app_assoc. cbn [app]. clear. induction done as [|d done IH]; [reflexivity|]. cbn [length app]. cbn. f_equal. exact IH. }
  rewrite St. destruct (IH arr' (done ++ [f a]) F' A') as (js & E & R). exists (f a :: js). rewrite len_app in E. change (len [f a]) with 1 in E. rewrite E.
  rewrite <- app_assoc. split; [reflexivity|]. constructor; [|exact R].
  unfold restored, f, blank. cbn [ti_hash ti_index ti_value ti_seq ti_redeem ti_code ti_rawlock ti_finallock ti_unlock]. rewrite Cd, Rw, Fn, Ah, Ax, As. split; [reflexivity|exact Eq].
Qed.
Lemma arrives_carried i : arrives i (carried i).
Proof. unfold arrives, carried, stripped, with_witness. cbn. unfold script_sig. destruct (ti_code i); auto. Qed.
Lemma arrives_stripped i : ti_code i = None -> arrives i (stripped i).
Proof. intros C. unfold arrives, stripped. cbn. unfold script_sig. rewrite C. auto. Qed.
(** What else the sender puts into a witness key hash input is not looked at. *)
Lemma arrives_tampered i h junk extra : bytes_ok h -> len h = 20 -> ti_rawlock i = p2wpkh_script h -> sendable i -> ti_code i <> None -> arrives i (tampered junk extra (carried i)).
Proof.
  intros O L R (s & Ps & _ & _ & _ & Un) C. unfold arrives, tampered, carried, stripped, with_witness, with_unlock. cbn [ti_hash ti_index ti_seq ti_witness ti_unlock]. destruct (ti_code i); [|congruence].
  split; [reflexivity|]. split; [reflexivity|]. split; [reflexivity|]. intros s' Ps'. rewrite R in *. pose proof (parse_of (P2WPKH h) O L) as X. cbn [template] in X. assert (s' = P2WPKH h) as -> by congruence.
  assert (s = P2WPKH h) as -> by congruence. destruct Un as [Un _]. cbn [WitnessToUnlockingScriptBytes] in *. destruct (ti_witness i) as [|w0 [|w1 ws]]; try discriminate. reflexivity.
Qed.

Lemma restored_core ins js : Forall2 restored ins js -> map blank js = map blank ins.
Proof. induction 1 as [|i j ins js [B _] _ IH]; [reflexivity|]. cbn [map]. now rewrite B, IH. Qed.
Lemma restored_written ins js : Forall2 restored ins js -> forall b, fold_left write_in js b = fold_left write_in ins b.
Proof.
  induction 1 as [|i j ins js [B U] _ IH]; intros b; [reflexivity|]. cbn [fold_left]. rewrite IH. f_equal. unfold write_in, in_has_witness.
  assert (ti_hash j = ti_hash i /\ ti_index j = ti_index i /\ ti_seq j = ti_seq i /\ ti_code j = ti_code i) as (-> & -> & -> & ->) by (unfold blank in B; repeat split; congruence). now rewrite U.
Qed.
Lemma restored_nth ins js : Forall2 restored ins js -> forall n j, nth_error js n = Some j -> exists i, nth_error ins n = Some i /\ restored i j.
Proof. induction 1 as [|i j ins js R _ IH]; intros [|n] x E; try discriminate; [injection E as <-; exists i; auto|]. now apply IH. Qed.
Lemma accepted_restored ht n i j t : restored i j -> accepted ht n i t -> accepted ht n j t.
Proof.
  intros [B U] A t' S. assert (ti_rawlock j = ti_rawlock i /\ ti_finallock j = ti_finallock i) as [R F] by (unfold blank in B; split; congruence).
  specialize (A t' S). unfold TxModel.verify_input in *. rewrite R, F, U. exact A.
Qed.

Lemma sendable_blank i j : blank j = blank i -> ti_code i = None -> sendable i -> sendable j.
Proof.
  intros B C (s & P). assert (ti_rawlock j = ti_rawlock i /\ ti_finallock j = ti_finallock i /\ ti_code j = ti_code i /\ ti_redeem j = ti_redeem i) as (R & F & Cd & Re) by (unfold blank in B; repeat split; congruence).
  exists s. rewrite R, F, Cd, Re. rewrite C in *. exact P.
Qed.

(** Signing leaves such an input. *)
Lemma sign_sendable idx c ht ks t i t' : hashes_ok -> index (tx_ins t) idx = Ok i -> signers c ks i -> small_witness_script i -> SignIndex idx c ht ks t = Ok t' ->
  exists i', index (tx_ins t') idx = Ok i' /\ sendable i' /\ blank i' = blank i.
Proof.
  intros [Hh Hs] Hi Sg Sm E. unfold TxModel.SignIndex in E. rewrite Hi in E. cbn [rbind] in E. destruct ((1 <? len ks) && _); [discriminate|].
  apply rbind_ok in E. destruct E as ((signs & t1) & El & E).
  destruct (sign_loop_spec Hash160 sha256 DS prvkey PubKeyBytes EcdsaSign EcdsaVerify idx c ht ks t i signs t1 Hi El) as (S1 & (i1 & Hi1) & _ & _ & Lsg).
  destruct (core_index t t1 idx i (proj1 S1) Hi) as (i1' & Hi1' & Bl). rewrite Hi1 in Hi1'. injection Hi1' as <-.
  assert (ti_rawlock i1 = ti_rawlock i /\ ti_redeem i1 = ti_redeem i /\ ti_finallock i1 = ti_finallock i /\ ti_code i1 = ti_code i) as (Ra & Re & Fi & Co) by (unfold blank in Bl; repeat split; congruence).
  unfold EmbedIdxSignature in E. rewrite Hi1 in E. cbn [rbind] in E. destruct ((1 <? len signs) && _); [discriminate|]. rewrite Ra, Re in E.
  assert (Fin : forall u w, index (tx_ins (set_in idx (fun i => with_witness w (with_unlock u i)) t1)) idx = Ok (with_witness w (with_unlock u i1))) by (intros; now apply (index_set_in idx (fun i => with_witness w (with_unlock u i)))).
  assert (Bf : forall u w, blank (with_witness w (with_unlock u i1)) = blank i) by (intros; exact Bl).
  destruct Sg as [k i S|k i S|ks pubs r i M S|ks pubs r i M S].
  - destruct S as (Rw & Fl & Cd). destruct (Hh (PubKeyBytes k c)) as [O L]. pose proof (parse_of (P2PKH (Hash160 (PubKeyBytes k c))) O L) as Ps. cbn [template] in Ps. rewrite <- Rw in Ps. rewrite Ps in E. cbn [rbind] in E.
    destruct signs as [|x signs]; [discriminate|]. cbn [GetRawUnlockingScriptBytes GetWitnessUnlockingScriptBytes rbind] in E. injection E as <-.
    eexists. split; [apply Fin|]. split; [|apply Bf]. eexists. cbn [ti_rawlock ti_redeem ti_code ti_finallock with_witness with_unlock]. rewrite Ra, Co, Fi, Cd. split; [exact Ps|]. rewrite Rw, Fl. split; [exact (raw_locking (P2PKH _) L)|]. split; [reflexivity|]. split; [exact (raw_locking (P2PKH _) L)|]. intros w. reflexivity.
  - destruct S as (Rw & Fl & Cd). destruct (Hh (PubKeyBytes k c)) as [O L]. pose proof (parse_of (P2WPKH (Hash160 (PubKeyBytes k c))) O L) as Ps. cbn [template] in Ps. rewrite <- Rw in Ps. rewrite Ps in E. cbn [rbind] in E.
    destruct signs as [|x signs]; [discriminate|]. cbn [GetRawUnlockingScriptBytes GetWitnessUnlockingScriptBytes rbind] in E. injection E as <-.
    eexists. split; [apply Fin|]. split; [|apply Bf]. eexists. cbn [ti_rawlock ti_redeem ti_code ti_finallock ti_witness ti_unlock with_witness with_unlock]. rewrite Ra, Co, Fi, Cd. split; [exact Ps|]. rewrite Rw, Fl. split; [exact (raw_locking (P2WPKH _) L)|]. split; [exact (f_equal Some (raw_locking (P2PKH _) L))|]. split; [exact (raw_locking (P2PKH _) L)|].
    split; [reflexivity|]. apply script_nonempty.
  - destruct S as (Rw & Fl & Rd & Cd). destruct (Hh r) as [O L]. pose proof (parse_of (P2SH (Hash160 r)) O L) as Ps. cbn [template] in Ps. rewrite <- Rw in Ps. rewrite Ps in E. cbn [rbind] in E.
    cbn [GetRawUnlockingScriptBytes GetWitnessUnlockingScriptBytes rbind] in E. injection E as <-.
    eexists. split; [apply Fin|]. split; [|apply Bf]. eexists. cbn [ti_rawlock ti_redeem ti_code ti_finallock with_witness with_unlock]. rewrite Ra, Co, Fi, Cd. split; [exact Ps|]. rewrite Rw, Fl. split; [exact (raw_locking (P2SH _) L)|]. split; [reflexivity|]. split; [exact (raw_locking (P2SH _) L)|]. intros w. reflexivity.
  - destruct S as (Rw & Fl & Rd & Cd). destruct (Hs r) as [O L]. pose proof (parse_of (P2WSH (sha256 r)) O L) as Ps. cbn [template] in Ps. rewrite <- Rw in Ps. rewrite Ps in E. cbn [rbind] in E. rewrite Rd in E. cbn [nilb] in E.
    cbn [GetRawUnlockingScriptBytes GetWitnessUnlockingScriptBytes rbind] in E. rewrite list_Z_eqb_refl in E. cbn [negb rbind] in E. injection E as <-.
    destruct (small_multisig_seen r (Sm _ _ Rw Rd)) as (is & Ai & Im).
    destruct M as (_ & Nk & _). assert (Lp : 0 <? len signs = true) by (destruct signs; [destruct ks; [congruence|discriminate]|]; rewrite len_cons; pose proof (len_nonneg signs); lia).
    eexists. split; [apply Fin|]. split; [|apply Bf]. eexists. cbn [ti_rawlock ti_redeem ti_code ti_finallock ti_witness ti_unlock with_witness with_unlock]. rewrite Ra, Re, Co, Fi, Cd. split; [exact Ps|]. rewrite Rw, Fl, Rd. split; [exact (raw_locking (P2WSH _) L)|]. split; [reflexivity|]. split; [exact (raw_locking (P2SH _) (proj2 (Hh r)))|].
    unfold p2sh_unlocking. rewrite Lp. split.
    + cbn [WitnessToUnlockingScriptBytes]. set (ws := [] :: map pks_sig signs). rewrite len_app. change (len [r]) with 1. assert (Lw : 1 <= len ws) by (unfold ws; rewrite len_cons; pose proof (len_nonneg (map pks_sig signs)); lia).
      replace (1 <? len ws + 1) with true by lia. replace (len ws + 1 - 1) with (len ws) by lia.
      unfold index. replace (len ws <? 0) with false by lia. rewrite to_nat_len, nth_error_app2, Nat.sub_diag by lia. cbn [nth_error rbind]. rewrite Ai, Im. f_equal. f_equal. f_equal.
      rewrite firstn_app, Nat.sub_diag, firstn_all. cbn [firstn]. rewrite app_nil_r. unfold ws. cbn [fold_left]. rewrite fold_sigs. reflexivity.
    + apply script_nonempty.
Qed.

Lemma sign_each_sendable c ht : scheme_ok -> hashes_ok -> 0 <= ht < 256 -> forall kss idx t t', 0 <= idx ->
  (forall n ks, nth_error kss n = Some ks -> exists i, index (tx_ins t) (idx + Z.of_nat n) = Ok i /\ signers c ks i /\ small_witness_script i) ->
  (forall n, 0 <= n < idx -> exists i, index (tx_ins t) n = Ok i /\ sendable i) ->
  sign_each c ht idx kss t = Ok t' -> forall n, 0 <= n < idx + len kss -> exists i, index (tx_ins t') n = Ok i /\ sendable i.
Proof.
  intros Sc Hs R. induction kss as [|ks kss IH]; intros idx t t' P Sg Ac E; cbn [TxSignSpec.sign_each] in E.
  - injection E as <-. intros n Hn. apply Ac. change (len []) with 0 in Hn. lia.
  - apply rbind_ok in E. destruct E as (t1 & E1 & E). destruct (Sg 0%nat ks eq_refl) as (i & Hi & Sk & Sm). rewrite Z.add_0_r in Hi.
    destruct (sign_any Hash160 sha256 DS prvkey PubKeyBytes EcdsaSign EcdsaVerify idx c ht ks t i t1 Sc Hs R Hi Sk E1) as (_ & Oth & _).
    destruct (sign_sendable idx c ht ks t i t1 Hs Hi Sk Sm E1) as (i' & Hi' & Se & _).
    intros n Hn. apply (IH (idx + 1) t1 t' ltac:(lia)); [| |exact E|rewrite len_cons in Hn; lia].
    + intros m ks' Hm. destruct (Sg (S m) ks' Hm) as (j & Hj & Sj). exists j. split; [|exact Sj]. rewrite <- Hj, Oth by lia. f_equal. lia.
    + intros m Hm. destruct (Z.eq_dec m idx) as [->|Nm]; [exists i'; auto|]. destruct (Ac m ltac:(lia)) as (j & Hj & Aj). exists j. split; [rewrite Oth by exact Nm; exact Hj|exact Aj].
Qed.

Lemma nth_of_index {A} (l : list A) n x : nth_error l n = Some x -> index l (Z.of_nat n) = Ok x.
Proof. intros E. unfold index. replace (Z.of_nat n <? 0) with false by lia. now rewrite Nat2Z.id, E. Qed.
Lemma index_of_nth {A} (l : list A) n x y : index l (Z.of_nat n) = Ok y -> nth_error l n = Some x -> x = y.
Proof. intros E F. rewrite (nth_of_index l n x F) in E. congruence. Qed.
Lemma nth_lt {A} (l : list A) n x : nth_error l n = Some x -> 0 <= Z.of_nat n < len l.
Proof. intros E. assert (Q : nth_error l n <> None) by congruence. apply nth_error_Some in Q. unfold len. lia. Qed.
Lemma signers_nth c kss ins : Forall2 (signers c) kss ins -> forall n ks, nth_error kss n = Some ks -> exists i, nth_error ins n = Some i /\ signers c ks i.
Proof. induction 1 as [|k0 i0 kss ins S F IH]; intros [|n] ks' Hn; try discriminate; [injection Hn as <-; exists i0; auto|]. now apply IH. Qed.

Lemma no_witness_code t : HasWitness t = false -> Forall (fun i => ti_code i = None) (tx_ins t).
Proof.
  unfold HasWitness. intros E. apply Forall_forall. intros i Hi. destruct (ti_code i) eqn:C; [|reflexivity].
  assert (X : existsb in_has_witness (tx_ins t) = true) by (apply existsb_exists; exists i; split; [exact Hi|]; unfold in_has_witness; now rewrite C). congruence.
Qed.

(** The transaction that arrives. *)
Lemma received_is t : tx_ok t -> len (Serialize t) <= 2 ^ 48 -> Forall sendable (tx_ins t) ->
  exists js, received Hash160 t = Ok (MkTx (tx_version t) (tx_locktime t) js (tx_outs t) None None None) /\ Forall2 restored (tx_ins t) js.
Proof.
  intros T L F. unfold received, read_back. rewrite serialize_witness in * by exact T. destruct (HasWitness t) eqn:W.
  - assert (R : Deserialize (wire_bip144 t) NewTransaction = Ok (MkTx (tx_version t) (tx_locktime t) (map carried (tx_ins t)) (tx_outs t) None None None)).
    { rewrite <- (app_nil_r (wire_bip144 t)). apply (reads_run dec_bip144); [now apply reads_bip144|now rewrite app_nil_r]. }
    rewrite R. cbn [rbind]. destruct (look_up_ok (tx_version t) (tx_locktime t) (tx_outs t) (tx_ins t) (map carried (tx_ins t)) [] F) as (js & E & Re).
    { clear. induction (tx_ins t); constructor; [apply arrives_carried|assumption]. }
    exists js. split; [exact E|exact Re].
  - assert (R : DeserializeNoWitness (wire_legacy t) NewTransaction = Ok (MkTx (tx_version t) (tx_locktime t) (map stripped (tx_ins t)) (tx_outs t) None None None)).
    { rewrite <- (app_nil_r (wire_legacy t)). apply (reads_run dec_legacy); [now apply reads_legacy|now rewrite app_nil_r]. }
    rewrite R. cbn [rbind]. destruct (look_up_ok (tx_version t) (tx_locktime t) (tx_outs t) (tx_ins t) (map stripped (tx_ins t)) [] F) as (js & E & Re).
    { apply no_witness_code in W. clear -W. induction W; constructor; [now apply arrives_stripped|assumption]. }
    exists js. split; [exact E|exact Re].
Qed.

(** Whatever restores the inputs verifies. *)
Lemma signed_sendable c ht kss t t' : scheme_ok -> hashes_ok -> 0 <= ht < 256 -> uncached t -> Forall2 (signers c) kss (tx_ins t) -> Forall small_witness_script (tx_ins t) ->
  sign_each c ht 0 kss t = Ok t' ->
  Forall sendable (tx_ins t') /\ forall js, Forall2 restored (tx_ins t') js ->
    let r := MkTx (tx_version t') (tx_locktime t') js (tx_outs t') None None None in Verify r = Ok tt /\ core r = core t' /\ map ti_unlock (tx_ins r) = map ti_unlock (tx_ins t').
Proof.
  intros Sc Hs R (U1 & U2 & U3) F Sm E. assert (L : len kss = len (tx_ins t)) by (unfold len; now rewrite (Forall2_len _ _ _ F)).
  assert (Sn : forall n ks, nth_error kss n = Some ks -> exists i, index (tx_ins t) (0 + Z.of_nat n) = Ok i /\ signers c ks i /\ small_witness_script i).
  { intros n ks Hn. destruct (signers_nth c kss _ F n ks Hn) as (i & Ni & Si). exists i. rewrite Z.add_0_l. split; [now apply nth_of_index|]. split; [exact Si|]. rewrite Forall_forall in Sm. apply Sm. eapply nth_error_In; eauto. }
  destruct (sign_each_spec Hash160 sha256 DS prvkey PubKeyBytes EcdsaSign EcdsaVerify c ht Sc Hs R kss 0 t t' ltac:(lia)) as [[Co Ef] Ac]; [|intros n Hn; lia|exact E|].
  { intros n ks Hn. destruct (Sn n ks Hn) as (i & A & B & _). eauto. }
  pose proof (sign_each_sendable c ht Sc Hs R kss 0 t t' ltac:(lia) Sn ltac:(intros n Hn; lia) E) as Se.
  pose proof (len_core t t' Co) as Lc. split.
  { apply Forall_forall. intros i Hi. apply In_nth_error in Hi. destruct Hi as (n & Hn). destruct (Se (Z.of_nat n)) as (j & Hj & Sj); [pose proof (nth_lt _ _ _ Hn); lia|]. now rewrite (index_of_nth _ _ _ _ Hj Hn). }
  intros js Re r.
  assert (Cr : core r = core t') by (unfold core, r; cbn [tx_version tx_locktime tx_ins tx_outs]; now rewrite (restored_core _ _ Re)).
  split; [|split; [exact Cr|]].
  - unfold TxModel.Verify.
    assert (Sr : same ht t' r).
    { split; [now symmetry|]. rewrite <- Ef. unfold core in Co, Cr. injection Co as V K I O. injection Cr as I'. unfold eff, eff_prevouts, eff_sequence, eff_outputs. unfold r at 2 4 6. cbn [tx_prevouts tx_sequence tx_outputs]. rewrite U1, U2, U3. cbn [cached].
      unfold r. cbn [tx_ins tx_outs]. now rewrite I, I', O. }
    apply (verify_accepted Hash160 DS EcdsaVerify ht js 0 r r); [apply same_refl|]. intros n j Hn. rewrite Z.add_0_l.
    destruct (restored_nth _ _ Re n j Hn) as (i & Ni & Ri). destruct (Ac (Z.of_nat n)) as (i2 & Hi & Ai); [pose proof (nth_lt _ _ _ Ni); lia|]. rewrite <- (index_of_nth _ _ _ _ Hi Ni) in Ai.
    apply (accepted_restored ht _ i j r Ri). eapply accepted_same; [exact Sr|exact Ai].
  - unfold r. cbn [tx_ins]. clear -Re. induction Re as [|i j ins js [_ U] _ IH]; [reflexivity|]. cbn [map]. now rewrite U, IH.
Qed.
(** C124. *)
Lemma received_verifies c ht kss t t' : scheme_ok -> hashes_ok -> 0 <= ht < 256 -> uncached t -> Forall2 (signers c) kss (tx_ins t) -> Forall small_witness_script (tx_ins t) ->
  sign_each c ht 0 kss t = Ok t' -> tx_ok t' -> len (Serialize t') <= 2 ^ 48 ->
  exists r, received Hash160 t' = Ok r /\ Verify r = Ok tt /\ core r = core t' /\ map ti_unlock (tx_ins r) = map ti_unlock (tx_ins t').
Proof.
  intros Sc Hs R U F Sm E T Ln. destruct (signed_sendable c ht kss t t' Sc Hs R U F Sm E) as [Fs V]. destruct (received_is t' T Ln Fs) as (js & Er & Re). eexists. split; [exact Er|]. now apply V.
Qed.

(** C125: one input altered on the way. *)
Lemma tampered_verifies c ht kss t t' n i h junk extra : scheme_ok -> hashes_ok -> 0 <= ht < 256 -> uncached t -> Forall2 (signers c) kss (tx_ins t) -> Forall small_witness_script (tx_ins t) ->
  sign_each c ht 0 kss t = Ok t' -> nth_error (tx_ins t') n = Some i -> bytes_ok h -> len h = 20 -> ti_rawlock i = p2wpkh_script h ->
  tx_ok (tampered_tx n junk extra t') -> len (wire_bip144 (tampered_tx n junk extra t')) <= 2 ^ 48 ->
  Deserialize (wire_bip144 (tampered_tx n junk extra t')) NewTransaction = Ok (tampered_tx n junk extra t') /\ ti_code i <> None /\ 2 <= len (ti_witness i) /\
  exists r, look_up 0 (map spent (tx_ins t')) (tampered_tx n junk extra t') = Ok r /\ Verify r = Ok tt /\ SerializeNoWitness r = SerializeNoWitness t'.
Proof.
  intros Sc Hs R U F Sm E Hn O L Rw T Ln. destruct (signed_sendable c ht kss t t' Sc Hs R U F Sm E) as [Fs V].
  assert (Cd : ti_code i <> None).
  { rewrite Forall_forall in Fs. destruct (Fs i (nth_error_In _ _ Hn)) as (s & Ps & _ & Gc & _). rewrite Rw in Ps. pose proof (parse_of (P2WPKH h) O L) as X. cbn [template] in X. assert (s = P2WPKH h) as -> by congruence. rewrite <- Gc. discriminate. }
  set (tam := tampered_tx n junk extra t') in *.
  assert (Rr : Deserialize (wire_bip144 tam) NewTransaction = Ok tam).
  { rewrite <- (app_nil_r (wire_bip144 tam)). transitivity (Ok (MkTx (tx_version tam) (tx_locktime tam) (map carried (tx_ins tam)) (tx_outs tam) None None None)).
    - apply (reads_run dec_bip144); [now apply reads_bip144|now rewrite app_nil_r].
    - unfold tam, tampered_tx. cbn [tx_version tx_locktime tx_ins tx_outs]. f_equal. f_equal. clear. revert n. induction (tx_ins t') as [|a l IH]; intros [|n]; try reflexivity; cbn [map update].
      + f_equal. rewrite map_map. apply map_ext. reflexivity.
      + f_equal. apply IH. }
  split; [exact Rr|]. split; [exact Cd|]. split.
  { rewrite Forall_forall in Fs. destruct (Fs i (nth_error_In _ _ Hn)) as (s & Ps & _ & _ & _ & Un). rewrite Rw in Ps. pose proof (parse_of (P2WPKH h) O L) as X. cbn [template] in X. assert (s = P2WPKH h) as -> by congruence.
    destruct (ti_code i); [|congruence]. destruct Un as [Un _]. cbn [WitnessToUnlockingScriptBytes] in Un. destruct (ti_witness i) as [|w0 [|w1 ws]]; try discriminate. rewrite !len_cons. pose proof (len_nonneg ws). lia. }
  unfold tam, tampered_tx.
  destruct (look_up_ok (tx_version t') (tx_locktime t') (tx_outs t') (tx_ins t') (update n (tampered junk extra) (map in_transit (tx_ins t'))) [] Fs) as (js & El & Re).
  { clear -Fs Hn O L Rw Cd. revert n Hn. induction Fs as [|a l Fa Fs IH]; intros [|n] Hn; try discriminate; cbn [map update].
    - injection Hn as ->. constructor; [now apply (arrives_tampered i h)|]. clear. induction l; constructor; [apply arrives_carried|assumption].
    - constructor; [apply arrives_carried|now apply IH]. }
  eexists. split; [exact El|]. split; [now apply V|]. unfold SerializeNoWitness. cbn [tx_version tx_locktime tx_ins tx_outs app]. rewrite (restored_written _ _ Re). replace (len js) with (len (tx_ins t')); [reflexivity|]. unfold len. now rewrite (Forall2_len _ _ _ Re).
Qed.

(** A script of more than 16 keys is not rebuilt. *)
Lemma many_unseen m pubs r : GenMultiSigScript m pubs = Ok r -> 0 <= m -> Forall (fun p => bytes_ok p /\ 2 <= len p <= 100) pubs -> 17 <= len pubs < 2 ^ 20 ->
  exists is, AllInstructions r = Ok is /\ isMultiSig is = false.
Proof.
  intros G Hm F L. destruct (multisig_script m pubs r G Hm F ltac:(lia)) as (_ & Or & Lr & im & mb & iks & ine & nb & Sr & _ & Pk & _).
  exists (multi_instrs im iks ine). split; [apply all_of; [split; [exact Or|lia]|exact Sr]|]. destruct (isMultiSig _) eqn:E; [exfalso|reflexivity].
  apply is_multisig in E. destruct E as (m' & f & ks' & n & c' & E & _ & _ & Lk & _). unfold multi_instrs in E. apply (f_equal (@length _)) in E. cbn [length] in E. rewrite !app_length in E. cbn [length] in E.
  assert (length iks = length pubs) by (clear -Pk; induction Pk; cbn [length]; congruence). unfold len in *. lia.
Qed.
Lemma empty_unlock_refused idx i t : ti_unlock i = [] -> (exists r, ti_finallock i = p2sh_script (Hash160 r)) -> hashes_ok -> TxModel.verify_input Hash160 DS EcdsaVerify idx i t <> Ok tt.
Proof.
  intros U (r & Fl) [Hh _] E. unfold TxModel.verify_input in E. apply rbind_ok in E. destruct E as (s & _ & E). rewrite U, Fl in E. destruct (VmModel.Verify _ _ _ _ _ _) as [st| |] eqn:Ev; try discriminate. clear E. rename Ev into E. destruct (Hh r) as [Oh Lh].
  apply (p2sh_iff Hash160 (sigHashFn DS idx (witness_version s) t) EcdsaVerify [] (Hash160 r) [] st) in E; [|exact (template_mem (P2SH (Hash160 r)) Oh Lh)|exact Lh|].
  - destruct E as (x & rest & X & _). discriminate.
  - apply (exec_of Hash160 _ _ [] [] false NewEngine); [split; [constructor|vm_compute; discriminate]|constructor].
Qed.
Lemma many_keys_refused c ht ks pubs r t i t' : scheme_ok -> hashes_ok -> 0 <= ht < 256 -> tx_ins t = [i] -> spends_p2wsh Hash160 sha256 r i -> multisig_for prvkey PubKeyBytes c ks pubs r ->
  17 <= len pubs -> SignIndex 0 c ht ks t = Ok t' -> tx_ok t' -> len (Serialize t') <= 2 ^ 48 ->
  Verify t' = Ok tt /\ exists j, received Hash160 t' = Ok j /\ Verify j <> Ok tt.
Proof.
  intros Sc Hs R Ti Sp M L E T Ln. assert (Hi : index (tx_ins t) 0 = Ok i) by (rewrite Ti; reflexivity).
  assert (Sg : signers c ks i) by (eapply can_p2wsh; eauto).
  destruct (sign_any Hash160 sha256 DS prvkey PubKeyBytes EcdsaSign EcdsaVerify 0 c ht ks t i t' Sc Hs R Hi Sg E) as ((Co & Ef) & _ & _).
  split.
  { apply (signed_verifies Hash160 sha256 DS prvkey PubKeyBytes EcdsaSign EcdsaVerify c ht [ks] t t' Sc Hs R); [rewrite Ti; constructor; [exact Sg|constructor]|]. cbn [TxSignSpec.sign_each]. rewrite E. reflexivity. }
  destruct Sp as (Rw & Fl & Rd & Cd). destruct Hs as [Hh Hsh].
  unfold TxModel.SignIndex in E. rewrite Hi in E. cbn [rbind] in E. destruct ((1 <? len ks) && _); [discriminate|].
  apply rbind_ok in E. destruct E as ((signs & t1) & El & E).
  destruct (sign_loop_spec Hash160 sha256 DS prvkey PubKeyBytes EcdsaSign EcdsaVerify 0 c ht ks t i signs t1 Hi El) as (S1 & (i1 & Hi1) & _ & _ & Lsg).
  destruct (core_index t t1 0 i (proj1 S1) Hi) as (i1' & Hi1' & Bl). rewrite Hi1 in Hi1'. injection Hi1' as <-.
  assert (ti_rawlock i1 = ti_rawlock i /\ ti_redeem i1 = ti_redeem i /\ ti_finallock i1 = ti_finallock i /\ ti_code i1 = ti_code i) as (Ra & Re & Fi & Cc) by (unfold blank in Bl; repeat split; congruence).
  unfold EmbedIdxSignature in E. rewrite Hi1 in E. cbn [rbind] in E. destruct ((1 <? len signs) && _); [discriminate|]. rewrite Ra, Re, Rd in E. cbn [nilb] in E.
  destruct (Hsh r) as [O Lh]. pose proof (parse_of (P2WSH (sha256 r)) O Lh) as Ps. cbn [template] in Ps. rewrite <- Rw in Ps. rewrite Ps in E. cbn [rbind] in E.
  cbn [GetRawUnlockingScriptBytes GetWitnessUnlockingScriptBytes rbind] in E. rewrite list_Z_eqb_refl in E. cbn [negb rbind] in E. injection E as <-.
  destruct M as (G & Nk & _ & Fp & Lp). assert (Lz : 0 <? len signs = true) by (destruct signs; [destruct ks; [congruence|discriminate]|]; rewrite len_cons; pose proof (len_nonneg signs); lia). rewrite Lz in *.
  destruct (many_unseen (len ks) pubs r G (len_nonneg ks) Fp ltac:(lia)) as (is & Ai & Im).
  set (w := ([] :: map pks_sig signs) ++ [r]) in *. set (u := p2sh_unlocking signs r) in *. set (t' := set_in 0 (fun i0 => with_witness w (with_unlock u i0)) t1) in *.
  assert (Ti1 : tx_ins t1 = [i1]).
  { pose proof (len_core t t1 (proj1 S1)) as X. rewrite Ti in X. change (len [i]) with 1 in X. destruct (tx_ins t1) as [|a [|b l]] eqn:T1; [discriminate X| |rewrite !len_cons in X; pose proof (len_nonneg l); lia]. change (index [a] 0) with (Ok a) in Hi1. congruence. }
  assert (Ti' : tx_ins t' = [with_witness w (with_unlock u i1)]) by (unfold t', set_in, set_ins; cbn [tx_ins]; rewrite Ti1; reflexivity).
  set (i2 := with_witness w (with_unlock u i1)) in *.
  assert (Hw : HasWitness t' = true) by (unfold HasWitness; rewrite Ti'; unfold i2; cbn [existsb]; unfold in_has_witness; cbn [ti_code with_witness with_unlock]; rewrite Cc, Cd; reflexivity).
  unfold received, read_back. rewrite serialize_witness in * by exact T. rewrite Hw in *.
  assert (Rr : Deserialize (wire_bip144 t') NewTransaction = Ok (MkTx (tx_version t') (tx_locktime t') (map carried (tx_ins t')) (tx_outs t') None None None)).
  { rewrite <- (app_nil_r (wire_bip144 t')). apply (reads_run dec_bip144); [now apply reads_bip144|now rewrite app_nil_r]. }
  rewrite Rr. cbn [rbind]. rewrite Ti'. cbn [map ReceiveSpec.look_up spent]. unfold TxModel.SetTxIn. cbn [tx_ins]. change (index [carried i2] 0) with (Ok (carried i2)). cbn [rbind].
  assert (Ri : ti_rawlock i2 = ti_rawlock i) by exact Ra. rewrite Ri, Ps. cbn [rbind].
  assert (Wu : WitnessToUnlockingScriptBytes (P2WSH (sha256 r)) (ti_witness (carried i2)) = Ok []).
  { cbn [WitnessToUnlockingScriptBytes carried with_witness stripped ti_witness i2]. unfold w. rewrite len_app. change (len [r]) with 1. set (ws := [] :: map pks_sig signs). pose proof (len_nonneg ws).
    destruct (1 <? len ws + 1); [|reflexivity]. replace (len ws + 1 - 1) with (len ws) by lia. unfold index. replace (len ws <? 0) with false by lia. rewrite to_nat_len, nth_error_app2, Nat.sub_diag by lia. cbn [nth_error rbind]. now rewrite Ai, Im. }
  rewrite Wu. cbn [rbind]. eexists. split; [reflexivity|]. unfold TxModel.Verify, set_in, set_ins. cbn [tx_ins]. change (Z.to_nat 0) with 0%nat. cbn [update]. cbn [TxModel.verify_from].
  match goal with |- context [TxModel.verify_input _ _ _ 0 ?x ?y] => pose proof (empty_unlock_refused 0 x y) as Q; destruct (TxModel.verify_input Hash160 DS EcdsaVerify 0 x y) as [[]| |] end; try discriminate.
  exfalso. apply Q; [| |split; assumption|reflexivity].
  - cbn [ti_unlock carried with_witness stripped]. unfold script_sig. replace (ti_code i2) with (Some r); [reflexivity|]. unfold i2. cbn [ti_code with_witness with_unlock]. congruence.
  - exists r. cbn [ti_finallock]. replace (ti_redeem i2) with (Some r) by (unfold i2; cbn [ti_redeem with_witness with_unlock]; congruence). exact (raw_locking (P2SH (Hash160 r)) (proj2 (Hh r))).
Qed.
End Receive.

(** ** Completing one input. *)
Section Complete.
Variable Hash160 : bytes -> bytes.
Lemma index_panic {A} (l : list A) k : index l k = Panic <-> ~ 0 <= k < len l.
Proof.
  unfold index, len. destruct (k <? 0) eqn:K; [split; [lia|reflexivity]|]. destruct (nth_error l (Z.to_nat k)) eqn:E.
  - split; [discriminate|]. intros N. exfalso. apply N. assert (Q : nth_error l (Z.to_nat k) <> None) by congruence. apply nth_error_Some in Q. lia.
  - split; [|reflexivity]. apply nth_error_None in E. lia.
Qed.
Lemma parse_no_panic d : in_memory d -> ParseLockingScript d <> Panic.
Proof.
  intros M. unfold ParseLockingScript. pose proof (parse_total d M) as T. destruct (AllInstructions d) as [is| |]; [|discriminate|congruence]. cbn [rbind].
  repeat match goal with |- (if ?c then _ else _) <> _ => destruct c | |- (match ?x with _ => _ end) <> _ => destruct x end; discriminate.
Qed.
Lemma complete_panic idx amount script redeem t : in_memory script ->
  SetTxIn Hash160 idx amount script redeem t = Panic <->
  ~ 0 <= idx < len (tx_ins t) \/ exists i h, index (tx_ins t) idx = Ok i /\ len h = 20 /\ script = p2wpkh_script h /\ len (ti_witness i) < 2.
Proof.
  intros M. unfold SetTxIn. destruct (index (tx_ins t) idx) as [i| |] eqn:I; cbn [rbind].
  2: { unfold index in I. destruct (idx <? 0); [discriminate|]. destruct (nth_error _ _); discriminate. }
  2: { split; [left; now apply index_panic|reflexivity]. }
  assert (In : 0 <= idx < len (tx_ins t)). { destruct (Z_le_dec 0 idx), (Z_lt_dec idx (len (tx_ins t))); try lia; (assert (X : index (tx_ins t) idx = Panic) by (apply index_panic; lia); congruence). }
  pose proof (parse_no_panic script M) as Np. destruct (ParseLockingScript script) as [s| |] eqn:P; cbn [rbind]; [| |congruence].
  2: { split; [discriminate|]. intros [N|(i' & h & _ & L & -> & _)]; [lia|]. assert (X : ParseLockingScript (p2wpkh_script h) = Ok (P2WPKH h)) by (apply parse_template; auto). congruence. }
  pose proof P as P0. apply parse_template in P; [|exact M]. destruct P as [L E]. destruct s as [h|h|h|h]; cbn [WitnessToUnlockingScriptBytes rbind].
  - split; [discriminate|]. intros [N|(i' & h' & _ & L' & X & _)]; [lia|]. subst script. rewrite X in P0. assert (Y : ParseLockingScript (p2wpkh_script h') = Ok (P2WPKH h')) by (apply parse_template; [now rewrite <- X|auto]). congruence.
  - split; [discriminate|]. intros [N|(i' & h' & _ & L' & X & _)]; [lia|]. subst script. rewrite X in P0. assert (Y : ParseLockingScript (p2wpkh_script h') = Ok (P2WPKH h')) by (apply parse_template; [now rewrite <- X|auto]). congruence.
  - destruct (ti_witness i) as [|w0 [|w1 ws]] eqn:W; cbn [rbind].
    + split; [|reflexivity]. intros _. right. exists i, h. rewrite W. split; [reflexivity|]. split; [exact L|]. split; [exact E|]. reflexivity.
    + split; [|reflexivity]. intros _. right. exists i, h. rewrite W. split; [reflexivity|]. split; [exact L|]. split; [exact E|]. reflexivity.
    + split; [discriminate|]. intros [N|(i' & h' & I' & _ & _ & Lw)]; [lia|]. assert (i' = i) as -> by congruence. rewrite W, !len_cons in Lw. pose proof (len_nonneg ws). lia.
  - assert (Q : (let! u := WitnessToUnlockingScriptBytes (P2WSH h) (ti_witness i) in Ok u) <> Panic).
    { cbn [WitnessToUnlockingScriptBytes]. destruct (1 <? len (ti_witness i)) eqn:C; [|discriminate]. destruct (index (ti_witness i) (len (ti_witness i) - 1)) as [x| |] eqn:J; [|discriminate|apply index_panic in J; lia]. cbn [rbind].
      destruct (isMultiSig _); discriminate. }
    cbn [WitnessToUnlockingScriptBytes] in Q. match goal with |- (let! u := ?e in _) = Panic <-> _ => destruct e; cbn [rbind] in Q |- * end; [| |congruence];
      (split; [discriminate|]; intros [N|(i' & h' & _ & L' & X & _)]; [lia|]; subst script; rewrite X in P0; assert (Y : ParseLockingScript (p2wpkh_script h') = Ok (P2WPKH h')) by (apply parse_template; [now rewrite <- X|auto]); congruence).
Qed.

End Complete.
