(** Digests that an object keeps from the transaction it held before. *)
From Verif Require Import GoBase BaseLemmas BufferModel BufferSpec BufferProofs BufferMore Codec ScriptNumModel ScriptNumSpec ScriptNumProofs ScriptModel ScriptSpec ScriptProofs
  LockSpec LockModel VmModel VmSpec VmProofs VmMore VmSig VmCond VmPanic VmLock LockProofs VmCalls TxModel TxSpec TxProofs TxSignSpec TxSign TxSign2 TxSign3 ReceiveSpec ReceiveProofs UsedModel UsedSpec UsedProofs.
From Coq Require Import ZifyBool ZifyNat ZifyN.

(** ** Reading into an object. *)
Definition keep (old t : transaction) : transaction := set_caches (tx_prevouts old) (tx_sequence old) (tx_outputs old) t.
Lemma read_ins_keep old b xs b' : read_ins [] b = (Ok xs, b') -> xs <> [] -> read_ins old b = (Ok xs, b').
Proof. unfold read_ins, bbind, bmake, bret. intros E N. destruct (ReadVarInt b) as [[n|e|] b1]; try exact E. destruct (0 <? n); [exact E|]. congruence. Qed.
Lemma read_outs_keep old b xs b' : read_outs [] b = (Ok xs, b') -> xs <> [] -> read_outs old b = (Ok xs, b').
Proof. unfold read_outs, bbind, bmake, bret. intros E N. destruct (ReadVarInt b) as [[n|e|] b1]; try exact E. destruct (0 <? n); [exact E|]. congruence. Qed.
Lemma read_each_length {A B} (rd : A -> BM B) : forall l b xs b', read_each rd l b = (Ok xs, b') -> length xs = length l.
Proof.
  induction l as [|a l IH]; intros b xs b' E; cbn [read_each] in E; [unfold bret in E; injection E as <- _; reflexivity|].
  unfold bbind in E. destruct (rd a b) as [[x|e|] b1]; try discriminate. destruct (read_each rd l b1) as [[ys|e|] b2] eqn:Er; try discriminate. unfold bret in E. injection E as <- _. cbn [length]. f_equal. eapply IH; eauto.
Qed.
Lemma deserialize_keep d old t : Deserialize d NewTransaction = Ok t -> tx_ins t <> [] -> tx_outs t <> [] -> Deserialize d old = Ok (keep old t).
Proof.
  unfold Deserialize. intros E Ni No. unfold bbind in *. destruct (ReadU32 (NewBufferReader d)) as [[v|e|] b1]; try discriminate. destruct (ReadU8 b1) as [[m|e|] b2]; try discriminate. destruct (bassert (m =? 0) _ b2) as [[u|e|] b3]; try discriminate.
  destruct (ReadU8 b3) as [[f|e|] b4]; try discriminate. destruct (bassert (f =? 1) _ b4) as [[u'|e|] b5]; try discriminate. cbn [tx_ins tx_outs NewTransaction] in E.
  destruct (read_ins [] b5) as [[ins|e|] b6] eqn:Ei; try discriminate. destruct (read_outs [] b6) as [[outs|e|] b7] eqn:Eo; try discriminate. destruct (read_each read_witness ins b7) as [[ws|e|] b8] eqn:Ew; try discriminate.
  destruct (ReadU32 b8) as [[k|e|] b9] eqn:Ek; try discriminate. unfold bret in *. cbn [fst] in E. assert (t = MkTx v k ws outs None None None) as -> by (cbn [NewTransaction tx_prevouts tx_sequence tx_outputs] in E; clear -E; congruence). cbn [tx_ins tx_outs] in *.
  assert (ins <> []) by (intros ->; apply read_each_length in Ew; destruct ws; [congruence|discriminate]).
  rewrite (read_ins_keep (tx_ins old) b5 ins b6) by assumption. rewrite (read_outs_keep (tx_outs old) b6 outs b7) by assumption. rewrite Ew, Ek. reflexivity.
Qed.
Lemma deserialize_nw_keep d old t : DeserializeNoWitness d NewTransaction = Ok t -> tx_ins t <> [] -> tx_outs t <> [] -> DeserializeNoWitness d old = Ok (keep old t).
Proof.
  unfold DeserializeNoWitness. intros E Ni No. unfold bbind in *. destruct (ReadU32 (NewBufferReader d)) as [[v|e|] b5]; try discriminate. cbn [tx_ins tx_outs NewTransaction] in E.
  destruct (read_ins [] b5) as [[ins|e|] b6] eqn:Ei; try discriminate. destruct (read_outs [] b6) as [[outs|e|] b7] eqn:Eo; try discriminate.
  destruct (ReadU32 b7) as [[k|e|] b9] eqn:Ek; try discriminate. unfold bret in *. cbn [fst] in E. assert (t = MkTx v k ins outs None None None) as -> by (cbn [NewTransaction tx_prevouts tx_sequence tx_outputs] in E; clear -E; congruence). cbn [tx_ins tx_outs] in *.
  rewrite (read_ins_keep (tx_ins old) b5 ins b6) by assumption. rewrite (read_outs_keep (tx_outs old) b6 outs b7) by assumption. rewrite Ek. reflexivity.
Qed.
(** Empty lists: the object keeps its own. *)
Lemma legacy_empty_outs t old : tx_ok t -> tx_ins t <> [] -> tx_outs t = [] -> len (wire_legacy t) <= 2 ^ 48 ->
  DeserializeNoWitness (wire_legacy t) old = Ok (keep old (MkTx (tx_version t) (tx_locktime t) (map stripped (tx_ins t)) (tx_outs old) None None None)).
Proof.
  intros (V & K & Mi & Mo & Fi & Fo) Ni No L. unfold DeserializeNoWitness.
  rewrite <- (app_nil_r (wire_legacy t)). apply (reads_run (do v <- ReadU32; do ins <- read_ins (tx_ins old); do outs <- read_outs (tx_outs old); do lt <- ReadU32; bret (MkTx v lt ins outs (tx_prevouts old) (tx_sequence old) (tx_outputs old)))); [|now rewrite app_nil_r].
  unfold wire_legacy, wire_body. rewrite No. cbn [map concat]. rewrite !le_eq, !app_nil_r.
  replace ((compact (len (tx_ins t)) ++ concat (map wire_in (tx_ins t)) ++ compact (len (@nil TxOut))) ++ le_bytes 4 (tx_locktime t))
    with ((compact (len (tx_ins t)) ++ concat (map wire_in (tx_ins t))) ++ compact (len (@nil TxOut)) ++ le_bytes 4 (tx_locktime t)) by (now rewrite <- !app_assoc).
  eapply reads_bind; [now apply reads_U32|]. eapply reads_bind; [|eapply reads_bind; [|eapply reads_last; [now apply reads_U32|reflexivity]]].
  - intros pre rest F. apply read_ins_keep; [apply (reads_ins (tx_ins t) Fi Mi pre rest F)|]. destruct (tx_ins t); [congruence|discriminate].
  - unfold read_outs. rewrite compact_eq. eapply reads_last; [apply reads_varint; unfold len; cbn [length]; lia|reflexivity].
Qed.

Section Stale.
Variable Hash160 DS : bytes -> bytes.
Variable EcdsaVerify : bytes -> bytes -> bytes -> res unit.
Notation same := (same DS).
Notation digest := (sigHashFn DS).
Notation verify_input := (verify_input Hash160 DS EcdsaVerify).
Notation verify_from := (verify_from Hash160 DS EcdsaVerify).
Notation verified_from := (verified_from Hash160 DS EcdsaVerify).
Notation after_calls := (after_calls DS).
Notation look_up := (look_up Hash160).

Definition key_input (ht : Z) (i : TxIn) : Prop := exists h der key, bytes_ok h /\ len h = 20 /\ small_item (der ++ [ht]) /\ small_item key /\
  ti_rawlock i = p2wpkh_script h /\ ti_finallock i = p2pkh_script h /\ ti_unlock i = Script (AddData key (AddData (der ++ [ht]) NewScriptBuilder)).
Lemma small_pushable d : small_item d -> pushable d.
Proof. intros [O L]. split; [exact O|]. split; [lia|]. split; intros ->; vm_compute in L; intuition congruence. Qed.

(** One input: it verifies or not according to the digest of its own type alone, and asks for that one. *)
Lemma key_step ht idx i t t2 : key_input ht i -> digest idx true t ht = digest idx true t2 ht -> verify_input idx i t = Ok tt ->
  verify_input idx i t2 = Ok tt /\ ParseLockingScript (ti_rawlock i) = Ok (P2WPKH (firstn 20 (skipn 2 (ti_rawlock i)))) /\
  verify_calls Hash160 (digest idx true t) EcdsaVerify (ti_unlock i) (ti_finallock i) NewEngine = [ht].
Proof.
  intros (h & der & key & Oh & Lh & Ss & Sk & Rw & Fn & Un) D V. pose proof (parse_of (P2WPKH h) Oh Lh) as Ps. cbn [template] in Ps.
  unfold TxModel.verify_input in *. rewrite Rw, Fn, Un in *. rewrite Ps in *. cbn [rbind witness_version] in *.
  destruct (add_item (der ++ [ht]) NewScriptBuilder (small_pushable _ Ss)) as (j1 & e1 & E1 & Oe1 & Le1 & En1 & P1).
  destruct (add_item key (AddData (der ++ [ht]) NewScriptBuilder) (small_pushable _ Sk)) as (j2 & e2 & E2 & Oe2 & Le2 & En2 & P2).
  set (u := Script (AddData key (AddData (der ++ [ht]) NewScriptBuilder))) in *.
  assert (Eu : u = e1 ++ e2) by (rewrite E2, E1; reflexivity).
  assert (Su : script_of [j1; j2] u) by (rewrite Eu; constructor; [exact En1|now apply encodes_script]).
  assert (M : in_memory (u ++ p2pkh_script h)).
  { destruct Ss as [_ Ls], Sk as [_ Lk]. split; [rewrite Eu; unfold p2pkh_script; rewrite !bytes_ok_app; repeat split; auto; bytes_ok_tac|]. rewrite Eu. unfold p2pkh_script. rewrite !len_app in *. change (len [118; 169; 20]) with 3. change (len [136; 172]) with 2. lia. }
  assert (Ex : exists st, VmModel.Verify Hash160 (Some (digest idx true t)) (Some EcdsaVerify) u (p2pkh_script h) NewEngine = Ok st) by (destruct (VmModel.Verify _ _ _ _ _ _) as [st| |]; [eauto|discriminate|discriminate]).
  apply (p2pkh_iff Hash160 (digest idx true t) EcdsaVerify u h j1 j2 (der ++ [ht]) key M Lh Su P1 P2) in Ex. destruct Ex as [Hk (der' & ht' & dg & Es & Hd & Ev)].
  apply app_inj_tail in Es. destruct Es as [<- <-].
  assert (V2 : exists st, VmModel.Verify Hash160 (Some (digest idx true t2)) (Some EcdsaVerify) u (p2pkh_script h) NewEngine = Ok st).
  { apply (p2pkh_iff Hash160 (digest idx true t2) EcdsaVerify u h j1 j2 (der ++ [ht]) key M Lh Su P1 P2). split; [exact Hk|]. exists der, ht, dg. rewrite <- D. auto. }
  destruct V2 as (st & V2). rewrite V2. split; [reflexivity|]. split.
  - f_equal. f_equal. unfold p2wpkh_script. change (skipn 2 ([0; 20] ++ h)) with h. symmetry. apply firstn_all2. unfold len in Lh. lia.
  - apply (p2pkh_verified Hash160 (digest idx true t) EcdsaVerify u h [j1; j2] der ht key M Lh Su); [repeat constructor; assumption|exact Hk|]. exists der, ht, dg. auto.
Qed.

Definition full (t : transaction) : Prop := exists a b c, t = set_caches (Some a) (Some b) (Some c) t.
Lemma full_calls idx ht t i : index (tx_ins t) idx = Ok i -> exists a b c, after_calls idx [ht] t = set_caches (Some a) (Some b) (Some c) t.
Proof.
  intros Hi. unfold TxModel.after_calls. cbn [fold_left]. destruct (WitnessV0SignatureHash DS idx ht t) as [[h t1]| |] eqn:E; rewrite whash_eq, Hi in E; cbn [rbind] in E; try discriminate.
  apply ok_pair in E. destruct E as [_ <-]. eexists _, _, _. reflexivity.
Qed.

(** The whole loop. *)
Lemma loop_again ht : forall ins idx t0 t, Forall (key_input ht) ins -> same ht t0 t -> (forall n i, nth_error ins n = Some i -> exists j, index (tx_ins t) (idx + Z.of_nat n) = Ok j) -> verify_from idx ins t = Ok tt ->
  (forall t2, same ht t0 t2 -> verify_from idx ins t2 = Ok tt) /\ same ht t0 (verified_from idx ins t) /\
  (ins <> [] -> exists a b c, verified_from idx ins t = set_caches (Some a) (Some b) (Some c) t).
Proof.
  induction ins as [|i ins IH]; intros idx t0 t F S Ix V.
  - split; [reflexivity|]. split; [exact S|congruence].
  - cbn [TxModel.verify_from UsedModel.verified_from] in *. inversion F as [|? ? Ki F']; subst. apply rbind_ok in V. destruct V as ([] & V1 & V).
    destruct (key_step ht idx i t t Ki eq_refl V1) as (_ & Ps & Cl). rewrite Ps in *. cbn [rbind witness_version] in *. rewrite V1, Cl in *.
    destruct (Ix 0%nat i eq_refl) as (j & Hj). rewrite Z.add_0_r in Hj. destruct (full_calls idx ht t j Hj) as (a & b & c & Ea).
    assert (S1 : same ht t (after_calls idx [ht] t)) by (apply after_calls_same; repeat constructor).
    destruct (IH (idx + 1) t0 (after_calls idx [ht] t) F') as (A & B & C); [eapply same_trans; eauto| |exact V|].
    { intros n x Hn. rewrite Ea. cbn [set_caches tx_ins]. replace (idx + 1 + Z.of_nat n) with (idx + Z.of_nat (Datatypes.S n)) by lia. now apply (Ix (Datatypes.S n) x). }
    split; [|split; [exact B|]].
    + intros t2 S2. assert (D : digest idx true t ht = digest idx true t2 ht) by (apply same_digest; eapply same_trans; [apply same_sym; exact S|exact S2]).
      destruct (key_step ht idx i t t2 Ki D V1) as (V2 & _ & _). destruct (key_step ht idx i t2 t2 Ki eq_refl V2) as (_ & _ & Cl2). rewrite V2, Cl2. cbn [rbind].
      apply A. eapply same_trans; [exact S2|]. apply after_calls_same. repeat constructor.
    + intros _. destruct ins as [|i2 ins]; [cbn [UsedModel.verified_from]; eauto|]. destruct (C ltac:(discriminate)) as (a' & b' & c' & C'). rewrite C', Ea. exists a', b', c'. reflexivity.
Qed.

(** With all three digests at hand the outputs are not looked at. *)
Definition held v k js (o : list TxOut) a b c := MkTx v k js o (Some a) (Some b) (Some c).
Lemma hash_outs idx ht v k js o o2 a b c :
  match WitnessV0SignatureHash DS idx ht (held v k js o a b c), WitnessV0SignatureHash DS idx ht (held v k js o2 a b c) with
  | Ok (h, t), Ok (h2, t2) => h = h2 /\ exists a' b' c', t = held v k js o a' b' c' /\ t2 = held v k js o2 a' b' c'
  | Err e, Err e2 => e = e2
  | Panic, Panic => True
  | _, _ => False
  end.
Proof.
  unfold WitnessV0SignatureHash, held. cbn [tx_ins]. destruct (index js idx) as [i|e|]; cbn [rbind]; auto. split; [reflexivity|]. eexists _, _, _. split; reflexivity.
Qed.
Lemma digest_outs idx v k js o o2 a b c : digest idx true (held v k js o a b c) = digest idx true (held v k js o2 a b c).
Proof. unfold sigHashFn, WitnessV0SignatureHash, held. cbn [tx_ins]. destruct (index js idx) as [i|e|]; reflexivity. Qed.
Lemma calls_outs idx v k js o o2 : forall calls a b c, exists a' b' c', after_calls idx calls (held v k js o a b c) = held v k js o a' b' c' /\ after_calls idx calls (held v k js o2 a b c) = held v k js o2 a' b' c'.
Proof.
  unfold TxModel.after_calls. induction calls as [|ht calls IH]; intros a b c; cbn [fold_left]; [eauto|]. pose proof (hash_outs idx ht v k js o o2 a b c) as H.
  destruct (WitnessV0SignatureHash DS idx ht (held v k js o a b c)) as [[h t]|e|], (WitnessV0SignatureHash DS idx ht (held v k js o2 a b c)) as [[h2 t2]|e2|]; try contradiction; [|apply IH|apply IH].
  destruct H as (_ & a' & b' & c' & -> & ->). apply IH.
Qed.
Lemma outs_unseen ht v k js o o2 : forall ins idx a b c, Forall (key_input ht) ins -> verify_from idx ins (held v k js o a b c) = verify_from idx ins (held v k js o2 a b c).
Proof.
  induction ins as [|i ins IH]; intros idx a b c F; [reflexivity|]. inversion F as [|? ? Ki F']; subst. cbn [TxModel.verify_from].
  destruct Ki as (h & der & key & Oh & Lh & Ss & Sk & Rw & Fn & Un). pose proof (parse_of (P2WPKH h) Oh Lh) as Ps. cbn [template] in Ps.
  unfold TxModel.verify_input. rewrite Rw, Ps. cbn [rbind witness_version]. rewrite (digest_outs idx v k js o o2 a b c).
  destruct (VmModel.Verify _ _ _ _ _ _); try reflexivity. cbn [rbind]. destruct (calls_outs idx v k js o o2 (verify_calls Hash160 (digest idx true (held v k js o2 a b c)) EcdsaVerify (ti_unlock i) (ti_finallock i) NewEngine) a b c) as (a' & b' & c' & -> & ->).
  now apply IH.
Qed.

(** The receiver's look up, whatever the rest of the object. *)
Lemma look_up_key ht : forall prevs arr done, Forall key_output prevs -> Forall (key_witness ht) arr -> length prevs = length arr ->
  exists js, Forall (key_input ht) js /\ length js = length arr /\ forall v k o a b c, look_up (len done) prevs (MkTx v k (done ++ arr) o a b c) = Ok (MkTx v k (done ++ js) o a b c).
Proof.
  induction prevs as [|p prevs IH]; intros arr done Fp Fa L; destruct arr as [|x arr]; try discriminate.
  - exists []. split; [constructor|]. split; reflexivity.
  - inversion Fp as [|? ? (val & h & -> & Oh & Lh) Fp']; subst. inversion Fa as [|? ? (der & key & W & Ss & Sk) Fa']; subst.
    pose proof (parse_of (P2WPKH h) Oh Lh) as Ps. cbn [template] in Ps.
    set (u := Script (AddData key (AddData (der ++ [ht]) NewScriptBuilder))).
    set (j := MkIn (ti_hash x) (ti_index x) val (ti_seq x) (ti_sighash x) None (ti_witness x) (GetWitnessScriptCode (P2WPKH h) None) (GetRawLockingScriptBytes (P2WPKH h)) (GetFinalLockingScriptBytes Hash160 (P2WPKH h) []) u).
    destruct (IH arr (done ++ [j]) Fp' Fa' ltac:(cbn [length] in L; lia)) as (js & Kj & Lj & E). exists (j :: js). split; [|split].
    + constructor; [|exact Kj]. exists h, der, key. repeat (split; [assumption|]). split; [exact (raw_locking (P2WPKH h) Lh)|]. split; [exact (raw_locking (P2PKH h) Lh)|reflexivity].
    + cbn [length]. now rewrite Lj.
    + intros v k o a b c. cbn [ReceiveSpec.look_up]. unfold TxModel.SetTxIn at 1. cbn [tx_ins].
      assert (Ix : index (done ++ x :: arr) (len done) = Ok x).
      { unfold index. pose proof (len_nonneg done). replace (len done <? 0) with false by lia. rewrite to_nat_len, nth_error_app2, Nat.sub_diag by lia. reflexivity. }
      rewrite Ix. cbn [rbind]. rewrite Ps. cbn [rbind WitnessToUnlockingScriptBytes]. rewrite W. cbn [rbind].
      unfold set_in, set_ins. cbn [tx_version tx_locktime tx_ins tx_outs tx_prevouts tx_sequence tx_outputs]. rewrite to_nat_len, update_app. fold u. cbn [nilb].
      assert (Nu : u <> []) by (intros X; apply (script_nonempty key (AddData (der ++ [ht]) NewScriptBuilder)); exact X).
      replace (match u with [] => ti_unlock x | _ :: _ => u end) with u by (destruct u; [congruence|reflexivity]). fold j.
      specialize (E v k o a b c). rewrite len_app in E. change (len [j]) with 1 in E. rewrite <- !app_assoc in E. exact E.
Qed.

Theorem stale ht d1 d2 prevs x1 x2 r : Deserialize d1 NewTransaction = Ok x1 -> Deserialize d2 NewTransaction = Ok x2 -> x2 = set_outs (tx_outs x2) x1 -> tx_ins x1 <> [] -> tx_outs x2 <> [] ->
  Forall (key_witness ht) (tx_ins x1) -> Forall key_output prevs -> length prevs = length (tx_ins x1) ->
  look_up 0 prevs x1 = Ok r -> TxModel.Verify Hash160 DS EcdsaVerify r = Ok tt ->
  exists x r2, Deserialize d2 (verified Hash160 DS EcdsaVerify r) = Ok x /\ look_up 0 prevs x = Ok r2 /\ tx_outs r2 = tx_outs x2 /\ TxModel.Verify Hash160 DS EcdsaVerify r2 = Ok tt.
Proof.
  intros D1 D2 Ex Ni No Kw Ko L Lu V. destruct (look_up_key ht prevs (tx_ins x1) [] Ko Kw L) as (js & Kj & Lj & Lk). change (len (@nil TxIn)) with 0 in Lk. cbn [app] in Lk.
  destruct x1 as [v k ins o a b c]. cbn [tx_ins] in *. rewrite (Lk v k o a b c) in Lu. assert (r = MkTx v k js o a b c) as -> by congruence. clear Lu.
  assert (Nj : js <> []) by (destruct js; [destruct ins; [congruence|discriminate]|discriminate]).
  unfold TxModel.Verify, verified in *. cbn [tx_ins] in V |- *. set (t := MkTx v k js o a b c) in *.
  destruct (loop_again ht js 0 t t Kj (same_refl _ _ _)) as (A & B & C); [|exact V|].
  { intros n i Hn. exists i. rewrite Z.add_0_l. now apply nth_of_index. }
  destruct (C Nj) as (pa & pb & pc & Ec). rewrite Ec in *. pose proof (A _ B) as V2.
  exists (held v k ins (tx_outs x2) pa pb pc), (held v k js (tx_outs x2) pa pb pc).
  assert (Ei : tx_ins x2 <> []) by (rewrite Ex; exact Ni).
  split; [rewrite (deserialize_keep d2 _ x2 D2 Ei No); f_equal; rewrite Ex at 1; reflexivity|].
  split; [apply Lk|]. split; [reflexivity|]. cbn [held tx_ins]. unfold set_caches, t in V2. cbn [tx_version tx_locktime tx_ins tx_outs] in V2.
  rewrite <- V2. symmetry. apply (outs_unseen ht v k js o (tx_outs x2) js 0 pa pb pc Kj).
Qed.
End Stale.
