(** Amounts noted with inputs, and lock times. *)
From Verif Require Import GoBase BaseLemmas BufferModel BufferSpec BufferProofs BufferMore Codec ScriptModel ScriptSpec LockModel LockSpec VmModel VmSpec VmProofs TxModel TxSpec TxSignSpec TxSign TxSign2 BuilderModel BuilderSpec BuilderProofs MallProofs.
From Verif Require Import AmountSpec.
From Coq Require Import ZifyBool ZifyNat ZifyN.

Definition eqv (i j : TxIn) : Prop := exists v, j = new_value v i.
Definition Rel (n : nat) (t t' : transaction) : Prop :=
  tx_version t = tx_version t' /\ tx_locktime t = tx_locktime t' /\ tx_outs t = tx_outs t' /\ tx_prevouts t = tx_prevouts t' /\ tx_sequence t = tx_sequence t' /\ tx_outputs t = tx_outputs t' /\
  Forall2 eqv (tx_ins t) (tx_ins t') /\ forall k, k <> n -> nth_error (tx_ins t) k = nth_error (tx_ins t') k.
Lemma eqv_refl i : eqv i i. Proof. exists (ti_value i). now destruct i. Qed.
Lemma eqv_len l m : Forall2 eqv l m -> length l = length m.
Proof. induction 1; cbn [length]; congruence. Qed.
Lemma eqv_self l : Forall2 eqv l l. Proof. induction l; constructor; [apply eqv_refl|assumption]. Qed.
Lemma new_list n v l : Forall2 eqv l (firstn n l ++ map (new_value v) (firstn 1 (skipn n l)) ++ skipn (S n) l) /\
  forall k, k <> n -> nth_error l k = nth_error (firstn n l ++ map (new_value v) (firstn 1 (skipn n l)) ++ skipn (S n) l) k.
Proof.
  revert n. induction l as [|x l IH]; intros n; [rewrite !firstn_nil, !skipn_nil; cbn; split; [constructor|reflexivity]|]. destruct n as [|n].
  - cbn [firstn skipn map app]. split; [constructor; [exists v; reflexivity|apply eqv_self]|]. intros [|k] Hk; [congruence|reflexivity].
  - cbn [firstn skipn]. destruct (IH n) as [F N]. cbn [app]. split; [constructor; [apply eqv_refl|exact F]|]. intros [|k] Hk; [reflexivity|]. cbn [nth_error]. apply N. congruence.
Qed.
Lemma revalued_rel n v t : Rel n t (revalued n v t).
Proof. unfold Rel, revalued. cbn [tx_version tx_locktime tx_outs tx_prevouts tx_sequence tx_outputs tx_ins]. repeat (split; [reflexivity|]). apply new_list. Qed.

Section Amount.
Variable Hash160 DS : bytes -> bytes.
Variable EcdsaVerify : bytes -> bytes -> bytes -> res unit.
Notation verify_input := (verify_input Hash160 DS EcdsaVerify).
Notation verify_from := (verify_from Hash160 DS EcdsaVerify).
Notation Verify := (TxModel.Verify Hash160 DS EcdsaVerify).

Lemma sig_ins_eqv idx l m : Forall2 eqv l m -> forall i b, write_sig_ins idx i l b = write_sig_ins idx i m b.
Proof. induction 1 as [|x y l m (v & ->) _ IH]; intros i b; [reflexivity|]. cbn [write_sig_ins new_value ti_index ti_hash ti_redeem ti_finallock ti_seq]. destruct (if i =? idx then _ else _); cbn [rbind]; [apply IH|reflexivity|reflexivity]. Qed.
Lemma raw_rel n idx ht t t' : Rel n t t' -> RawSignatureHash DS idx ht t = RawSignatureHash DS idx ht t'.
Proof.
  intros (V & K & O & _ & _ & _ & F & _). unfold RawSignatureHash. rewrite V, K, O, (sig_ins_eqv idx _ _ F). unfold len at 1. rewrite (eqv_len _ _ F). reflexivity.
Qed.
Lemma fold_eqv (f : buffer -> TxIn -> buffer) l m : (forall b i v, f b (blank (new_value v i)) = f b (blank i)) -> Forall2 eqv l m -> forall b, fold_left f (map blank l) b = fold_left f (map blank m) b.
Proof. intros E. induction 1 as [|x y l m (v & ->) _ IH]; intros b; [reflexivity|]. cbn [map fold_left]. rewrite IH. now rewrite E. Qed.
Lemma eff_rel n ht t t' : Rel n t t' -> eff_prevouts DS ht t = eff_prevouts DS ht t' /\ eff_sequence DS ht t = eff_sequence DS ht t' /\ eff_outputs DS ht t = eff_outputs DS ht t'.
Proof.
  intros (V & K & O & P & S & U & F & _). unfold eff_prevouts, eff_sequence, eff_outputs. rewrite P, S, U, O.
  rewrite (fold_eqv (fun b i => WriteU32 (ti_index i) (WriteBytes (ti_hash i) b)) _ _ ltac:(reflexivity) F), (fold_eqv (fun b i => WriteU32 (ti_seq i) b) _ _ ltac:(reflexivity) F). auto.
Qed.
Lemma index_rel n idx t t' : Rel n t t' -> idx <> Z.of_nat n -> index (tx_ins t) idx = index (tx_ins t') idx.
Proof. intros (_ & _ & _ & _ & _ & _ & _ & N) D. unfold index. destruct (idx <? 0) eqn:E; [reflexivity|]. rewrite N by lia. reflexivity. Qed.
Lemma whash_rel n idx ht t t' h t1 : Rel n t t' -> idx <> Z.of_nat n -> WitnessV0SignatureHash DS idx ht t = Ok (h, t1) -> exists t1', WitnessV0SignatureHash DS idx ht t' = Ok (h, t1') /\ Rel n t1 t1'.
Proof.
  intros R D. rewrite !whash_eq. rewrite <- (index_rel n idx t t' R D). destruct (index (tx_ins t) idx) as [i| |]; try discriminate. cbn [rbind]. intros X. apply ok_pair in X. destruct X as [Eh Et].
  destruct (eff_rel n ht t t' R) as (E1 & E2 & E3). eexists. split.
  - f_equal. f_equal. rewrite <- Eh. unfold eff. rewrite E1, E2, E3. destruct R as (V & K & _). now rewrite V, K.
  - rewrite <- Et. destruct R as (V & K & O & _ & _ & _ & F & N). unfold Rel, set_caches. cbn [tx_version tx_locktime tx_outs tx_prevouts tx_sequence tx_outputs tx_ins]. rewrite E1, E2, E3. auto 10.
Qed.
Lemma rel_sym n t t' : Rel n t t' -> Rel n t' t.
Proof.
  intros (V & K & O & P & S & U & F & N). unfold Rel. repeat (split; [congruence|]). split; [|intros k Hk; symmetry; now apply N].
  clear - F. induction F as [|x y l m (v & ->) _ IH]; constructor; [exists (ti_value x); now destruct x|exact IH].
Qed.
Lemma whash_fails n idx ht t t' : Rel n t t' -> idx <> Z.of_nat n -> (exists h t1, WitnessV0SignatureHash DS idx ht t = Ok (h, t1)) \/
  WitnessV0SignatureHash DS idx ht t = WitnessV0SignatureHash DS idx ht t' /\ forall p, WitnessV0SignatureHash DS idx ht t <> Ok p.
Proof. intros R D. rewrite !whash_eq. rewrite <- (index_rel n idx t t' R D). destruct (index (tx_ins t) idx) as [i| |]; cbn [rbind]; [left; eauto|right; split; [reflexivity|discriminate]..]. Qed.
Lemma digest_rel n idx w ht t t' : Rel n t t' -> idx <> Z.of_nat n \/ w = false -> sigHashFn DS idx w t ht = sigHashFn DS idx w t' ht.
Proof.
  intros R D. unfold sigHashFn. destruct w; [|now apply (raw_rel n)]. destruct D as [D|]; [|discriminate]. destruct (whash_fails n idx ht t t' R D) as [(h & t1 & E)|[E _]].
  - destruct (whash_rel n idx ht t t' h t1 R D E) as (t1' & E' & _). now rewrite E, E'.
  - now rewrite E.
Qed.
Lemma calls_rel n idx calls : idx <> Z.of_nat n -> forall t t', Rel n t t' -> Rel n (after_calls DS idx calls t) (after_calls DS idx calls t').
Proof.
  intros D. unfold after_calls. induction calls as [|c calls IH]; intros t t' R; [exact R|]. cbn [fold_left]. apply IH. destruct (whash_fails n idx c t t' R D) as [(h & t1 & E)|[E N]].
  - destruct (whash_rel n idx c t t' h t1 R D E) as (t1' & -> & R'). now rewrite E.
  - rewrite <- E. destruct (WitnessV0SignatureHash DS idx c t) as [[h t1]| |]; [now elim (N (h, t1))|exact R|exact R].
Qed.
Lemma verify_input_rel n idx i t t' : Rel n t t' -> idx <> Z.of_nat n \/ (exists s, ParseLockingScript (ti_rawlock i) = Ok s /\ witness_version s = false) -> verify_input idx i t = verify_input idx i t'.
Proof.
  intros R D. unfold TxModel.verify_input. destruct (ParseLockingScript (ti_rawlock i)) as [s| |] eqn:Ps; cbn [rbind]; [|reflexivity|reflexivity].
  pose proof (vm_verify_ext Hash160 (sigHashFn DS idx (witness_version s) t) (sigHashFn DS idx (witness_version s) t') EcdsaVerify) as X. match type of X with ?P -> _ => assert (Y : P); [|specialize (X Y); clear Y] end.
  2:{ specialize (X (ti_unlock i) (ti_finallock i) NewEngine). revert X. generalize (VmModel.Verify Hash160 (Some (sigHashFn DS idx (witness_version s) t)) (Some EcdsaVerify) (ti_unlock i) (ti_finallock i) NewEngine)
        (VmModel.Verify Hash160 (Some (sigHashFn DS idx (witness_version s) t')) (Some EcdsaVerify) (ti_unlock i) (ti_finallock i) NewEngine). intros x y ->. reflexivity. }
  intros ht. apply (digest_rel n); [exact R|]. destruct D as [D|(s' & Es & W)]; [now left|right]. congruence.
Qed.
Lemma verify_rel n ins js : Forall2 eqv ins js -> forall idx t t', Rel n t t' ->
  (forall k i, nth_error ins k = Some i -> idx + Z.of_nat k = Z.of_nat n -> exists s, ParseLockingScript (ti_rawlock i) = Ok s /\ witness_version s = false) ->
  verify_from idx ins t = verify_from idx js t'.
Proof.
  induction 1 as [|i j ins js (v & ->) F IH]; intros idx t t' R L; [reflexivity|]. cbn [TxModel.verify_from]. change (ti_rawlock (new_value v i)) with (ti_rawlock i). change (ti_unlock (new_value v i)) with (ti_unlock i). change (ti_finallock (new_value v i)) with (ti_finallock i).
  change (verify_input idx (new_value v i) t') with (verify_input idx i t'). assert (D : idx <> Z.of_nat n \/ exists s, ParseLockingScript (ti_rawlock i) = Ok s /\ witness_version s = false).
  { destruct (Z.eq_dec idx (Z.of_nat n)) as [->|N]; [right|now left]. apply (L 0%nat i eq_refl). lia. }
  rewrite <- (verify_input_rel n idx i t t' R D). destruct (verify_input idx i t) as [[]| |]; cbn [rbind]; [|reflexivity|reflexivity].
  destruct (ParseLockingScript (ti_rawlock i)) as [s| |] eqn:Ps; cbn [rbind]; [|reflexivity|reflexivity]. apply IH.
  - destruct (witness_version s) eqn:W; [|exact R]. assert (Dn : idx <> Z.of_nat n) by (destruct D as [D|(s' & Es & W')]; [exact D|congruence]).
    rewrite <- (verify_calls_ext Hash160 (sigHashFn DS idx true t) (sigHashFn DS idx true t')) by (intros ht; apply (digest_rel n); [exact R|now left]). now apply calls_rel.
  - intros k x Hk Ek. apply (L (S k) x Hk). lia.
Qed.
(** The amount noted with an input without witness does not matter. *)
Lemma amount_free n v t i s : nth_error (tx_ins t) n = Some i -> ParseLockingScript (ti_rawlock i) = Ok s -> witness_version s = false -> Verify (revalued n v t) = Verify t.
Proof.
  intros Hi Ps W. symmetry. unfold TxModel.Verify. pose proof (revalued_rel n v t) as R. apply (verify_rel n); [apply R|exact R|]. intros k j Hj Ek. assert (k = n) as -> by lia. assert (j = i) as -> by congruence. eauto.
Qed.

(** ** With witness, the amount is signed. *)
Lemma revalued_index n v t i : nth_error (tx_ins t) n = Some i -> index (tx_ins (revalued n v t)) (Z.of_nat n) = Ok (new_value v i).
Proof.
  clear. intros Hi. unfold index. replace (Z.of_nat n <? 0) with false by lia. rewrite Nat2Z.id. unfold revalued. cbn [tx_ins]. assert (L : (n < length (tx_ins t))%nat) by (apply nth_error_Some; congruence).
  rewrite nth_error_app2 by (rewrite firstn_length; lia). rewrite firstn_length, Nat.min_l, Nat.sub_diag by lia. clear - Hi. revert n Hi. induction (tx_ins t) as [|x l IH]; intros [|n] Hi; try discriminate; [injection Hi as ->; reflexivity|]. cbn [skipn]. now apply IH.
Qed.
Lemma witness_digest_amount n v t i ht dg dg' t1 t1' : nth_error (tx_ins t) n = Some i -> 0 <= v < 2 ^ 64 -> 0 <= ti_value i < 2 ^ 64 -> v <> ti_value i ->
  WitnessV0SignatureHash DS (Z.of_nat n) ht t = Ok (dg, t1) -> WitnessV0SignatureHash DS (Z.of_nat n) ht (revalued n v t) = Ok (dg', t1') -> exists x y, x <> y /\ dg = DS x /\ dg' = DS y.
Proof.
  intros Hi Rv Ri D. rewrite !whash_eq. assert (I : index (tx_ins t) (Z.of_nat n) = Ok i) by (unfold index; replace (Z.of_nat n <? 0) with false by lia; now rewrite Nat2Z.id, Hi).
  pose proof (revalued_index n v t i Hi) as J.
  rewrite I, J. cbn [rbind]. intros A B. apply ok_pair in A. destruct A as [A _]. apply ok_pair in B. destruct B as [B _]. destruct (eff_rel n ht t _ (revalued_rel n v t)) as (E1 & E2 & E3).
  unfold eff in B. rewrite <- E1, <- E2, <- E3 in B. change (tx_version (revalued n v t)) with (tx_version t) in B. change (tx_locktime (revalued n v t)) with (tx_locktime t) in B.
  unfold eff, v0_hash in A, B. eexists. eexists. split; [|split; [symmetry; exact A|symmetry; exact B]]. cbn [new_value ti_index ti_hash ti_code ti_seq ti_value].
  intros E. unfold Bytes in E. rewrite !data_U32, !data_bytes, !data_U32, !data_U64 in E.
  do 4 (apply app_inv_tail in E). apply app_inv_head in E. apply le_bytes_inj in E; [congruence|change (256 ^ Z.of_nat 8) with (2 ^ 64); assumption..].
Qed.
End Amount.

Section Lock.
Variable Hash160 sha256 DS : bytes -> bytes.
Variable prvkey : Type.
Variable PubKeyBytes : prvkey -> bool -> bytes.
Variable EcdsaSign : prvkey -> bytes -> res bytes.
Notation Build := (BuildTransaction Hash160 sha256 DS prvkey PubKeyBytes EcdsaSign).
Lemma built_sequences b t : Build b = Ok t -> Forall (fun i => ti_seq i = 0xffffffff) (tx_ins t) /\ tx_ins t <> [] /\ tx_locktime t = b_lockTime prvkey b.
Proof.
  intros E. destruct (build_spec Hash160 sha256 DS prvkey PubKeyBytes EcdsaSign b t E) as (a & ch & amt & G & C & N & _). destruct (core_parts t _ C) as (_ & K & _ & I). rewrite assemble_spec in K, I. cbn [tx_ins tx_locktime] in K, I.
  destruct (gather_spec Hash160 sha256 DS prvkey EcdsaSign _ _ _ G) as ((l & L & F) & _). cbn [ga_txins app] in L. rewrite L in *.
  assert (S : Forall (fun i => ti_seq i = 0xffffffff) l).
  { clear - F. induction F as [|c i cs l (sc & rd & _ & _ & Ei) _ IH]; constructor; [|exact IH]. unfold NewTxIn in Ei. apply rbind_ok in Ei. destruct Ei as (s & _ & Ei). injection Ei as <-. reflexivity. }
  split; [|split; [|exact K]].
  - assert (M : map ti_seq (tx_ins t) = map ti_seq l).
    { replace (map ti_seq (tx_ins t)) with (map ti_seq (map blank (tx_ins t))) by (rewrite map_map; reflexivity). rewrite I, map_map. reflexivity. }
    clear - M S. revert l S M. induction (tx_ins t) as [|x r IH]; intros [|y l] S M; try discriminate; constructor; cbn [map] in M; inversion S; subst; injection M as M1 M2; [congruence|eauto].
  - intros X. rewrite X in I. destruct l; [congruence|discriminate].
Qed.
Lemma each_core c ht : forall kss idx t t', sign_each sha256 prvkey PubKeyBytes EcdsaSign DS c ht idx kss t = Ok t' -> core t' = core t.
Proof.
  induction kss as [|ks kss IH]; intros idx t t' E; cbn [sign_each] in E; [now injection E as <-|]. apply rbind_ok in E. destruct E as (t1 & E1 & E). rewrite (IH _ _ _ E). eapply (sign_index_core Hash160); eauto.
Qed.
End Lock.
Lemma resequenced_held n s t height time i : nth_error (tx_ins t) n = Some i -> s <> 0xffffffff -> tx_locktime t <> 0 ->
  (final_at (resequenced n s t) height time <-> if tx_locktime t <? 500000000 then tx_locktime t < height else tx_locktime t < time).
Proof.
  intros Hi Hs Hl. unfold final_at, resequenced. cbn [tx_locktime tx_ins]. destruct (tx_locktime t <? 500000000) eqn:E.
  - split; [|intros; lia]. intros [H|[H|[H|H]]]; [lia..|]. exfalso. apply Forall_app in H. destruct H as [_ H]. apply Forall_app in H. destruct H as [H _]. apply Hs. clear - H Hi. revert n Hi H. induction (tx_ins t) as [|x l IH]; intros [|n] Hi H; try discriminate; [now inversion H|]. cbn [skipn] in H. eapply IH; eauto.
  - split; [|intros; lia]. intros [H|[H|[H|H]]]; [lia..|]. exfalso. apply Forall_app in H. destruct H as [_ H]. apply Forall_app in H. destruct H as [H _]. apply Hs. clear - H Hi. revert n Hi H. induction (tx_ins t) as [|x l IH]; intros [|n] Hi H; try discriminate; [now inversion H|]. cbn [skipn] in H. eapply IH; eauto.
Qed.

Lemma core_final t t' height time : core t = core t' -> final_at t height time -> final_at t' height time.
Proof.
  intros C. destruct (core_parts t t' C) as (_ & K & _ & I). unfold final_at. rewrite K. intros [H|[H|[H|H]]]; auto. do 3 right.
  assert (M : map ti_seq (tx_ins t) = map ti_seq (tx_ins t')).
  { replace (map ti_seq (tx_ins t)) with (map ti_seq (map blank (tx_ins t))) by (rewrite map_map; reflexivity). rewrite I, map_map. reflexivity. }
  clear - M H. revert M. generalize (tx_ins t'). induction H as [|x l Hx _ IH]; intros [|y m] M; try discriminate; constructor; cbn [map] in M; injection M as M1 M2; [congruence|auto].
Qed.
Lemma resequenced_signers Hash160 sha256 prvkey PubKeyBytes c kss n s t :
  Forall2 (signers Hash160 sha256 prvkey PubKeyBytes c) kss (tx_ins t) -> Forall2 (signers Hash160 sha256 prvkey PubKeyBytes c) kss (tx_ins (resequenced n s t)).
Proof.
  unfold resequenced. cbn [tx_ins]. intros F. assert (N : forall ks i, signers Hash160 sha256 prvkey PubKeyBytes c ks i -> signers Hash160 sha256 prvkey PubKeyBytes c ks (new_seq s i)).
  { intros ks i S. destruct S as [k i S|k i S|ks pubs r i M S|ks pubs r i M S]; [apply can_p2pkh|apply can_p2wpkh|eapply can_p2sh; [exact M|]|eapply can_p2wsh; [exact M|]]; exact S. }
  revert n. induction F as [|ks i kss l S F IH]; intros n; [rewrite !firstn_nil, !skipn_nil; constructor|]. destruct n as [|n]; cbn [firstn skipn map app].
  - constructor; [now apply N|exact F].
  - constructor; [exact S|apply IH].
Qed.
