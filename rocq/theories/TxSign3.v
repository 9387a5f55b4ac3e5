(** Whole transactions: sign every input, then verify. *)
From Verif Require Import GoBase BaseLemmas BufferModel BufferSpec BufferProofs BufferMore ScriptNumModel ScriptNumSpec ScriptNumProofs ScriptModel ScriptSpec ScriptProofs
  LockSpec LockModel VmModel VmSpec VmProofs VmMore VmSig VmCond VmPanic VmLock LockProofs VmCalls TxModel TxSpec TxSignSpec TxSign TxSign2.
From Coq Require Import ZifyBool ZifyNat ZifyN.

Lemma Forall2_len {A B} (P : A -> B -> Prop) l m : Forall2 P l m -> length l = length m.
Proof. induction 1; cbn [length]; congruence. Qed.

Section Whole.
Variable Hash160 sha256 DS : bytes -> bytes.
Variable prvkey : Type.
Variable PubKeyBytes : prvkey -> bool -> bytes.
Variable EcdsaSign : prvkey -> bytes -> res bytes.
Variable EcdsaVerify : bytes -> bytes -> bytes -> res unit.
Notation same := (same DS).
Notation digest := (sigHashFn DS).
Notation sign_loop := (sign_loop DS prvkey PubKeyBytes EcdsaSign).
Notation SignIndex := (SignIndex sha256 DS prvkey PubKeyBytes EcdsaSign).
Notation verify_input := (verify_input Hash160 DS EcdsaVerify).
Notation verify_from := (verify_from Hash160 DS EcdsaVerify).
Notation Verify := (TxModel.Verify Hash160 DS EcdsaVerify).
Notation scheme_ok := (scheme_ok prvkey PubKeyBytes EcdsaSign EcdsaVerify).
Notation hashes_ok := (hashes_ok Hash160 sha256).
Notation accepted := (accepted Hash160 DS EcdsaVerify).
Notation signers := (signers Hash160 sha256 prvkey PubKeyBytes).
Notation sign_each := (sign_each sha256 prvkey PubKeyBytes EcdsaSign DS).

Lemma sign_any idx c ht ks t i t' : scheme_ok -> hashes_ok -> 0 <= ht < 256 -> index (tx_ins t) idx = Ok i -> signers c ks i -> SignIndex idx c ht ks t = Ok t' ->
  same ht t t' /\ (forall n, n <> idx -> index (tx_ins t') n = index (tx_ins t) n) /\ exists i', index (tx_ins t') idx = Ok i' /\ accepted ht idx i' t'.
Proof.
  intros Sc Hs R Hi S E. destruct S as [k i S|k i S|ks pubs r i M S|ks pubs r i M S].
  - apply (sign_pkh Hash160 sha256 DS prvkey PubKeyBytes EcdsaSign EcdsaVerify false idx c ht k t i t'); assumption.
  - apply (sign_pkh Hash160 sha256 DS prvkey PubKeyBytes EcdsaSign EcdsaVerify true idx c ht k t i t'); assumption.
  - apply (sign_sh Hash160 sha256 DS prvkey PubKeyBytes EcdsaSign EcdsaVerify false idx c ht ks pubs r t i t'); assumption.
  - apply (sign_sh Hash160 sha256 DS prvkey PubKeyBytes EcdsaSign EcdsaVerify true idx c ht ks pubs r t i t'); assumption.
Qed.
(** One input. *)
Lemma signed_input_verifies idx c ht ks t i t' : scheme_ok -> hashes_ok -> 0 <= ht < 256 -> index (tx_ins t) idx = Ok i -> signers c ks i -> SignIndex idx c ht ks t = Ok t' ->
  exists i', index (tx_ins t') idx = Ok i' /\ verify_input idx i' t' = Ok tt.
Proof. intros Sc Hs R Hi S E. destruct (sign_any idx c ht ks t i t' Sc Hs R Hi S E) as (_ & _ & i' & Hi' & A). exists i'. split; [exact Hi'|]. apply (A t'). apply same_refl. Qed.

Lemma len_core t t' : core t = core t' -> len (tx_ins t) = len (tx_ins t').
Proof. unfold core. intros E. injection E as _ _ I _. unfold len. rewrite <- (map_length blank (tx_ins t)), <- (map_length blank (tx_ins t')). now rewrite I. Qed.
Lemma sign_each_spec c ht : scheme_ok -> hashes_ok -> 0 <= ht < 256 -> forall kss idx t t', 0 <= idx ->
  (forall n ks, nth_error kss n = Some ks -> exists i, index (tx_ins t) (idx + Z.of_nat n) = Ok i /\ signers c ks i) ->
  (forall n, 0 <= n < idx -> exists i, index (tx_ins t) n = Ok i /\ accepted ht n i t) ->
  sign_each c ht idx kss t = Ok t' ->
  same ht t t' /\ forall n, 0 <= n < idx + len kss -> exists i, index (tx_ins t') n = Ok i /\ accepted ht n i t'.
Proof.
  intros Sc Hs R. induction kss as [|ks kss IH]; intros idx t t' P Sg Ac E; cbn [TxSignSpec.sign_each] in E.
  - injection E as <-. split; [apply same_refl|]. intros n Hn. apply Ac. change (len []) with 0 in Hn. lia.
  - apply rbind_ok in E. destruct E as (t1 & E1 & E). destruct (Sg 0%nat ks eq_refl) as (i & Hi & Sk). rewrite Z.add_0_r in Hi.
    destruct (sign_any idx c ht ks t i t1 Sc Hs R Hi Sk E1) as (Sm & Oth & i' & Hi' & A).
    destruct (IH (idx + 1) t1 t' ltac:(lia)) as [Sm2 Ac2]; [| |exact E|].
    + intros n ks' Hn. destruct (Sg (S n) ks' Hn) as (j & Hj & Sj). exists j. split; [|exact Sj]. rewrite <- Hj, Oth by lia. f_equal. lia.
    + intros n Hn. destruct (Z.eq_dec n idx) as [->|Nn]; [exists i'; auto|]. destruct (Ac n ltac:(lia)) as (j & Hj & Aj). exists j. split; [rewrite Oth by exact Nn; exact Hj|].
      eapply accepted_same; eauto.
    + split; [eapply same_trans; eauto|]. intros n Hn. apply Ac2. rewrite len_cons in Hn. lia.
Qed.

Lemma after_calls_same ht idx calls : Forall (eq ht) calls -> forall t, same ht t (after_calls DS idx calls t).
Proof.
  unfold after_calls. induction 1 as [|x calls <- _ IH]; intros t; cbn [fold_left]; [apply same_refl|].
  destruct (WitnessV0SignatureHash DS idx ht t) as [[h t1]| |] eqn:E; [|apply IH|apply IH]. eapply same_trans; [exact (proj1 (whash_same DS idx ht t h t1 E))|apply IH].
Qed.
Lemma verify_accepted ht : forall ins idx t0 t, same ht t0 t -> (forall n i, nth_error ins n = Some i -> accepted ht (idx + Z.of_nat n) i t0) -> verify_from idx ins t = Ok tt.
Proof.
  induction ins as [|i ins IH]; intros idx t0 t Sm A; cbn [TxModel.verify_from]; [reflexivity|].
  destruct (A 0%nat i eq_refl t Sm) as (V & s & Ps & C). rewrite Z.add_0_r in V, C. rewrite V. cbn [rbind]. rewrite Ps. cbn [rbind].
  apply (IH (idx + 1) t0).
  - destruct (witness_version s); [|exact Sm]. eapply same_trans; [exact Sm|]. apply after_calls_same. now apply C.
  - intros n j Hn. replace (idx + 1 + Z.of_nat n) with (idx + Z.of_nat (S n)) by lia. now apply A.
Qed.

Lemma signed_verifies c ht kss t t' : scheme_ok -> hashes_ok -> 0 <= ht < 256 -> Forall2 (signers c) kss (tx_ins t) -> sign_each c ht 0 kss t = Ok t' -> Verify t' = Ok tt.
Proof.
  intros Sc Hs R F E. assert (L : len kss = len (tx_ins t)) by (unfold len; now rewrite (Forall2_len _ _ _ F)).
  destruct (sign_each_spec c ht Sc Hs R kss 0 t t' ltac:(lia)) as [Sm Ac]; [|intros n Hn; lia|exact E|].
  - clear E L. intros n ks Hn. rewrite ?Z.add_0_l. revert n Hn. unfold index. assert (X : forall n ks, nth_error kss n = Some ks -> exists i, nth_error (tx_ins t) n = Some i /\ signers c ks i).
    { induction F as [|k0 i0 kss ins S F IH]; intros [|n] ks' Hn; try discriminate; [injection Hn as <-; exists i0; auto|]. now apply IH. }
    intros n Hn. destruct (X n ks Hn) as (i & Ni & Si). exists i. replace (Z.of_nat n <? 0) with false by lia. rewrite Nat2Z.id, Ni. auto.
  - unfold TxModel.Verify. apply (verify_accepted ht _ 0 t' t'); [apply same_refl|]. intros n i Hn. rewrite ?Z.add_0_l.
    destruct (Ac (Z.of_nat n)) as (j & Hj & Aj).
    { assert (Q : nth_error (tx_ins t') n <> None) by congruence. apply nth_error_Some in Q. rewrite L, (len_core t t' (proj1 Sm)). unfold len. lia. }
    unfold index in Hj. replace (Z.of_nat n <? 0) with false in Hj by lia. rewrite Nat2Z.id, Hn in Hj. injection Hj as <-. exact Aj.
Qed.

(** Signing succeeds when the signature scheme does. *)
Lemma raw_hash_returns idx t ht : (forall i, index (tx_ins t) idx = Ok i -> ti_redeem i = None -> in_memory (ti_finallock i)) -> exists h, digest idx false t ht = Ok h.
Proof.
  intros Hr. unfold sigHashFn, RawSignatureHash. destruct (ht =? 1); cbn [rbind]; [|eauto].
  assert (X : forall ins k b, (forall x, nth_error ins (Z.to_nat (idx - k)) = Some x -> k <= idx -> ti_redeem x = None -> in_memory (ti_finallock x)) -> exists b', write_sig_ins idx k ins b = Ok b').
  { clear. induction ins as [|x r IH]; intros k b Hn; cbn [write_sig_ins]; [eauto|].
    destruct (k =? idx) eqn:K.
    - specialize (Hn x). replace (Z.to_nat (idx - k)) with 0%nat in Hn by lia. specialize (Hn eq_refl ltac:(lia)). destruct (ti_redeem x) as [rd|]; cbn [rbind].
      + apply IH. intros y _ L. lia.
      + rewrite (remove_unknown _ 0xab (Hn eq_refl) eq_refl). cbn [rbind]. apply IH. intros y _ L. lia.
    - cbn [rbind]. apply IH. intros y Ny Ly. apply (Hn y); [|lia]. replace (Z.to_nat (idx - k)) with (S (Z.to_nat (idx - (k + 1)))) by lia. exact Ny. }
  destruct (X (tx_ins t) 0 (WriteVarInt (u64 (len (tx_ins t))) (WriteU32 (tx_version t) NewBuffer))) as (b' & ->); [|cbn [rbind]; eauto].
  intros x Nx L. rewrite Z.sub_0_r in Nx. apply Hr. unfold index. replace (idx <? 0) with false by lia. now rewrite Nx.
Qed.
Definition signable (i : TxIn) : Prop := exists s, ParseLockingScript (ti_rawlock i) = Ok s /\ witness_version s = in_has_witness i /\ in_memory (ti_finallock i).
Lemma signable_blank i j : blank i = blank j -> signable i -> signable j.
Proof.
  intros B (s & P & W & M). assert (ti_rawlock i = ti_rawlock j /\ ti_code i = ti_code j /\ ti_finallock i = ti_finallock j) as (A & C & D) by (unfold blank in B; repeat split; congruence).
  exists s. unfold in_has_witness in *. rewrite <- A, <- C, <- D. auto.
Qed.
Lemma sign_loop_ok idx c ht : (forall k h, exists s, EcdsaSign k h = Ok s) -> forall ks t i, index (tx_ins t) idx = Ok i -> signable i -> exists r, sign_loop idx c ht ks t = Ok r.
Proof.
  intros Tot. induction ks as [|k ks IH]; intros t i Hi Sg; cbn [TxModel.sign_loop]; [eauto|]. rewrite Hi. cbn [rbind]. pose proof (index_nonneg _ _ _ Hi) as Ri. destruct Sg as (s & P & W & M).
  assert (X : exists sg t1, (if in_has_witness i then WitnessSignature DS prvkey EcdsaSign idx ht k t else RawSignature DS prvkey EcdsaSign idx ht k t) = Ok (sg, t1) /\
    exists i1, index (tx_ins t1) idx = Ok i1 /\ blank i = blank i1).
  { destruct (in_has_witness i) eqn:Wi.
    - unfold WitnessSignature. replace (len (tx_ins t) <=? idx) with false by lia. rewrite Hi. cbn [rbind]. rewrite P. cbn [rbind]. rewrite W. rewrite whash_eq, Hi. cbn [rbind].
      match goal with |- context [EcdsaSign k ?h] => destruct (Tot k h) as (sg & ->) end. cbn [rbind]. eexists _, _. split; [reflexivity|]. eexists. split; [apply index_set_in; exact Hi|reflexivity].
    - unfold RawSignature. replace (len (tx_ins t) <=? idx) with false by lia. rewrite Hi. cbn [rbind].
      destruct (raw_hash_returns idx t ht) as (h & Eh); [intros j Hj _; rewrite Hi in Hj; injection Hj as <-; exact M|]. unfold sigHashFn in Eh. rewrite Eh. cbn [rbind].
      destruct (Tot k h) as (sg & ->). cbn [rbind]. eexists _, _. split; [reflexivity|]. eexists. split; [apply index_set_in; exact Hi|reflexivity]. }
  destruct X as (sg & t1 & -> & i1 & Hi1 & B). cbn [rbind]. destruct (IH t1 i1 Hi1) as ((signs & t2) & E2); [apply (signable_blank i); [exact B|exists s; auto]|]. rewrite E2. cbn [rbind]. eauto.
Qed.
Lemma signers_signable c ks i : hashes_ok -> signers c ks i -> signable i.
Proof.
  intros [Hh Hs] S. destruct S as [k i S|k i S|ks pubs r i M S|ks pubs r i M S].
  - destruct S as (R & F & C). exists (P2PKH (Hash160 (PubKeyBytes k c))). rewrite R, F. unfold in_has_witness. rewrite C. pose proof (Hh (PubKeyBytes k c)) as [A B].
    split; [apply (parse_of (P2PKH _)); assumption|]. split; [reflexivity|apply (template_mem (P2PKH _)); assumption].
  - destruct S as (R & F & C). exists (P2WPKH (Hash160 (PubKeyBytes k c))). rewrite R, F. unfold in_has_witness. rewrite C. pose proof (Hh (PubKeyBytes k c)) as [A B].
    split; [apply (parse_of (P2WPKH _)); assumption|]. split; [reflexivity|apply (template_mem (P2PKH _)); assumption].
  - destruct S as (R & F & _ & C). exists (P2SH (Hash160 r)). rewrite R, F. unfold in_has_witness. rewrite C. pose proof (Hh r) as [A B].
    split; [apply (parse_of (P2SH _)); assumption|]. split; [reflexivity|apply (template_mem (P2SH _)); assumption].
  - destruct S as (R & F & _ & C). exists (P2WSH (sha256 r)). rewrite R, F. unfold in_has_witness. rewrite C. pose proof (Hh r) as [A B]. pose proof (Hs r) as [A' B'].
    split; [apply (parse_of (P2WSH _)); assumption|]. split; [reflexivity|apply (template_mem (P2SH _)); assumption].
Qed.
Lemma signers_blank c ks i j : blank i = blank j -> signers c ks i -> signers c ks j.
Proof.
  intros B S. assert (ti_rawlock i = ti_rawlock j /\ ti_code i = ti_code j /\ ti_finallock i = ti_finallock j /\ ti_redeem i = ti_redeem j) as (A & C & D & E) by (unfold blank in B; repeat split; congruence).
  destruct S as [k i S|k i S|ks pubs r i M S|ks pubs r i M S]; [apply can_p2pkh|apply can_p2wpkh|eapply can_p2sh; [exact M|]|eapply can_p2wsh; [exact M|]];
    unfold spends_p2pkh, spends_p2wpkh, spends_p2sh, spends_p2wsh in *; rewrite <- ?A, <- ?C, <- ?D, <- ?E; exact S.
Qed.
Lemma sign_succeeds idx c ht ks t i : scheme_ok -> hashes_ok -> 0 <= ht < 256 -> (forall k h, exists s, EcdsaSign k h = Ok s) -> index (tx_ins t) idx = Ok i -> signers c ks i -> exists t', SignIndex idx c ht ks t = Ok t'.
Proof.
  intros Sc Hs R Tot Hi S. pose proof (signers_signable c ks i Hs S) as Sg. unfold TxModel.SignIndex. rewrite Hi. cbn [rbind].
  assert (Rm : (1 <? len ks) && match ti_redeem i with Some _ => false | None => true end = false).
  { destruct S as [k i S|k i S|ks pubs r i M S|ks pubs r i M S]; [reflexivity|reflexivity|destruct S as (_ & _ & -> & _)|destruct S as (_ & _ & -> & _)]; apply andb_false_r. }
  rewrite Rm. destruct (sign_loop_ok idx c ht Tot ks t i Hi Sg) as ((signs & t1) & El). rewrite El. cbn [rbind].
  destruct (sign_loop_spec Hash160 sha256 DS prvkey PubKeyBytes EcdsaSign EcdsaVerify idx c ht ks t i signs t1 Hi El) as (Sm & _ & _ & _ & Ln).
  destruct (core_index t t1 idx i (proj1 Sm) Hi) as (j & Hj & B). symmetry in B. pose proof (signers_blank c ks i j B S) as Sj.
  unfold EmbedIdxSignature. rewrite Hj. cbn [rbind]. assert (Rj : ti_redeem j = ti_redeem i) by (unfold blank in B; congruence). rewrite Rj. replace (len signs) with (len ks) by (unfold len; now rewrite Ln). rewrite Rm.
  destruct Hs as [Hh Hs]. destruct Sj as [k j S'|k j S'|ks pubs r j M S'|ks pubs r j M S'].
  - destruct S' as (-> & _ & _). pose proof (Hh (PubKeyBytes k c)) as [A X]. change (p2pkh_script ?h) with (template (P2PKH h)). rewrite (parse_of (P2PKH _)) by assumption. cbn [rbind]. destruct signs as [|x signs]; [discriminate|]. cbn. eauto.
  - destruct S' as (-> & _ & _). pose proof (Hh (PubKeyBytes k c)) as [A X]. change (p2wpkh_script ?h) with (template (P2WPKH h)). rewrite (parse_of (P2WPKH _)) by assumption. cbn [rbind]. destruct signs as [|x signs]; [discriminate|]. cbn. eauto.
  - destruct S' as (-> & _ & _). pose proof (Hh r) as [A X]. change (p2sh_script ?h) with (template (P2SH h)). rewrite (parse_of (P2SH _)) by assumption. cbn [rbind]. cbn. eauto.
  - destruct S' as (-> & _ & Rd & _). pose proof (Hs r) as [A X]. change (p2wsh_script ?h) with (template (P2WSH h)). rewrite (parse_of (P2WSH _)) by assumption. cbn [rbind].
    rewrite <- Rj, Rd. cbn [nilb GetRawUnlockingScriptBytes GetWitnessUnlockingScriptBytes]. rewrite !list_Z_eqb_refl. cbn [negb rbind]. eauto.
Qed.
Lemma sign_each_succeeds c ht kss t : scheme_ok -> hashes_ok -> 0 <= ht < 256 -> (forall k h, exists s, EcdsaSign k h = Ok s) -> Forall2 (signers c) kss (tx_ins t) -> exists t', sign_each c ht 0 kss t = Ok t'.
Proof.
  intros Sc Hs R Tot F.
  assert (X : forall kss idx t, 0 <= idx -> (forall n ks, nth_error kss n = Some ks -> exists i, index (tx_ins t) (idx + Z.of_nat n) = Ok i /\ signers c ks i) -> exists t', sign_each c ht idx kss t = Ok t').
  { clear F kss t. induction kss as [|ks kss IH]; intros idx t P Sg; cbn [TxSignSpec.sign_each]; [eauto|]. destruct (Sg 0%nat ks eq_refl) as (i & Hi & Sk). rewrite Z.add_0_r in Hi.
    destruct (sign_succeeds idx c ht ks t i Sc Hs R Tot Hi Sk) as (t1 & E1). rewrite E1. cbn [rbind]. destruct (sign_any idx c ht ks t i t1 Sc Hs R Hi Sk E1) as (_ & Oth & _).
    apply IH; [lia|]. intros n ks' Hn. destruct (Sg (S n) ks' Hn) as (j & Hj & Sj). exists j. split; [|exact Sj]. rewrite <- Hj, Oth by lia. f_equal. lia. }
  apply X; [lia|]. clear X. assert (Y : forall n ks, nth_error kss n = Some ks -> exists i, nth_error (tx_ins t) n = Some i /\ signers c ks i).
  { induction F as [|k0 i0 kss ins S F IH]; intros [|n] ks' Hn; try discriminate; [injection Hn as <-; exists i0; auto|]. now apply IH. }
  intros n ks Hn. destruct (Y n ks Hn) as (i & Ni & Si). exists i. rewrite ?Z.add_0_l. unfold index. replace (Z.of_nat n <? 0) with false by lia. rewrite Nat2Z.id, Ni. auto.
Qed.

Lemma mixed_whole c ht kss t : scheme_ok -> hashes_ok -> 0 <= ht < 256 -> Forall2 (signers c) kss (tx_ins t) ->
  (forall t', sign_each c ht 0 kss t = Ok t' -> Verify t' = Ok tt) /\ ((forall k h, exists s, EcdsaSign k h = Ok s) -> exists t', sign_each c ht 0 kss t = Ok t').
Proof. intros Sc Hs R F. split; [intros t'; now apply signed_verifies|intros T; now apply sign_each_succeeds]. Qed.
Lemma p2pkh_whole c ht ks t : scheme_ok -> hashes_ok -> 0 <= ht < 256 -> Forall2 (fun k i => spends_p2pkh (Hash160 (PubKeyBytes k c)) i) ks (tx_ins t) ->
  (forall t', sign_each c ht 0 (map (fun k => [k]) ks) t = Ok t' -> Verify t' = Ok tt) /\
  ((forall k h, exists s, EcdsaSign k h = Ok s) -> exists t', sign_each c ht 0 (map (fun k => [k]) ks) t = Ok t').
Proof. intros Sc Hs R F. apply mixed_whole; auto. induction F; cbn [map]; constructor; [now apply can_p2pkh|assumption]. Qed.
Lemma any_input idx c ht ks t i : scheme_ok -> hashes_ok -> 0 <= ht < 256 -> index (tx_ins t) idx = Ok i -> signers c ks i ->
  (forall t', SignIndex idx c ht ks t = Ok t' -> exists i', index (tx_ins t') idx = Ok i' /\ verify_input idx i' t' = Ok tt) /\
  ((forall k h, exists s, EcdsaSign k h = Ok s) -> exists t', SignIndex idx c ht ks t = Ok t').
Proof. intros Sc Hs R Hi S. split; [intros t'; now apply signed_input_verifies with (i := i)|intros T; now apply (sign_succeeds idx c ht ks t i)]. Qed.
Lemma p2wpkh_input idx c ht k t i : scheme_ok -> hashes_ok -> 0 <= ht < 256 -> index (tx_ins t) idx = Ok i -> spends_p2wpkh (Hash160 (PubKeyBytes k c)) i ->
  (forall t', SignIndex idx c ht [k] t = Ok t' -> exists i', index (tx_ins t') idx = Ok i' /\ verify_input idx i' t' = Ok tt) /\
  ((forall k h, exists s, EcdsaSign k h = Ok s) -> exists t', SignIndex idx c ht [k] t = Ok t').
Proof. intros Sc Hs R Hi S. apply (any_input idx c ht [k] t i); auto. now apply can_p2wpkh. Qed.
Lemma multisig_input idx c ht ks pubs r t i : scheme_ok -> hashes_ok -> 0 <= ht < 256 -> index (tx_ins t) idx = Ok i ->
  multisig_for prvkey PubKeyBytes c ks pubs r -> spends_p2sh Hash160 r i \/ spends_p2wsh Hash160 sha256 r i ->
  (forall t', SignIndex idx c ht ks t = Ok t' -> exists i', index (tx_ins t') idx = Ok i' /\ verify_input idx i' t' = Ok tt) /\
  ((forall k h, exists s, EcdsaSign k h = Ok s) -> exists t', SignIndex idx c ht ks t = Ok t').
Proof. intros Sc Hs R Hi M [S|S]; apply (any_input idx c ht ks t i); auto; [eapply can_p2sh|eapply can_p2wsh]; eauto. Qed.

(** Inputs made by NewTxIn from the output scripts are of the described forms. *)
Lemma new_spends hash n v redeem (h r : bytes) i : hashes_ok ->
  (len h = 20 -> bytes_ok h -> NewTxIn Hash160 hash n v (p2pkh_script h) redeem = Ok i -> spends_p2pkh h i) /\
  (len h = 20 -> bytes_ok h -> NewTxIn Hash160 hash n v (p2wpkh_script h) redeem = Ok i -> spends_p2wpkh h i) /\
  (NewTxIn Hash160 hash n v (p2sh_script (Hash160 r)) (Some r) = Ok i -> spends_p2sh Hash160 r i) /\
  (NewTxIn Hash160 hash n v (p2wsh_script (sha256 r)) (Some r) = Ok i -> spends_p2wsh Hash160 sha256 r i).
Proof.
  intros [Hh Hs]. unfold NewTxIn. split; [|split; [|split]].
  - intros L O. change (p2pkh_script h) with (template (P2PKH h)) at 1. rewrite (parse_of (P2PKH h)) by assumption. cbn [rbind]. intros E. injection E as <-. repeat split; cbn [ti_rawlock ti_finallock GetFinalLockingScriptBytes]; apply (raw_locking (P2PKH h)); assumption.
  - intros L O. change (p2wpkh_script h) with (template (P2WPKH h)) at 1. rewrite (parse_of (P2WPKH h)) by assumption. cbn [rbind]. intros E. injection E as <-.
    repeat split; cbn [ti_rawlock ti_finallock ti_code GetWitnessScriptCode GetFinalLockingScriptBytes]; [apply (raw_locking (P2WPKH h))|apply (raw_locking (P2PKH h))|f_equal; apply (raw_locking (P2PKH h))]; assumption.
  - pose proof (Hh r) as [O L]. change (p2sh_script (Hash160 r)) with (template (P2SH (Hash160 r))) at 1. rewrite (parse_of (P2SH _)) by assumption. cbn [rbind]. intros E. injection E as <-.
    repeat split; cbn [ti_rawlock ti_finallock GetFinalLockingScriptBytes]; apply (raw_locking (P2SH _)); assumption.
  - pose proof (Hh r) as [O L]. pose proof (Hs r) as [O' L']. change (p2wsh_script (sha256 r)) with (template (P2WSH (sha256 r))) at 1. rewrite (parse_of (P2WSH _)) by assumption. cbn [rbind]. intros E. injection E as <-.
    repeat split; cbn [ti_rawlock ti_finallock GetFinalLockingScriptBytes nilb]; [apply (raw_locking (P2WSH _))|apply (raw_locking (P2SH _))]; assumption.
Qed.
End Whole.
