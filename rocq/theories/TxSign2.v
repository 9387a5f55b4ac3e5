(** Signing makes inputs verify. *)
From Verif Require Import GoBase BaseLemmas BufferModel BufferSpec BufferProofs BufferMore ScriptNumModel ScriptNumSpec ScriptNumProofs ScriptModel ScriptSpec ScriptProofs
  LockSpec LockModel VmModel VmSpec VmProofs VmMore VmSig VmCond VmPanic VmLock LockProofs VmCalls TxModel TxSpec TxSignSpec TxSign.
From Coq Require Import ZifyBool ZifyNat ZifyN.

(** The redeem script of a multisig output. *)
Lemma multisig_script m pubs r : GenMultiSigScript m pubs = Ok r -> 0 <= m -> Forall (fun p => bytes_ok p /\ 2 <= len p <= 100) pubs -> len pubs < 2 ^ 20 ->
  m <= len pubs /\ bytes_ok r /\ 2 <= len r < 2 ^ 31 /\
  exists im mb iks ine nb, script_of (multi_instrs im iks ine) r /\ pushes im mb /\ Forall2 pushes iks pubs /\ pushes ine nb /\ num_item nb (len pubs) /\ num_item mb m.
Proof.
  intros E Hm F L. unfold GenMultiSigScript in E. destruct (len pubs <? m) eqn:C; [discriminate|]. pose proof (len_nonneg pubs).
  assert (I : forall v n, 0 <= n < 2 ^ 20 -> enc_num v n -> num_item v n).
  { intros v n Hn Ev. split; [exact Ev|]. destruct Ev as (_ & Vv & Mv). apply (Mv [n mod 256; (n / 256) mod 256; n / 65536; 0]).
    - pose proof (Z.mod_pos_bound n 256 ltac:(lia)). pose proof (Z.mod_pos_bound (n / 256) 256 ltac:(lia)).
      pose proof (Z.div_pos n 65536 ltac:(lia) ltac:(lia)). pose proof (Z.div_lt_upper_bound n 65536 256 ltac:(lia) ltac:(lia)). repeat (apply bytes_ok_cons; split; [unfold is_byte; lia|]). constructor.
    - rewrite Vv. unfold num_value. cbn [removelast last le_value]. change (0 <? 128) with true. cbv iota.
      pose proof (Z.div_mod n 256 ltac:(lia)). pose proof (Z.div_mod (n / 256) 256 ltac:(lia)) as D. rewrite Z.div_div in D by lia. change (256 * 256) with 65536 in D. lia. }
  destruct (AddInt64_spec m NewScriptBuilder ltac:(lia) ltac:(lia)) as (b1 & im & e1 & mb & E1 & S1 & O1 & L1 & En1 & P1 & N1). rewrite E1 in E. cbn [rbind] in E.
  destruct (add_items pubs 100 ltac:(lia)) with (b := b1) as (iks & e2 & S2 & O2 & L2 & So2 & P2).
  { apply (Forall_impl _ (P := fun p => bytes_ok p /\ 2 <= len p <= 100)); [|exact F]. intros p [Op Lp]. split; [exact Op|]. split; [lia|]. split; intros ->; vm_compute in Lp; intuition congruence. }
  { apply (Forall_impl _ (P := fun p => bytes_ok p /\ 2 <= len p <= 100)); [|exact F]. intros p [Op Lp]. lia. }
  destruct (AddInt64_spec (len pubs) (fold_left (fun b k => AddData k b) pubs b1) ltac:(lia) ltac:(lia)) as (b3 & ine & e3 & nb & E3 & S3 & O3 & L3 & En3 & P3 & N3).
  rewrite E3 in E. cbn [rbind] in E. injection E as E.
  assert (Er : r = e1 ++ e2 ++ e3 ++ [0xae]).
  { rewrite <- E. unfold AddOp, Script, Bytes, WriteU8. cbn [bdata]. unfold Script, Bytes in S3. rewrite S3. unfold Script, Bytes in S2. rewrite S2. unfold Script, Bytes in S1. rewrite S1.
    change (bdata NewScriptBuilder) with (@nil Z). cbn [app]. now rewrite <- !app_assoc. }
  assert (Ne : 1 <= len e1). { pose proof (encodes_nonempty _ _ En1). destruct e1; [congruence|]. rewrite len_cons. pose proof (len_nonneg e1). lia. }
  split; [lia|]. split; [rewrite Er, !bytes_ok_app; repeat split; auto; bytes_ok_tac|].
  split; [rewrite Er, !len_app; change (len [0xae]) with 1; pose proof (len_nonneg e2); pose proof (len_nonneg e3); lia|].
  exists im, mb, iks, ine, nb. split; [|split; [exact P1|]; split; [exact P2|]; split; [exact P3|]; split; apply I; auto; lia].
  rewrite Er. unfold multi_instrs. constructor; [exact En1|]. apply script_of_app; [exact So2|]. constructor; [exact En3|]. apply encodes_script. constructor. vm_compute. tauto.
Qed.

Section Signing.
Variable Hash160 sha256 DS : bytes -> bytes.
Variable prvkey : Type.
Variable PubKeyBytes : prvkey -> bool -> bytes.
Variable EcdsaSign : prvkey -> bytes -> res bytes.
Variable EcdsaVerify : bytes -> bytes -> bytes -> res unit.
Notation same := (same DS).
Notation digest := (sigHashFn DS).
Notation sign_loop := (sign_loop DS prvkey PubKeyBytes EcdsaSign).
Notation SignIndex := (SignIndex sha256 DS prvkey PubKeyBytes EcdsaSign).
Notation verify_input := (verify_input Hash160 DS EcdsaVerify).
Notation scheme_ok := (scheme_ok prvkey PubKeyBytes EcdsaSign EcdsaVerify).
Notation hashes_ok := (hashes_ok Hash160 sha256).

(** What the loop over the keys produces. *)
Definition signed_by (c : bool) (ht : Z) (h : bytes) (k : prvkey) (s : PubKeySign) : Prop :=
  pks_key s = PubKeyBytes k c /\ exists der, EcdsaSign k h = Ok der /\ pks_sig s = der ++ [u8 ht].
Lemma sign_loop_spec idx c ht ks : forall t i signs t', index (tx_ins t) idx = Ok i -> sign_loop idx c ht ks t = Ok (signs, t') ->
  same ht t t' /\ (exists i', index (tx_ins t') idx = Ok i') /\ (forall k, k <> idx -> index (tx_ins t') k = index (tx_ins t) k) /\
  (ks = [] \/ exists h, digest idx (in_has_witness i) t ht = Ok h /\ Forall2 (signed_by c ht h) ks signs) /\ length signs = length ks.
Proof.
  induction ks as [|k ks IH]; intros t i signs t' Hi E; cbn [TxModel.sign_loop] in E.
  - injection E as <- <-. repeat split; eauto.
  - rewrite Hi in E. cbn [rbind] in E. apply rbind_ok in E. destruct E as ((sg & t1) & E1 & E). apply rbind_ok in E. destruct E as ((signs1 & t2) & E2 & E). injection E as <- <-.
    pose proof (index_nonneg _ _ _ Hi) as Ri.
    assert (S1 : same ht t t1 /\ (exists i1, index (tx_ins t1) idx = Ok i1 /\ in_has_witness i1 = in_has_witness i) /\ (forall n, n <> idx -> index (tx_ins t1) n = index (tx_ins t) n) /\
      exists h der, digest idx (in_has_witness i) t ht = Ok h /\ EcdsaSign k h = Ok der /\ sg = der ++ [u8 ht]).
    { destruct (in_has_witness i) eqn:W.
      - unfold WitnessSignature in E1. destruct (len (tx_ins t) <=? idx); [discriminate|]. rewrite Hi in E1. cbn [rbind] in E1. apply rbind_ok in E1. destruct E1 as (s & _ & E1).
        destruct (witness_version s); [|discriminate]. apply rbind_ok in E1. destruct E1 as ((h & t0) & Eh & E1). apply rbind_ok in E1. destruct E1 as (der & Es & E1). injection E1 as <- <-.
        destruct (whash_same DS idx ht t h t0 Eh) as [Sm It].
        split; [eapply same_trans; [exact Sm|apply set_in_same; reflexivity]|]. rewrite <- It in Hi. split; [exists (with_sighash h i); split; [now apply index_set_in|exact W]|].
        split; [intros n Nn; rewrite index_set_other by lia; now rewrite It|]. exists h, der. split; [unfold sigHashFn; now rewrite Eh|auto].
      - unfold RawSignature in E1. destruct (len (tx_ins t) <=? idx); [discriminate|]. rewrite Hi in E1. cbn [rbind] in E1. apply rbind_ok in E1. destruct E1 as (h & Eh & E1).
        apply rbind_ok in E1. destruct E1 as (der & Es & E1). injection E1 as <- <-.
        split; [apply set_in_same; reflexivity|]. split; [exists (with_sighash h i); split; [now apply index_set_in|exact W]|].
        split; [intros n Nn; now rewrite index_set_other by lia|]. exists h, der. split; [exact Eh|auto]. }
    destruct S1 as (S1 & (i1 & Hi1 & W1) & O1 & h & der & Dh & Es & ->). destruct (IH t1 i1 signs1 t2 Hi1 E2) as (S2 & I2 & O2 & D2 & L2).
    split; [eapply same_trans; eauto|]. split; [exact I2|]. split; [intros n Nn; rewrite O2, O1 by exact Nn; reflexivity|].
    split; [|cbn [length]; lia]. right. exists h. split; [exact Dh|]. constructor; [split; [reflexivity|]; exists der; auto|].
    destruct D2 as [->|(h2 & Dh2 & F2)]; [destruct signs1; [constructor|discriminate]|]. rewrite W1, <- (same_digest DS ht idx _ t t1 S1), Dh in Dh2. injection Dh2 as <-. exact F2.
Qed.

(** What EmbedIdxSignature leaves behind, for the four script types. *)
Lemma template_mem s : bytes_ok (obj_hash s) -> len (obj_hash s) = obj_len s -> in_memory (template s).
Proof.
  intros O L. destruct s; cbn [obj_hash obj_len template] in *; unfold p2pkh_script, p2sh_script, p2wpkh_script, p2wsh_script; (split; [rewrite !bytes_ok_app; repeat split; auto; bytes_ok_tac|]);
    rewrite !len_app, L; vm_compute; discriminate.
Qed.
Lemma parse_of s : bytes_ok (obj_hash s) -> len (obj_hash s) = obj_len s -> ParseLockingScript (template s) = Ok s.
Proof. intros O L. apply parse_template; [now apply template_mem|auto]. Qed.
Lemma embed_spec idx signs t i s u w : index (tx_ins t) idx = Ok i -> ti_rawlock i = template s -> bytes_ok (obj_hash s) -> len (obj_hash s) = obj_len s ->
  (1 <? len signs) && (match ti_redeem i with None => true | Some _ => false end) = false ->
  GetRawUnlockingScriptBytes sha256 s signs (nilb (ti_redeem i)) = Ok u -> GetWitnessUnlockingScriptBytes sha256 s signs (nilb (ti_redeem i)) = Ok w ->
  EmbedIdxSignature sha256 idx signs t = Ok (set_in idx (fun i => with_witness w (with_unlock u i)) t).
Proof. intros Hi R O L C Eu Ew. unfold EmbedIdxSignature. rewrite Hi. cbn [rbind]. rewrite C, R, (parse_of s O L). cbn [rbind]. rewrite Eu, Ew. reflexivity. Qed.

(** [accepted ht idx i t]: input [i] verifies at [idx] of every transaction with the same core and the same effective
    digests for [ht] as [t], asking for no other type. *)
Definition accepted (ht idx : Z) (i : TxIn) (t : transaction) : Prop := forall t', same ht t t' ->
  verify_input idx i t' = Ok tt /\ exists s, ParseLockingScript (ti_rawlock i) = Ok s /\
    (witness_version s = true -> Forall (eq ht) (verify_calls Hash160 (digest idx true t') EcdsaVerify (ti_unlock i) (ti_finallock i) NewEngine)).
Lemma accepted_same ht idx i t t' : same ht t t' -> accepted ht idx i t -> accepted ht idx i t'.
Proof. intros S A t2 S2. apply A. eapply same_trans; eauto. Qed.

Lemma pks_pushable c ht h k x : scheme_ok -> 0 <= ht < 256 -> signed_by c ht h k x ->
  pushable (pks_sig x) /\ len (pks_sig x) <= 101 /\ pushable (pks_key x) /\ len (pks_key x) <= 100 /\ exists der, pks_sig x = der ++ [ht] /\ EcdsaSign k h = Ok der.
Proof.
  intros (_ & _ & Sg & Pk) R (Ek & der & Es & E). destruct (Sg k h der Es) as [Od Ld]. destruct (Pk k c) as [Op Lp]. rewrite u8_id in E by lia.
  assert (Ls : 2 <= len (pks_sig x) <= 101) by (rewrite E, len_app; change (len [ht]) with 1; lia).
  assert (Os : bytes_ok (pks_sig x)). { rewrite E, bytes_ok_app. split; [exact Od|]. constructor; [unfold is_byte; lia|constructor]. }
  split; [repeat split; [exact Os|lia|intros X; rewrite X in Ls; vm_compute in Ls; intuition congruence..]|]. split; [lia|].
  rewrite Ek. split; [repeat split; [exact Op|lia|intros X; rewrite X in Lp; vm_compute in Lp; intuition congruence..]|]. split; [lia|]. eauto.
Qed.

Lemma template_eqs r : p2sh_script r = template (P2SH r) /\ p2pkh_script r = template (P2PKH r) /\ p2wpkh_script r = template (P2WPKH r) /\ p2wsh_script r = template (P2WSH r).
Proof. auto. Qed.

(** Public key hash inputs, base and witness. *)
Lemma sign_pkh (w : bool) idx c ht k t i t' : scheme_ok -> hashes_ok -> 0 <= ht < 256 ->
  index (tx_ins t) idx = Ok i ->
  (if w then spends_p2wpkh (Hash160 (PubKeyBytes k c)) i else spends_p2pkh (Hash160 (PubKeyBytes k c)) i) ->
  SignIndex idx c ht [k] t = Ok t' ->
  same ht t t' /\ (forall n, n <> idx -> index (tx_ins t') n = index (tx_ins t) n) /\ exists i', index (tx_ins t') idx = Ok i' /\ accepted ht idx i' t'.
Proof.
  intros Sc [Hh _] R Hi Sp E. pose proof (Hh (PubKeyBytes k c)) as [Oh Lh]. set (h := Hash160 (PubKeyBytes k c)) in *.
  set (s := if w then P2WPKH h else P2PKH h).
  assert (Raw : ti_rawlock i = template s) by (destruct w; apply Sp). assert (Fin : ti_finallock i = p2pkh_script h) by (destruct w; apply Sp).
  assert (Wi : in_has_witness i = w) by (unfold in_has_witness; destruct w; destruct Sp as (_ & _ & ->); reflexivity).
  assert (Os : bytes_ok (obj_hash s) /\ len (obj_hash s) = obj_len s /\ witness_version s = w) by (destruct w; auto). destruct Os as (Os & Ls & Wv).
  unfold TxModel.SignIndex in E. rewrite Hi in E. cbn [rbind] in E. change (1 <? len [k]) with false in E. cbn [andb] in E.
  apply rbind_ok in E. destruct E as ((signs & t1) & El & E). destruct (sign_loop_spec idx c ht [k] t i signs t1 Hi El) as (S1 & (i1 & Hi1) & Oth & [X|(dg & Dg & F)] & _); [discriminate|].
  destruct signs as [|x [|y signs]]; [inversion F| |inversion F as [|? ? ? ? _ Fn]; inversion Fn]. assert (Fx : signed_by c ht dg k x) by now inversion F. destruct (pks_pushable c ht dg k x Sc R Fx) as (Ps & Bs & Pk & Bk & der & Ed & Es).
  destruct (core_index t t1 idx i (proj1 S1) Hi) as (i1' & Hi1' & Bl). rewrite Hi1 in Hi1'. injection Hi1' as <-.
  assert (Raw1 : ti_rawlock i1 = template s) by (rewrite <- Raw; unfold blank in Bl; congruence). assert (Fin1 : ti_finallock i1 = p2pkh_script h) by (rewrite <- Fin; unfold blank in Bl; congruence).
  destruct (add_item (pks_sig x) NewScriptBuilder Ps) as (j1 & e1 & E1 & Oe1 & Le1 & En1 & P1).
  destruct (add_item (pks_key x) (AddData (pks_sig x) NewScriptBuilder) Pk) as (j2 & e2 & E2 & Oe2 & Le2 & En2 & P2).
  set (u := Script (AddData (pks_key x) (AddData (pks_sig x) NewScriptBuilder))) in *.
  assert (Eu : u = e1 ++ e2) by (rewrite E2, E1; reflexivity).
  assert (Su : script_of [j1; j2] u) by (rewrite Eu; constructor; [exact En1|now apply encodes_script]).
  assert (Em : exists ws, EmbedIdxSignature sha256 idx [x] t1 = Ok (set_in idx (fun i => with_witness ws (with_unlock u i)) t1)).
  { destruct w; eexists; apply (embed_spec idx [x] t1 i1 s u); auto; reflexivity. }
  destruct Em as (ws & Em). rewrite Em in E. injection E as <-. clearbody s.
  assert (S2 : same ht t1 (set_in idx (fun i => with_witness ws (with_unlock u i)) t1)) by (apply set_in_same; reflexivity).
  split; [eapply same_trans; eauto|]. split; [intros n Nn; rewrite index_set_other by (pose proof (index_nonneg _ _ _ Hi); lia); now apply Oth|].
  eexists. split; [apply index_set_in; exact Hi1|]. intros t2 St. cbn [ti_rawlock ti_unlock ti_finallock with_witness with_unlock]. rewrite Raw1, Fin1.
  assert (Dg2 : digest idx w t2 ht = Ok dg).
  { rewrite <- Wi. rewrite <- Dg. symmetry. apply same_digest. eapply same_trans; [exact S1|]. eapply same_trans; eauto. }
  assert (V : valid_sig (digest idx w t2) EcdsaVerify (pks_sig x) (pks_key x)).
  { exists der, ht, dg. split; [exact Ed|]. split; [exact Dg2|]. destruct Fx as [-> _]. apply (proj1 Sc); exact Es. }
  assert (M : in_memory (u ++ p2pkh_script h)).
  { split; [rewrite Eu; unfold p2pkh_script; rewrite !bytes_ok_app; repeat split; auto; bytes_ok_tac|]. rewrite Eu. unfold p2pkh_script. rewrite !len_app. change (len [118; 169; 20]) with 3. change (len [136; 172]) with 2. lia. }
  rewrite Ed in *. assert (Hk : Hash160 (pks_key x) = h) by (destruct Fx as [-> _]; reflexivity).
  destruct (p2pkh_verified Hash160 (digest idx w t2) EcdsaVerify u h [j1; j2] der ht (pks_key x) M Lh Su) as [(st & Ev) Calls]; [repeat constructor; assumption|exact Hk|exact V|].
  unfold TxModel.verify_input. cbn [ti_rawlock ti_unlock ti_finallock with_witness with_unlock]. rewrite Raw1, Fin1. rewrite (parse_of s Os Ls). cbn [rbind]. rewrite Wv, Ev. split; [reflexivity|].
  exists s. split; [reflexivity|]. intros Wt. rewrite Wv in Wt. rewrite Wt in Calls. rewrite Calls. constructor; [reflexivity|constructor].
Qed.

(** Script hash inputs holding a multisig redeem script, base and witness. *)
Lemma fold_sigs signs : forall b, fold_left (fun b s => AddData (pks_sig s) b) signs b = fold_left (fun b d => AddData d b) (map pks_sig signs) b.
Proof. induction signs as [|x l IH]; intros b; [reflexivity|]. cbn [fold_left map]. apply IH. Qed.
Lemma matched_signs c ht h ks signs pubs (V : bytes -> bytes -> Prop) : (forall k x, signed_by c ht h k x -> V (pks_sig x) (PubKeyBytes k c)) ->
  Forall2 (signed_by c ht h) ks signs -> matched (fun k p => p = PubKeyBytes k c) ks pubs -> matched V (map pks_sig signs) pubs.
Proof.
  intros Hv F M. revert signs F. induction M as [|k ks p ps E M IH|ks p ps M IH]; intros signs F.
  - inversion F; subst. constructor.
  - inversion F as [|? x ? signs' Fx F']; subst. cbn [map]. constructor; auto.
  - constructor. auto.
Qed.
Lemma hasher_returns w idx t i ht : index (tx_ins t) idx = Ok i -> ti_redeem i <> None -> exists h, digest idx w t ht = Ok h.
Proof.
  intros Hi Hr. unfold sigHashFn. destruct w.
  - rewrite whash_eq, Hi. cbn [rbind]. eauto.
  - unfold RawSignatureHash. destruct (ht =? 1); cbn [rbind]; [|eauto].
    assert (X : forall ins k b, (forall x, nth_error ins (Z.to_nat (idx - k)) = Some x -> k <= idx -> ti_redeem x <> None) -> exists b', write_sig_ins idx k ins b = Ok b').
    { clear. induction ins as [|x r IH]; intros k b Hn; cbn [write_sig_ins]; [eauto|].
      destruct (k =? idx) eqn:K.
      - specialize (Hn x). replace (Z.to_nat (idx - k)) with 0%nat in Hn by lia. specialize (Hn eq_refl ltac:(lia)). destruct (ti_redeem x) as [rd|]; [|congruence]. cbn [rbind]. apply IH. intros y _ L. lia.
      - cbn [rbind]. apply IH. intros y Ny Ly. apply (Hn y); [|lia]. replace (Z.to_nat (idx - k)) with (S (Z.to_nat (idx - (k + 1)))) by lia. exact Ny. }
    destruct (X (tx_ins t) 0 (WriteVarInt (u64 (len (tx_ins t))) (WriteU32 (tx_version t) NewBuffer))) as (b' & ->); [|cbn [rbind]; eauto].
    intros x Nx L. rewrite Z.sub_0_r in Nx. unfold index in Hi. destruct (idx <? 0); [discriminate|]. rewrite Nx in Hi. injection Hi as ->. exact Hr.
Qed.
Lemma sign_sh (w : bool) idx c ht ks pubs r t i t' : scheme_ok -> hashes_ok -> 0 <= ht < 256 ->
  index (tx_ins t) idx = Ok i -> multisig_for prvkey PubKeyBytes c ks pubs r ->
  (if w then spends_p2wsh Hash160 sha256 r i else spends_p2sh Hash160 r i) ->
  SignIndex idx c ht ks t = Ok t' ->
  same ht t t' /\ (forall n, n <> idx -> index (tx_ins t') n = index (tx_ins t) n) /\ exists i', index (tx_ins t') idx = Ok i' /\ accepted ht idx i' t'.
Proof.
  intros Sc [Hh Hs] R Hi (Gm & Nk & Mt & Fp & Lp) Sp E. pose proof (Hh r) as [Oh Lh]. pose proof (Hs r) as [Oh' Lh'].
  destruct (multisig_script (len ks) pubs r Gm (len_nonneg ks) Fp Lp) as (Lm & Or & Lr & im & mb & iks & ine & nb & Sr & Pm & Pks & Pn & In & Im).
  set (s := if w then P2WSH (sha256 r) else P2SH (Hash160 r)).
  assert (Raw : ti_rawlock i = template s) by (destruct w; apply Sp). assert (Fin : ti_finallock i = p2sh_script (Hash160 r)) by (destruct w; apply Sp).
  assert (Rd : ti_redeem i = Some r) by (destruct w; apply Sp).
  assert (Wi : in_has_witness i = w) by (unfold in_has_witness; destruct w; destruct Sp as (_ & _ & _ & ->); reflexivity).
  assert (Os : bytes_ok (obj_hash s) /\ len (obj_hash s) = obj_len s /\ witness_version s = w) by (destruct w; auto). destruct Os as (Os & Ls & Wv).
  unfold TxModel.SignIndex in E. rewrite Hi in E. cbn [rbind] in E. rewrite Rd, andb_false_r in E.
  apply rbind_ok in E. destruct E as ((signs & t1) & El & E). destruct (sign_loop_spec idx c ht ks t i signs t1 Hi El) as (S1 & (i1 & Hi1) & Oth & [X|(dg & Dg & F)] & Lsg); [congruence|].
  destruct (core_index t t1 idx i (proj1 S1) Hi) as (i1' & Hi1' & Bl). rewrite Hi1 in Hi1'. injection Hi1' as <-.
  assert (Raw1 : ti_rawlock i1 = template s) by (rewrite <- Raw; unfold blank in Bl; congruence). assert (Fin1 : ti_finallock i1 = p2sh_script (Hash160 r)) by (rewrite <- Fin; unfold blank in Bl; congruence).
  assert (Rd1 : ti_redeem i1 = Some r) by (rewrite <- Rd; unfold blank in Bl; congruence).
  assert (Lk : 1 <= len ks) by (destruct ks; [congruence|rewrite len_cons; pose proof (len_nonneg ks); lia]).
  assert (Lsz : len signs = len ks) by (unfold len; now rewrite Lsg).
  assert (Fs : Forall (fun x => pushable (pks_sig x) /\ len (pks_sig x) <= 101 /\ exists der, pks_sig x = der ++ [ht]) signs).
  { revert F. generalize ks signs. intros ks0 signs0 F. induction F as [|k x ks1 signs1 Fx F IH]; constructor; [|exact IH]. destruct (pks_pushable c ht dg k x Sc R Fx) as (A & B & _ & _ & der & D & _). eauto. }
  assert (Ea : exists e0, Script (AddOp 0x00 NewScriptBuilder) = e0 /\ e0 = [0]) by (eexists; split; reflexivity). destruct Ea as (e0 & Ea & E0).
  destruct (add_items (map pks_sig signs) 101 ltac:(lia)) with (b := AddOp 0x00 NewScriptBuilder) as (js & e1 & E1 & Oe1 & Le1 & So1 & P1).
  { apply Forall_map. apply (Forall_impl _ (P := fun x => pushable (pks_sig x) /\ len (pks_sig x) <= 101 /\ exists der, pks_sig x = der ++ [ht])); [|exact Fs]. tauto. }
  { apply Forall_map. apply (Forall_impl _ (P := fun x => pushable (pks_sig x) /\ len (pks_sig x) <= 101 /\ exists der, pks_sig x = der ++ [ht])); [|exact Fs]. tauto. }
  assert (Pr : pushable r) by (split; [exact Or|]; split; [lia|]; split; intros ->; vm_compute in Lr; intuition congruence).
  destruct (add_item r (fold_left (fun b d => AddData d b) (map pks_sig signs) (AddOp 0x00 NewScriptBuilder)) Pr) as (j2 & e2 & E2 & Oe2 & Le2 & En2 & P2).
  set (u := p2sh_unlocking signs r).
  assert (Eu : u = [0] ++ e1 ++ e2).
  { unfold u, p2sh_unlocking. rewrite Lsz. replace (0 <? len ks) with true by lia. rewrite fold_sigs, E2, E1, Ea, E0, <- app_assoc. reflexivity. }
  assert (Su : script_of (Instr 0 [] :: js ++ [j2]) u).
  { rewrite Eu. constructor; [apply enc_plain; vm_compute; tauto|]. apply script_of_app; [exact So1|now apply encodes_script]. }
  assert (Pu : Forall2 pushes (Instr 0 [] :: js ++ [j2]) ([] :: map pks_sig signs ++ [r])).
  { constructor; [constructor|]. apply Forall2_app; [exact P1|]. constructor; [exact P2|constructor]. }
  assert (Em : exists ws, EmbedIdxSignature sha256 idx signs t1 = Ok (set_in idx (fun i => with_witness ws (with_unlock u i)) t1)).
  { destruct w; eexists; apply (embed_spec idx signs t1 i1 s u); auto; rewrite Rd1; cbn [nilb s GetRawUnlockingScriptBytes GetWitnessUnlockingScriptBytes]; rewrite ?andb_false_r, ?list_Z_eqb_refl; reflexivity. }
  destruct Em as (ws & Em). rewrite Em in E. injection E as <-. clearbody s.
  assert (S2 : same ht t1 (set_in idx (fun i => with_witness ws (with_unlock u i)) t1)) by (apply set_in_same; reflexivity).
  split; [eapply same_trans; eauto|]. split; [intros n Nn; rewrite index_set_other by (pose proof (index_nonneg _ _ _ Hi); lia); now apply Oth|].
  eexists. split; [apply index_set_in; exact Hi1|]. intros t2 St. cbn [ti_rawlock ti_unlock ti_finallock with_witness with_unlock]. rewrite Raw1, Fin1.
  assert (St2 : same ht t t2) by (eapply same_trans; [exact S1|]; eapply same_trans; eauto).
  assert (Dg2 : digest idx w t2 ht = Ok dg).
  { rewrite <- Wi. rewrite <- Dg. symmetry. now apply same_digest. }
  destruct (core_index t t2 idx i (proj1 St2) Hi) as (i2 & Hi2 & Bl2). assert (Rd2 : ti_redeem i2 <> None) by (unfold blank in Bl2; congruence).
  assert (Orc : oracles_return (digest idx w t2) EcdsaVerify) by (split; [intros x; now apply (hasher_returns w idx t2 i2)|apply Sc]).
  assert (Mv : matched (valid_sig (digest idx w t2) EcdsaVerify) (map pks_sig signs) pubs).
  { apply (matched_signs c ht dg ks); [|exact F|exact Mt]. intros k x Fx. destruct (pks_pushable c ht dg k x Sc R Fx) as (_ & _ & _ & _ & der & D & Es). exists der, ht, dg. split; [exact D|]. split; [exact Dg2|]. apply (proj1 Sc); exact Es. }
  assert (Lu : len e1 <= 2 ^ 20 * 106). { unfold len at 2 in Le1. rewrite map_length in Le1. change (Z.of_nat (length signs)) with (len signs) in Le1. rewrite Lsz in Le1. lia. }
  assert (M : in_memory (u ++ p2sh_script (Hash160 r))).
  { rewrite Eu. unfold p2sh_script. split; [rewrite !bytes_ok_app; repeat split; auto; bytes_ok_tac|]. rewrite !len_app. change (len [0]) with 1. change (len [169; 20]) with 2. change (len [135]) with 1. lia. }
  assert (Lmp : len (map pks_sig signs) = len ks) by (unfold len; now rewrite map_length, Lsg).
  destruct (p2sh_verified Hash160 (digest idx w t2) EcdsaVerify u r im iks ine (Instr 0 [] :: js ++ [j2]) nb mb pubs (map pks_sig signs) ht M) as [(st & Ev) Calls]; auto.
  { split; [exact Or|lia]. } { now rewrite Lmp. } { lia. }
  { apply Forall_map. apply (Forall_impl _ (P := fun x => pushable (pks_sig x) /\ len (pks_sig x) <= 101 /\ exists der, pks_sig x = der ++ [ht])); [|exact Fs]. tauto. }
  unfold TxModel.verify_input. cbn [ti_rawlock ti_unlock ti_finallock with_witness with_unlock]. rewrite Raw1, Fin1. rewrite (parse_of s Os Ls). cbn [rbind]. rewrite Wv, Ev. split; [reflexivity|].
  exists s. split; [reflexivity|]. intros Wt. rewrite Wv in Wt. rewrite Wt in Calls. exact Calls.
Qed.
End Signing.
