(** C124-C126: the transaction as its receiver completes it. *)
From Verif Require Import GoBase BaseLemmas BufferModel ScriptModel ScriptSpec ScriptProofs LockModel LockSpec LockProofs VmModel VmSpec VmMore TxModel TxSpec TxProofs TxSig TxProps TxSignSpec TxSign TxSign2 TxSign3 TxSign4 TxSignProps
  EcdsaSpec EcdsaModel DerModel WholeModel WholeProofs WholeProps ReceiveSpec ReceiveProofs.
From Coq Require Import ZifyBool ZifyNat ZifyN.

(** The toy scheme of C41-C45 with keys of 33 and 65 bytes. *)
Definition wide_pub (k : Z) (c : bool) : bytes := (if c then 2 else 4) :: k mod 256 :: repeat 9 (if c then 31 else 63).
Lemma wide_scheme_ok : scheme_ok Z wide_pub toy_sign toy_verify.
Proof.
  destruct toy_scheme_ok as (_ & B & C & _). split; [|split; [exact B|split; [exact C|]]].
  - intros k c h s E. injection E as <-. unfold toy_verify. replace (nth 1 (wide_pub k c) 0) with (k mod 256) by (destruct c; reflexivity). now rewrite list_Z_eqb_refl.
  - intros k c. pose proof (Z.mod_pos_bound k 256). split; [|destruct c; split; vm_compute; discriminate].
    apply Forall_cons; [destruct c; unfold is_byte; lia|]. apply Forall_cons; [unfold is_byte; lia|]. apply Forall_forall. intros y Hy. apply repeat_spec in Hy. subst. unfold is_byte. lia.
Qed.
Definition wide_pubs (n : nat) : list bytes := map (fun k => wide_pub (Z.of_nat k) true) (seq 5 n).
Definition wide_redeem (m : Z) (n : nat) : bytes := match GenMultiSigScript m (wide_pubs n) with Ok r => r | _ => [] end.
Notation wide_sign_each := (sign_each toy256 Z wide_pub toy_sign toy256).
Notation wide_sign_index := (SignIndex toy256 toy256 Z wide_pub toy_sign).
Definition wide_ins : list TxIn :=
  [toy_in 1 (p2pkh_script (toy160 (wide_pub 8 true))) None; toy_in 2 (p2wpkh_script (toy160 (wide_pub 3 true))) None; toy_in 4 (p2wsh_script (toy256 (wide_redeem 2 3))) (Some (wide_redeem 2 3))].
Lemma wide_multisig ks n : Forall (fun k => bytes_ok k) (wide_pubs n) -> matched (fun k p => p = wide_pub k true) ks (wide_pubs n) -> ks <> [] -> len (wide_pubs n) < 2 ^ 20 ->
  (exists r, GenMultiSigScript (len ks) (wide_pubs n) = Ok r) -> multisig_for Z wide_pub true ks (wide_pubs n) (wide_redeem (len ks) n).
Proof.
  intros O M Ne L (r & G). unfold wide_redeem. rewrite G. split; [exact G|]. split; [exact Ne|]. split; [exact M|]. split; [|exact L].
  apply Forall_forall. intros p Hp. unfold wide_pubs in Hp. apply in_map_iff in Hp. destruct Hp as (k & <- & _). destruct wide_scheme_ok as (_ & _ & _ & X). apply X.
Qed.
Lemma wide_bytes n : Forall (fun k => bytes_ok k) (wide_pubs n).
Proof. apply Forall_forall. intros p Hp. unfold wide_pubs in Hp. apply in_map_iff in Hp. destruct Hp as (k & <- & _). destruct wide_scheme_ok as (_ & _ & _ & X). apply X. Qed.
Lemma wide_signers : Forall2 (signers toy160 toy256 Z wide_pub true) [[8]; [3]; [5; 7]] wide_ins.
Proof.
  constructor; [apply can_p2pkh; repeat split; vm_compute; reflexivity|]. constructor; [apply can_p2wpkh; repeat split; vm_compute; reflexivity|].
  constructor; [|constructor]. eapply can_p2wsh; [apply (wide_multisig [5; 7] 3); [apply wide_bytes| |discriminate|vm_compute; reflexivity|eexists; vm_compute; reflexivity]|repeat split; vm_compute; reflexivity].
  apply m_take; [reflexivity|]. apply m_skip. apply m_take; [reflexivity|]. constructor.
Qed.

(** C124: a transaction signed by the owners, written, read and completed with the outputs it spends is accepted: its
    inputs are those that were signed.  The exceptions are the two below. *)
Theorem C124_received_verifies_partial : forall (Hash160 sha256 DS : bytes -> bytes) prvkey PubKeyBytes EcdsaSign EcdsaVerify c ht kss t t',
  scheme_ok prvkey PubKeyBytes EcdsaSign EcdsaVerify -> hashes_ok Hash160 sha256 -> 0 <= ht < 256 -> uncached t ->
  Forall2 (signers Hash160 sha256 prvkey PubKeyBytes c) kss (tx_ins t) -> Forall small_witness_script (tx_ins t) ->
  sign_each sha256 prvkey PubKeyBytes EcdsaSign DS c ht 0 kss t = Ok t' -> tx_ok t' -> len (Serialize t') <= 2 ^ 48 ->
  exists r, received Hash160 t' = Ok r /\ TxModel.Verify Hash160 DS EcdsaVerify r = Ok tt /\ core r = core t' /\ map ti_unlock (tx_ins r) = map ti_unlock (tx_ins t').
Proof. intros Hash160 sha256 DS prvkey PubKeyBytes EcdsaSign EcdsaVerify. exact (received_verifies Hash160 sha256 DS prvkey PubKeyBytes EcdsaSign EcdsaVerify). Qed.
Print Assumptions C124_received_verifies_partial.
(** With the program's own keys, signatures and hashes. *)
Theorem C124_whole_partial : forall sha256 hmac fuel c ht kss t t', hash32 sha256 -> 0 <= ht < 256 -> uncached t ->
  Forall2 (signers (Hash160 sha256) sha256 prvkey PubKeyBytes c) kss (tx_ins t) -> Forall small_witness_script (tx_ins t) ->
  sign_each sha256 prvkey PubKeyBytes (SignHash hmac fuel) (DoubleSha256 sha256) c ht 0 kss t = Ok t' -> tx_ok t' -> len (Serialize t') <= 2 ^ 48 ->
  exists r, received (Hash160 sha256) t' = Ok r /\ WVerify sha256 r = Ok tt /\ core r = core t' /\ map ti_unlock (tx_ins r) = map ti_unlock (tx_ins t').
Proof.
  intros sha256 hmac fuel c ht kss t t' Hs. exact (received_verifies _ _ (DoubleSha256 sha256) _ _ _ _ c ht kss t t' (scheme hmac fuel) (hashes sha256 Hs)).
Qed.
Print Assumptions C124_whole_partial.
Example C124_example : scheme_ok Z wide_pub toy_sign toy_verify /\ hashes_ok toy160 toy256 /\ uncached (toy_tx wide_ins) /\
  Forall2 (signers toy160 toy256 Z wide_pub true) [[8]; [3]; [5; 7]] wide_ins /\ Forall small_witness_script wide_ins /\
  exists t', wide_sign_each true 1 0 [[8]; [3]; [5; 7]] (toy_tx wide_ins) = Ok t' /\ tx_ok t' /\ len (Serialize t') <= 2 ^ 48 /\ len (Serialize t') = 348.
Proof.
  split; [exact wide_scheme_ok|]. split; [exact toy_hashes_ok|]. split; [repeat split|]. split; [exact wide_signers|]. split.
  { repeat (apply Forall_cons; [intros h r E R; try (vm_compute in E; discriminate); try (vm_compute in R; discriminate)|]); [|constructor].
    assert (r = wide_redeem 2 3) as -> by (vm_compute in R |- *; congruence). exists 2, (wide_pubs 3). split; [vm_compute; intuition discriminate|]. split; [vm_compute; intuition discriminate|]. split; [|vm_compute; reflexivity].
    pose proof (wide_bytes 3) as W. apply Forall_forall. intros k Hk. rewrite Forall_forall in W. split; [|now apply W]. left. unfold wide_pubs in Hk. apply in_map_iff in Hk. destruct Hk as (j & <- & _). reflexivity. }
  eexists. split; [vm_compute; reflexivity|]. split; [tx_ok_tac|]. split; [vm_compute; discriminate|vm_compute; reflexivity].
Qed.
(** It is false of P2WSH multisig scripts of more than 16 keys (consensus allows 20): for every signature scheme the
    owners' own check accepts and the receiver's refuses. *)
Theorem C124_many_keys_refuted : forall (Hash160 sha256 DS : bytes -> bytes) prvkey PubKeyBytes EcdsaSign EcdsaVerify c ht ks pubs r t i t',
  scheme_ok prvkey PubKeyBytes EcdsaSign EcdsaVerify -> hashes_ok Hash160 sha256 -> 0 <= ht < 256 -> tx_ins t = [i] -> spends_p2wsh Hash160 sha256 r i ->
  multisig_for prvkey PubKeyBytes c ks pubs r -> 17 <= len pubs -> SignIndex sha256 DS prvkey PubKeyBytes EcdsaSign 0 c ht ks t = Ok t' -> tx_ok t' -> len (Serialize t') <= 2 ^ 48 ->
  TxModel.Verify Hash160 DS EcdsaVerify t' = Ok tt /\ exists j, received Hash160 t' = Ok j /\ TxModel.Verify Hash160 DS EcdsaVerify j <> Ok tt.
Proof. intros Hash160 sha256 DS prvkey PubKeyBytes EcdsaSign EcdsaVerify. exact (many_keys_refused Hash160 sha256 DS prvkey PubKeyBytes EcdsaSign EcdsaVerify). Qed.
Print Assumptions C124_many_keys_refuted.
Definition wide17 : TxIn := toy_in 4 (p2wsh_script (toy256 (wide_redeem 1 17))) (Some (wide_redeem 1 17)).
Example C124_many_example : spends_p2wsh toy160 toy256 (wide_redeem 1 17) wide17 /\ multisig_for Z wide_pub true [5] (wide_pubs 17) (wide_redeem 1 17) /\ len (wide_pubs 17) = 17 /\
  exists t', wide_sign_index 0 true 1 [5] (toy_tx [wide17]) = Ok t' /\ tx_ok t' /\ len (Serialize t') <= 2 ^ 48.
Proof.
  split; [repeat split; vm_compute; reflexivity|]. split.
  { apply (wide_multisig [5] 17); [apply wide_bytes| |discriminate|vm_compute; reflexivity|eexists; vm_compute; reflexivity]. apply m_take; [reflexivity|]. unfold wide_pubs. cbn [seq map]. repeat apply m_skip. constructor. }
  split; [reflexivity|]. eexists. split; [vm_compute; reflexivity|]. split; [tx_ok_tac|vm_compute; discriminate].
Qed.
(** It is false after a change to a transaction that was signed before: sign, add an output, sign again.  The digests
    kept from the first time (C39) make the owner's check accept what every receiver refuses. *)
Theorem C124_signed_twice_refuted : exists t o t1 t2 r, uncached t /\ Forall2 (signers toy160 toy256 Z wide_pub true) [[3]] (tx_ins t) /\ wide_sign_index 0 true 1 [3] t = Ok t1 /\
  wide_sign_index 0 true 1 [3] (AddOutput o t1) = Ok t2 /\ tx_ok t2 /\ toy_check t2 = Ok tt /\ received toy160 t2 = Ok r /\ toy_check r <> Ok tt.
Proof.
  exists (toy_tx [toy_in 2 (p2wpkh_script (toy160 (wide_pub 3 true))) None]), (MkOut 7 [0x51]). eexists _, _, _. split; [repeat split|].
  split; [constructor; [apply can_p2wpkh; repeat split; vm_compute; reflexivity|constructor]|]. split; [vm_compute; reflexivity|]. split; [vm_compute; reflexivity|]. split; [tx_ok_tac|]. split; [vm_compute; reflexivity|].
  split; [vm_compute; reflexivity|]. vm_compute. discriminate.
Qed.
Print Assumptions C124_signed_twice_refuted.

(** C125: for witness key hash outputs BIP 141 wants an empty signature script and a witness of two items.  Instead
    anything in the signature script and anything after the two items is accepted, by everybody who completes the
    transaction with [SetTxIn]; and the identifier then computed is not that of the transaction that arrived. *)
Theorem C125_key_form_refuted : forall (Hash160 sha256 DS : bytes -> bytes) prvkey PubKeyBytes EcdsaSign EcdsaVerify c ht kss t t' n i h junk extra,
  scheme_ok prvkey PubKeyBytes EcdsaSign EcdsaVerify -> hashes_ok Hash160 sha256 -> 0 <= ht < 256 -> uncached t ->
  Forall2 (signers Hash160 sha256 prvkey PubKeyBytes c) kss (tx_ins t) -> Forall small_witness_script (tx_ins t) ->
  sign_each sha256 prvkey PubKeyBytes EcdsaSign DS c ht 0 kss t = Ok t' -> nth_error (tx_ins t') n = Some i -> bytes_ok h -> len h = 20 -> ti_rawlock i = p2wpkh_script h ->
  tx_ok t' -> let sent := tampered_tx n junk extra t' in tx_ok sent -> len (wire_bip144 sent) <= 2 ^ 48 -> junk <> [] \/ extra <> [] ->
  exists x j r, Deserialize (wire_bip144 sent) NewTransaction = Ok x /\ nth_error (tx_ins x) n = Some j /\ ~ bip141_key_form j /\ look_up Hash160 0 (map spent (tx_ins t')) x = Ok r /\
    TxModel.Verify Hash160 DS EcdsaVerify r = Ok tt /\ SerializeNoWitness r = SerializeNoWitness t' /\ (junk <> [] -> SerializeNoWitness x <> SerializeNoWitness r).
Proof.
  intros Hash160 sha256 DS prvkey PubKeyBytes EcdsaSign EcdsaVerify c ht kss t t' n i h junk extra Sc Hs R U F Sm E Hn O L Rw T sent Ts Ls Ne.
  destruct (tampered_verifies Hash160 sha256 DS prvkey PubKeyBytes EcdsaSign EcdsaVerify c ht kss t t' n i h junk extra Sc Hs R U F Sm E Hn O L Rw Ts Ls) as (D & Cd & Lw & r & El & V & S).
  assert (Nj : nth_error (tx_ins sent) n = Some (tampered junk extra (in_transit i))).
  { unfold sent, tampered_tx. cbn [tx_ins]. clear -Hn. revert n Hn. induction (tx_ins t') as [|a l IH]; intros [|n] Hn; try discriminate; cbn [map update nth_error] in *; [injection Hn as ->; reflexivity|now apply IH]. }
  exists sent, (tampered junk extra (in_transit i)), r. split; [exact D|]. split; [exact Nj|]. split; [|split; [exact El|split; [exact V|split; [exact S|]]]].
  - intros [J W]. unfold tampered, script_sig in J. cbn [ti_code ti_unlock] in J. cbn [tampered in_transit ti_witness] in W. rewrite len_app in W. destruct Ne as [Ne|Ne]; [congruence|].
    destruct extra as [|e es]; [congruence|]. rewrite len_cons in W. pose proof (len_nonneg es). lia.
  - intros Nu X. rewrite S in X. apply txid_covers in X; [|exact Ts|exact T|].
    + destruct X as (_ & _ & X & _). apply (f_equal (fun l => nth_error l n)) in X. rewrite !nth_error_map, Nj, Hn in X. cbn [option_map] in X.
      assert (Y : script_sig (tampered junk extra (in_transit i)) = script_sig i) by (unfold in_view in X; congruence). unfold script_sig in Y. cbn [tampered ti_code ti_unlock] in Y. destruct (ti_code i); congruence.
    + rewrite serialize_no_witness by exact Ts. etransitivity; [|exact Ls]. unfold wire_legacy, wire_bip144. rewrite !len_app. pose proof (len_nonneg (concat (map wire_witness (tx_ins sent)))). change (len [0; 1]) with 2. lia.
Qed.
Print Assumptions C125_key_form_refuted.
Example C125_example : uncached (toy_tx wide_ins) /\ Forall2 (signers toy160 toy256 Z wide_pub true) [[8]; [3]; [5; 7]] wide_ins /\
  exists t', wide_sign_each true 1 0 [[8]; [3]; [5; 7]] (toy_tx wide_ins) = Ok t' /\ nth_error (map ti_rawlock (tx_ins t')) 1 = Some (p2wpkh_script (toy160 (wide_pub 3 true))) /\
    tx_ok t' /\ tx_ok (tampered_tx 1 [0x51] [[1; 2]; []] t') /\ len (wire_bip144 (tampered_tx 1 [0x51] [[1; 2]; []] t')) <= 2 ^ 48.
Proof.
  split; [repeat split|]. split; [exact wide_signers|]. eexists. split; [vm_compute; reflexivity|]. split; [vm_compute; reflexivity|]. split; [tx_ok_tac|]. split; [tx_ok_tac|vm_compute; discriminate].
Qed.
(** C125: what is checked, with the program's own keys and hashes: the first two items are a signature of the BIP 143
    digest, of the amount given by the receiver, and its key.  (Missing: other digest types, and inputs after a witness
    input, whose cached digests may be of another type, C39.) *)
Theorem C125_key_form_partial : forall sha256 t idx i w0 w1 ws amount h redeem t1, hash32 sha256 -> bytes_ok h -> len h = 20 ->
  index (tx_ins t) idx = Ok i -> ti_witness i = w0 :: w1 :: ws -> pushable w0 -> pushable w1 -> uncached t ->
  SetTxIn (Hash160 sha256) idx amount (p2wpkh_script h) redeem t = Ok t1 -> WVerify sha256 t1 = Ok tt ->
  (forall m j, m < idx -> index (tx_ins t) m = Ok j -> exists s, ParseLockingScript (ti_rawlock j) = Ok s /\ witness_version s = false) ->
  exists i1 der ht dg, index (tx_ins t1) idx = Ok i1 /\ ti_value i1 = amount /\ ti_code i1 = Some (p2pkh_script h) /\ w0 = der ++ [ht] /\ Hash160 sha256 w1 = h /\
    signed_by_key w1 der (message_int dg) /\
    (ht = 1 -> Forall out_ok (tx_outs t) -> dg = sha256 (sha256 (bip143_preimage (DoubleSha256 sha256) idx 1 i1 t1))).
Proof.
  intros sha256 t idx i w0 w1 ws amount h redeem t1 Hs O L Hi W P0 P1 U E V N. unfold SetTxIn in E. rewrite Hi in E. cbn [rbind] in E.
  pose proof (parse_of (P2WPKH h) O L) as Ps. cbn [template] in Ps. rewrite Ps in E. cbn [rbind] in E. cbn [WitnessToUnlockingScriptBytes] in E. rewrite W in E. cbn [rbind] in E.
  set (u := Script (AddData w1 (AddData w0 NewScriptBuilder))) in *.
  set (f := fun i1 : TxIn => MkIn (ti_hash i1) (ti_index i1) amount (ti_seq i1) (ti_sighash i1) redeem (ti_witness i1) (GetWitnessScriptCode (P2WPKH h) redeem) (GetRawLockingScriptBytes (P2WPKH h))
     (GetFinalLockingScriptBytes (Hash160 sha256) (P2WPKH h) (nilb redeem)) (match u with [] => ti_unlock i1 | _ => u end)) in *.
  assert (t1 = set_in idx f t) as -> by congruence. clear E. pose proof (index_set_in idx f t i Hi) as Hi1.
  assert (Eu : ti_unlock (f i) = u) by (unfold f; cbn [ti_unlock]; pose proof (script_nonempty w1 (AddData w0 NewScriptBuilder)) as X; fold u in X; destruct u; [congruence|reflexivity]).
  assert (Cd : ti_code (f i) = Some (p2pkh_script h)) by (unfold f; cbn [ti_code GetWitnessScriptCode]; f_equal; exact (raw_locking (P2PKH h) L)).
  assert (Fn : ti_finallock (f i) = p2pkh_script h) by (unfold f; cbn [ti_finallock GetFinalLockingScriptBytes]; exact (raw_locking (P2PKH h) L)).
  assert (Rl : ti_rawlock (f i) = p2wpkh_script h) by (unfold f; cbn [ti_rawlock]; exact (raw_locking (P2WPKH h) L)).
  destruct (add_item w0 NewScriptBuilder P0) as (j0 & e0 & E0 & Oe0 & Le0 & En0 & Q0). destruct (add_item w1 (AddData w0 NewScriptBuilder) P1) as (j1 & e1 & E1 & Oe1 & Le1 & En1 & Q1). fold u in E1.
  assert (Ue : u = e0 ++ e1) by (rewrite E1, E0; reflexivity).
  assert (Sp : script_pushing u [w0; w1]).
  { exists [j0; j1]. split; [rewrite Ue; constructor; [exact En0|now apply encodes_script]|]. repeat (constructor; [assumption|]). constructor. }
  assert (M : in_memory (ti_unlock (f i) ++ ti_finallock (f i))).
  { rewrite Eu, Fn, Ue. destruct (template_mem (P2PKH h) O L) as [Ot Lt]. cbn [template] in Ot, Lt. split; [rewrite !bytes_ok_app; auto|]. assert (Lq : len (p2pkh_script h) = 25) by (unfold p2pkh_script; rewrite !len_app, L; reflexivity).
    rewrite !len_app, Lq. destruct P0 as (_ & A & _), P1 as (_ & B & _). lia. }
  assert (Uu : uncached (set_in idx f t)) by exact U. pose proof (index_nonneg _ _ _ Hi) as Ri.
  destruct (C98_p2wpkh_spend_partial sha256 (set_in idx f t) idx (f i) h [w0; w1] V Hi1) as (items & der & ht & key & dg & Ed & Hk & _ & Sg & Dg); [repeat split; assumption|exact O|exact L|exact M|rewrite Eu; exact Sp|exact Uu| |].
  { intros m j Lm Hj. rewrite index_set_other in Hj by lia. now apply (N m j). }
  assert (items = [] /\ w0 = der ++ [ht] /\ w1 = key) as (_ & -> & ->).
  { destruct items as [|a [|b items]]; cbn [app] in Ed; [split; [reflexivity|split; congruence]|congruence|]. exfalso. apply (f_equal (@length _)) in Ed. cbn [length] in Ed. rewrite app_length in Ed. cbn [length] in Ed. lia. }
  exists (f i), der, ht, dg. split; [exact Hi1|]. split; [reflexivity|]. split; [exact Cd|]. split; [reflexivity|]. split; [exact Hk|]. split; [exact Sg|].
  intros Ht Fo. apply Dg; [exact Ht| |exact Fo]. unfold v0_code_ok, fits_memory. rewrite Cd. cbn [nilb]. unfold p2pkh_script. rewrite !len_app, L. vm_compute. discriminate.
Qed.
Print Assumptions C125_key_form_partial.
(** The transaction of C97, on the receiver's side before and after its last input is completed. *)
Definition ex_arrived : transaction := Eval vm_compute in
  match (let! r := read_back true (Serialize ex_signed) in look_up (Hash160 ex_sha) 0 (firstn 2 (map spent (tx_ins ex_signed))) r) with Ok r => r | _ => ex_unsigned end.
Definition ex_completed : transaction := Eval vm_compute in match SetTxIn (Hash160 ex_sha) 2 2000 (p2wpkh_script ex_h) None ex_arrived with Ok r => r | _ => ex_unsigned end.
Example C125_partial_example : exists i w0 w1, index (tx_ins ex_arrived) 2 = Ok i /\ ti_witness i = [w0; w1] /\ pushable w0 /\ pushable w1 /\ uncached ex_arrived /\
  SetTxIn (Hash160 ex_sha) 2 2000 (p2wpkh_script ex_h) None ex_arrived = Ok ex_completed /\ WVerify ex_sha ex_completed = Ok tt /\
  (forall m j, m < 2 -> index (tx_ins ex_arrived) m = Ok j -> exists s, ParseLockingScript (ti_rawlock j) = Ok s /\ witness_version s = false).
Proof.
  assert (P : forall w, forallb is_byteb w = true -> 2 <= len w < 2 ^ 32 -> pushable w).
  { intros w B L. split; [now apply bytes_ok_forallb|]. split; [lia|]. split; intros ->; unfold len in L; cbn [length] in L; lia. }
  eexists _, _, _. split; [reflexivity|]. split; [reflexivity|]. split; [apply P; [vm_compute; reflexivity|vm_compute; split; [discriminate|reflexivity]]|]. split; [apply P; [vm_compute; reflexivity|vm_compute; split; [discriminate|reflexivity]]|].
  split; [repeat split|]. split; [vm_compute; reflexivity|]. split.
  - destruct C97_example as (H & F & S & _). assert (U : uncached ex_unsigned) by (repeat split). destruct (C124_whole_partial ex_sha ex_hmac 1 true 1 _ _ ex_signed H ltac:(lia) U F) as (r & E & V & _); [|exact S|tx_ok_tac|vm_compute; discriminate|].
    + repeat (apply Forall_cons; [intros h r E; vm_compute in E; discriminate|]). constructor.
    + assert (X : received (Hash160 ex_sha) ex_signed = Ok ex_completed) by (vm_compute; reflexivity). assert (r = ex_completed) as -> by congruence. exact V.
  - intros m j Lm Hj. assert (m = 0 \/ m = 1) as [-> | ->].
    { unfold index in Hj. destruct (m <? 0) eqn:Q; [discriminate|lia]. }
    + set (x := nth 0 (tx_ins ex_arrived) ex_in). assert (X : index (tx_ins ex_arrived) 0 = Ok x) by reflexivity. assert (j = x) as -> by congruence. eexists. split; [vm_compute; reflexivity|reflexivity].
    + set (x := nth 1 (tx_ins ex_arrived) ex_in). assert (X : index (tx_ins ex_arrived) 1 = Ok x) by reflexivity. assert (j = x) as -> by congruence. eexists. split; [vm_compute; reflexivity|reflexivity].
Qed.

(** C126: completing a transaction that arrived from outside panics exactly when there is no such input, or when the
    output is a witness key hash and the witness is shorter than two items. *)
Theorem C126_complete_panics_iff : forall Hash160 idx amount script redeem t, in_memory script ->
  SetTxIn Hash160 idx amount script redeem t = Panic <->
  ~ 0 <= idx < len (tx_ins t) \/ exists i h, index (tx_ins t) idx = Ok i /\ len h = 20 /\ script = p2wpkh_script h /\ len (ti_witness i) < 2.
Proof. exact complete_panic. Qed.
Print Assumptions C126_complete_panics_iff.
(** So "never panics on what the network sends" is false: strip the witness of any transaction with such an input. *)
Theorem C126_no_panic_refuted : forall Hash160 t n i h amount redeem, tx_ok t -> len (SerializeNoWitness t) <= 2 ^ 48 -> nth_error (tx_ins t) n = Some i -> bytes_ok h -> len h = 20 ->
  exists x, DeserializeNoWitness (SerializeNoWitness t) NewTransaction = Ok x /\ SetTxIn Hash160 (Z.of_nat n) amount (p2wpkh_script h) redeem x = Panic.
Proof.
  intros Hash160 t n i h amount redeem T Ln Hn O L. rewrite serialize_no_witness in * by exact T.
  assert (Rr : DeserializeNoWitness (wire_legacy t) NewTransaction = Ok (MkTx (tx_version t) (tx_locktime t) (map stripped (tx_ins t)) (tx_outs t) None None None)).
  { rewrite <- (app_nil_r (wire_legacy t)). apply (reads_run dec_legacy); [now apply reads_legacy|now rewrite app_nil_r]. }
  eexists. split; [exact Rr|]. apply C126_complete_panics_iff; [exact (template_mem (P2WPKH h) O L)|]. right. exists (stripped i), h. cbn [tx_ins]. split; [apply nth_of_index; rewrite nth_error_map, Hn; reflexivity|].
  split; [exact L|]. split; reflexivity.
Qed.
Print Assumptions C126_no_panic_refuted.
Example C126_example : tx_ok ex_segwit /\ len (SerializeNoWitness ex_segwit) <= 2 ^ 48 /\ len (tx_ins ex_segwit) = 2 /\ in_memory (p2wpkh_script (repeat 7 20)).
Proof. split; [exact ex_segwit_ok|]. split; [vm_compute; discriminate|]. split; [reflexivity|]. apply (template_mem (P2WPKH (repeat 7 20))); [apply bytes_ok_forallb; reflexivity|reflexivity]. Qed.
