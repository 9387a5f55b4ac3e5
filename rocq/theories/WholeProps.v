(** C97, C98: signing and verifying transactions with the program's own keys, signatures and hashes. *)
From Verif Require Import GoBase BaseLemmas SecpModel SecpSpec EcdsaModel EcdsaSpec PubKeyModel PubKeySpec PubKeyProps DerModel DerSpec DerProps RipemdSpec
  ScriptModel ScriptSpec ScriptProofs LockModel LockSpec LockProofs VmSpec VmModel VmProofs VmMore VmLock TxModel TxSpec TxProofs TxSig TxProps TxSignSpec TxSign TxSign2 TxSign3 BuilderModel BuilderSpec BuilderSign Sha256 Sha256Proofs WholeModel WholeProofs.
Local Open Scope Z_scope.

(** ** C97 *)
Theorem C97_signed_verifies : forall sha256 hmac fuel c ht kss t t', hash32 sha256 -> 0 <= ht < 256 ->
  Forall2 (signers (Hash160 sha256) sha256 prvkey PubKeyBytes c) kss (tx_ins t) ->
  sign_each sha256 prvkey PubKeyBytes (SignHash hmac fuel) (DoubleSha256 sha256) c ht 0 kss t = Ok t' ->
  WVerify sha256 t' = Ok tt.
Proof.
  intros sha256 hmac fuel c ht kss t t' Hs Hh F E.
  exact (proj1 (mixed_whole _ _ (DoubleSha256 sha256) _ _ _ _ c ht kss t (scheme hmac fuel) (hashes sha256 Hs) Hh F) t' E).
Qed.
Print Assumptions C97_signed_verifies.

Theorem C97_built_verifies : forall sha256 hmac fuel ht b t, hash32 sha256 -> 0 <= ht < 256 -> b_sign prvkey b = true ->
  Forall (group_signs (Hash160 sha256) sha256 prvkey PubKeyBytes ht) (b_groups prvkey b) ->
  WBuildTransaction sha256 hmac fuel b = Ok t -> WVerify sha256 t = Ok tt.
Proof.
  intros sha256 hmac fuel ht b t Hs Hh Hb F E.
  exact (built_verifies _ _ _ _ _ _ _ ht b t (scheme hmac fuel) (hashes sha256 Hs) Hh Hb F E).
Qed.
Print Assumptions C97_built_verifies.

(** The hash an output must carry for a key to spend it: RIPEMD-160 of SHA-256 of the SEC 1 encoding of the point. *)
Theorem C97_key_hash : forall sha256 (k : prvkey) c, hash32 sha256 ->
  exists x y, multiple base (fst (proj1_sig k)) (Some (x, y)) /\
    Hash160 sha256 (PubKeyBytes k c) = rmd160 (sha256 (if c then (2 + parity y) :: octets 32 x else 4 :: octets 32 x ++ octets 32 y)).
Proof.
  intros sha256 k c Hs. destruct (pub_bytes k c) as (x & y & EP & _ & E & _). exists x, y. split.
  - destruct (made_good _ (proj2_sig k)) as (_ & _ & M). rewrite EP in M. exact M.
  - rewrite hash160_is by exact Hs. rewrite E. reflexivity.
Qed.
Print Assumptions C97_key_hash.

(** ** C98: what acceptance of a key-hash spend proves. *)
Definition signed_by_key (key der : bytes) (e : Z) : Prop :=
  exists x y r s ir is junk b trail,
    (standard key x y \/ key = 5 :: octets 32 x ++ octets 32 y) /\ good (Some (x, y)) /\
    der_int ir r /\ der_int is s /\ tlv 48 (ir ++ is ++ junk) b /\ der = b ++ trail /\
    ecdsa_valid (Some (x, y)) e r s.

Lemma signed_by : forall h der key, sigVerifyFn h der key = Ok tt -> signed_by_key key der (message_int h).
Proof.
  intros h der key V. destruct (verifier_inv _ _ _ V) as (_ & Hd & Hk & x & y & r & s & E & G & D & VV).
  apply (C70_parse_exact key x y Hk) in E. apply (C71_der_decode_exact der r s Hd) in D.
  destruct D as (ir & is & junk & b & trail & D1 & D2 & _ & T & ED).
  exists x, y, r, s, ir, is, junk, b, trail. repeat (split; [tauto | ]). exact VV.
Qed.

Theorem C98_p2pkh_spend : forall sha256 t idx i h ds, WVerify sha256 t = Ok tt -> index (tx_ins t) idx = Ok i ->
  spends_p2pkh h i -> bytes_ok h -> len h = 20 -> in_memory (ti_unlock i ++ ti_finallock i) -> script_pushing (ti_unlock i) ds ->
  exists items der ht key dg, ds = items ++ [der ++ [ht]; key] /\ Hash160 sha256 key = h /\
    RawSignatureHash (DoubleSha256 sha256) idx ht t = Ok dg /\ signed_by_key key der (message_int dg) /\
    (ht = 1 -> tx_ok t -> signed_ok idx t -> dg = sha256 (sha256 (legacy_preimage idx t))).
Proof.
  intros sha256 t idx i h ds V Hi (Ra & Fi & _) Oh L M S. unfold WVerify in V.
  destruct (verify_nth _ _ _ _ _ _ V Hi) as (t' & C & E & _). rewrite Fi in M.
  assert (Ps : ParseLockingScript (ti_rawlock i) = Ok (P2PKH h)).
  { rewrite Ra. change (p2pkh_script h) with (template (P2PKH h)). apply parse_of; assumption. }
  destruct (verified_pkh _ _ _ idx i t' h ds _ Ps Fi L M S E) as (items & der & ht & key & dg & Ed & Hk & Hd & Hv).
  exists items, der, ht, key, dg. split; [exact Ed | ]. split; [exact Hk | ].
  cbn [witness_version] in Hd. unfold sigHashFn in Hd. rewrite (raw_core _ idx ht t' t C) in Hd.
  split; [exact Hd | ]. split; [exact (signed_by _ _ _ Hv) | ].
  intros -> Ht Hs. rewrite (C36_legacy_all_digest _ idx t Ht Hs) in Hd. unfold DoubleSha256 in Hd. congruence.
Qed.
Print Assumptions C98_p2pkh_spend.

(** The same for P2WPKH, when no earlier input of the transaction is a witness input (those could have left digests of
    another type in the caches, C39), and when the caches are empty. *)
Theorem C98_p2wpkh_spend_partial : forall sha256 t idx i h ds, WVerify sha256 t = Ok tt -> index (tx_ins t) idx = Ok i ->
  spends_p2wpkh h i -> bytes_ok h -> len h = 20 -> in_memory (ti_unlock i ++ ti_finallock i) -> script_pushing (ti_unlock i) ds ->
  uncached t -> (forall m j, m < idx -> index (tx_ins t) m = Ok j -> exists s, ParseLockingScript (ti_rawlock j) = Ok s /\ witness_version s = false) ->
  exists items der ht key dg, ds = items ++ [der ++ [ht]; key] /\ Hash160 sha256 key = h /\
    (exists t1, WitnessV0SignatureHash (DoubleSha256 sha256) idx ht t = Ok (dg, t1)) /\ signed_by_key key der (message_int dg) /\
    (ht = 1 -> v0_code_ok i -> Forall out_ok (tx_outs t) -> dg = sha256 (sha256 (bip143_preimage (DoubleSha256 sha256) idx 1 i t))).
Proof.
  intros sha256 t idx i h ds V Hi (Ra & Fi & _) Oh L M S U N. unfold WVerify in V.
  destruct (verify_nth _ _ _ _ _ _ V Hi) as (t' & C & E & Q). rewrite (Q N) in E. rewrite Fi in M.
  assert (Ps : ParseLockingScript (ti_rawlock i) = Ok (P2WPKH h)).
  { rewrite Ra. change (p2wpkh_script h) with (template (P2WPKH h)). apply parse_of; assumption. }
  destruct (verified_pkh _ _ _ idx i t h ds _ Ps Fi L M S E) as (items & der & ht & key & dg & Ed & Hk & Hd & Hv).
  exists items, der, ht, key, dg. split; [exact Ed | ]. split; [exact Hk | ].
  cbn [witness_version] in Hd. unfold sigHashFn in Hd.
  destruct (WitnessV0SignatureHash (DoubleSha256 sha256) idx ht t) as [[dg' t1] | | ] eqn:W; cbn [rbind] in Hd; try discriminate Hd.
  assert (dg' = dg) by congruence. subst dg'. split; [exists t1; reflexivity | ]. split; [exact (signed_by _ _ _ Hv) | ].
  intros -> Hc Ho. destruct (C38_bip143_all (DoubleSha256 sha256) idx i t Hi Hc Ho U) as (t2 & W2). rewrite W in W2.
  unfold DoubleSha256 in W2 at 1. congruence.
Qed.
Print Assumptions C98_p2wpkh_spend_partial.

(** For a multisig script by P2SH or P2WSH the property fails: the redeem script alone, without any signature, is
    accepted (the engine runs the redeem script only if two further items are left, C27). *)
Theorem C98_multisig_spend_refuted : forall sha256 m pubs r, hash32 sha256 -> 1 <= m -> GenMultiSigScript m pubs = Ok r ->
  Forall (fun p => bytes_ok p /\ 2 <= len p <= 100) pubs -> len pubs < 2 ^ 20 ->
  exists t1 i1 t2 i2, index (tx_ins t1) 0 = Ok i1 /\ spends_p2sh (Hash160 sha256) r i1 /\ script_pushing (ti_unlock i1) [r] /\ WVerify sha256 t1 = Ok tt /\
    index (tx_ins t2) 0 = Ok i2 /\ spends_p2wsh (Hash160 sha256) sha256 r i2 /\ script_pushing (ti_unlock i2) [r] /\ WVerify sha256 t2 = Ok tt.
Proof.
  intros sha256 m pubs r Hs Hm G Fp Lp. destruct (hashes sha256 Hs) as [H1 H2]. destruct (H1 r) as [O1 L1]. destruct (H2 r) as [O2 L2].
  destruct (multisig_script m pubs r G ltac:(lia) Fp Lp) as (_ & Or & Lr & _).
  assert (Pr : pushable r). { split; [exact Or | ]. split; [lia | ]. split; intros ->; vm_compute in Lr; intuition congruence. }
  destruct (add_item r NewScriptBuilder Pr) as (j & e & _ & Oe & Le & En & P).
  assert (Su : script_pushing e [r]) by (exists [j]; split; [apply encodes_script; exact En | constructor; [exact P | constructor]]).
  assert (M : in_memory (e ++ p2sh_script (Hash160 sha256 r))).
  { unfold p2sh_script. split; [rewrite !bytes_ok_app; repeat split; auto; bytes_ok_tac | ]. rewrite !len_app. change (len [169; 20]) with 2. change (len [135]) with 1.
    clear - Le Lr L1. rewrite L1. lia. }
  set (i1 := MkIn (repeat 7 32) 0 1000 0xffffffff [] (Some r) [] None (p2sh_script (Hash160 sha256 r)) (p2sh_script (Hash160 sha256 r)) e).
  set (i2 := MkIn (repeat 7 32) 0 1000 0xffffffff [] (Some r) [] (Some r) (p2wsh_script (sha256 r)) (p2sh_script (Hash160 sha256 r)) e).
  set (mk := fun i => MkTx 2 0 [i] [MkOut 900 [0x51]] None None None).
  assert (K : forall i s, ParseLockingScript (ti_rawlock i) = Ok s -> ti_finallock i = p2sh_script (Hash160 sha256 r) -> ti_unlock i = e -> WVerify sha256 (mk i) = Ok tt).
  { intros i s Ps F U. unfold WVerify, TxModel.Verify. cbn [mk tx_ins]. cbn [TxModel.verify_from].
    rewrite (redeem_alone _ _ _ 0 i _ r s Ps F O1 L1); [ | rewrite U; exact M | rewrite U; exact Su]. cbn [rbind]. rewrite Ps. reflexivity. }
  exists (mk i1), i1, (mk i2), i2. split; [reflexivity | ]. split; [repeat split | ]. split; [exact Su | ]. split.
  { apply (K i1 (P2SH (Hash160 sha256 r))); [ | reflexivity | reflexivity]. apply (parse_of (P2SH (Hash160 sha256 r))); assumption. }
  split; [reflexivity | ]. split; [repeat split | ]. split; [exact Su | ].
  apply (K i2 (P2WSH (sha256 r))); [ | reflexivity | reflexivity]. apply (parse_of (P2WSH (sha256 r))); assumption.
Qed.
Print Assumptions C98_multisig_spend_refuted.

(** With two further items at least, a P2SH spend carries as many valid signatures, for keys in the order of the
    script, as the script asks for. *)
Theorem C98_multisig_spend_partial : forall sha256 t idx i r ds m pubs, hash32 sha256 -> WVerify sha256 t = Ok tt -> index (tx_ins t) idx = Ok i ->
  spends_p2sh (Hash160 sha256) r i -> in_memory (ti_unlock i ++ ti_finallock i) -> script_pushing (ti_unlock i) ds ->
  GenMultiSigScript m pubs = Ok r -> 0 <= m -> Forall (fun p => bytes_ok p /\ 2 <= len p <= 100) pubs -> len pubs < 2 ^ 20 ->
  3 <= len ds -> (Hash160 sha256 (last ds []) = Hash160 sha256 r -> last ds [] = r) ->
  exists items dummy sigs, ds = items ++ dummy :: sigs ++ [r] /\ len sigs = m /\
    matched (fun sg p => exists der ht dg, sg = der ++ [ht] /\ RawSignatureHash (DoubleSha256 sha256) idx ht t = Ok dg /\
      signed_by_key p der (message_int dg)) sigs pubs.
Proof.
  intros sha256 t idx i r ds m pubs Hs V Hi (Ra & Fi & _) M S G Hm Fp Lp Ld Inj. unfold WVerify in V.
  destruct (hashes sha256 Hs) as [H1 _]. destruct (H1 r) as [O1 L1].
  destruct (verify_nth _ _ _ _ _ _ V Hi) as (t' & C & E & _). rewrite Fi in M.
  assert (Ps : ParseLockingScript (ti_rawlock i) = Ok (P2SH (Hash160 sha256 r))).
  { rewrite Ra. change (p2sh_script (Hash160 sha256 r)) with (template (P2SH (Hash160 sha256 r))). apply parse_of; assumption. }
  destruct (verified_sh _ _ _ idx i t' r ds _ Ps Fi L1 M S Inj E Ld m pubs G Hm Fp Lp) as (items & dummy & sigs & Ed & Ls & Mt).
  exists items, dummy, sigs. split; [exact Ed | ]. split; [exact Ls | ]. clear Ed Ls G Fp Lp. cbn [witness_version] in Mt.
  induction Mt as [ks | sg ss k ks (der & ht & dg & Es & Hd & Hv) Mt IH | ss k ks Mt IH].
  - apply m_nil.
  - apply m_take; [ | exact IH]. exists der, ht, dg. unfold sigHashFn in Hd. rewrite (raw_core _ idx ht t' t C) in Hd.
    split; [exact Es | ]. split; [exact Hd | ]. exact (signed_by _ _ _ Hv).
  - apply m_skip. exact IH.
Qed.
Print Assumptions C98_multisig_spend_partial.

(** A signed transaction: the key with number 2, a stand-in for SHA-256 and a nonce that is always 1. *)
Definition ex_sha (x : bytes) : bytes := map (fun b => b mod 256) (firstn 32 (x ++ repeat 7 32)).
Definition ex_hmac (_ _ : bytes) : bytes := repeat 0 31 ++ [1].
Lemma ex_hash32 : hash32 ex_sha.
Proof.
  intro x. unfold ex_sha. split.
  - apply Forall_map. apply Forall_forall. intros b _. unfold is_byte. pose proof (Z.mod_pos_bound b 256 ltac:(lia)). lia.
  - unfold len. rewrite map_length, firstn_length, app_length, repeat_length. lia.
Qed.
Definition ex_two : Z * (Z * Z) := Eval vm_compute in match PrvKeyFromBytes [2] with Ok k => k | _ => (0, (0, 0)) end.
Lemma ex_made : made_key ex_two.
Proof. exists [2]. split; [bytes_ok_tac | ]. split; [vm_compute; reflexivity | vm_compute; discriminate]. Qed.
Definition ex_key : prvkey := exist _ ex_two ex_made.
Definition ex_h : bytes := Eval vm_compute in Hash160 ex_sha (PubKeyBytes ex_key true).
Definition ex_redeem : bytes := Eval vm_compute in match GenMultiSigScript 1 [PubKeyBytes ex_key false; PubKeyBytes ex_key true] with Ok r => r | _ => [] end.
Definition ex_rh : bytes := Eval vm_compute in Hash160 ex_sha ex_redeem.
Definition ex_ins : list TxIn :=
  [MkIn (repeat 7 32) 1 1000 0xffffffff [] None [] None (p2pkh_script ex_h) (p2pkh_script ex_h) [];
   MkIn (repeat 8 32) 0 1000 0xffffffff [] (Some ex_redeem) [] None (p2sh_script ex_rh) (p2sh_script ex_rh) [];
   MkIn (repeat 9 32) 5 2000 0xffffffff [] None [] (Some (p2pkh_script ex_h)) (p2wpkh_script ex_h) (p2pkh_script ex_h) []].
Definition ex_unsigned : transaction := MkTx 2 0 ex_ins [MkOut 900 [0x51]] None None None.
Definition ex_signed : transaction := Eval vm_compute in
  match sign_each ex_sha prvkey PubKeyBytes (SignHash ex_hmac 1) (DoubleSha256 ex_sha) true 1 0 [[ex_key]; [ex_key]; [ex_key]] ex_unsigned with Ok t => t | _ => ex_unsigned end.
Example C97_example : hash32 ex_sha /\ Forall2 (signers (Hash160 ex_sha) ex_sha prvkey PubKeyBytes true) [[ex_key]; [ex_key]; [ex_key]] (tx_ins ex_unsigned) /\
  sign_each ex_sha prvkey PubKeyBytes (SignHash ex_hmac 1) (DoubleSha256 ex_sha) true 1 0 [[ex_key]; [ex_key]; [ex_key]] ex_unsigned = Ok ex_signed /\
  map (fun i => len (ti_unlock i)) (tx_ins ex_signed) = [106; 178; 106].
Proof.
  assert (E1 : Hash160 ex_sha (PubKeyBytes ex_key true) = ex_h) by (vm_compute; reflexivity).
  assert (E2 : Hash160 ex_sha ex_redeem = ex_rh) by (vm_compute; reflexivity).
  split; [exact ex_hash32 | ]. split.
  - constructor; [ | constructor; [ | constructor; [ | constructor]]].
    + apply can_p2pkh. rewrite E1. repeat split.
    + apply (can_p2sh _ _ _ _ true [ex_key] [PubKeyBytes ex_key false; PubKeyBytes ex_key true] ex_redeem).
      * split; [vm_compute; reflexivity | ]. split; [discriminate | ]. split; [apply m_skip, m_take; [reflexivity | constructor] | ].
        split; [ | reflexivity]. assert (K : forall c, bytes_ok (PubKeyBytes ex_key c) /\ 2 <= len (PubKeyBytes ex_key c) <= 100).
        { intro c. destruct (pub_bytes_ok ex_key c) as [O L]. rewrite L. split; [exact O | destruct c; lia]. }
        constructor; [apply K | constructor; [apply K | constructor]].
      * unfold spends_p2sh. rewrite E2. repeat split.
    + apply can_p2wpkh. rewrite E1. repeat split.
  - split; vm_compute; reflexivity.
Qed.
(** The hypotheses of C98 hold for this transaction. *)
Example C98_example : WVerify ex_sha ex_signed = Ok tt /\ uncached ex_unsigned /\
  exists i1 i2 i3 s1 s2 s3 key, index (tx_ins ex_signed) 0 = Ok i1 /\ index (tx_ins ex_signed) 1 = Ok i2 /\ index (tx_ins ex_signed) 2 = Ok i3 /\
    spends_p2pkh ex_h i1 /\ spends_p2sh (Hash160 ex_sha) ex_redeem i2 /\ spends_p2wpkh ex_h i3 /\
    AllInstructions (ti_unlock i1) = Ok [Instr 71 s1; Instr 33 key] /\ AllInstructions (ti_unlock i2) = Ok [Instr 0 []; Instr 71 s2; Instr 0x4c ex_redeem] /\
    AllInstructions (ti_unlock i3) = Ok [Instr 71 s3; Instr 33 key].
Proof.
  split.
  - destruct C97_example as (H & F & S & _). exact (C97_signed_verifies ex_sha ex_hmac 1 true 1 _ _ _ H ltac:(lia) F S).
  - split; [repeat split | ]. assert (E2 : Hash160 ex_sha ex_redeem = ex_rh) by (vm_compute; reflexivity). unfold spends_p2sh. rewrite E2.
    do 7 eexists. split; [reflexivity | ]. split; [reflexivity | ]. split; [reflexivity | ]. split; [repeat split | ]. split; [repeat split | ]. split; [repeat split | ].
    split; [vm_compute; reflexivity | ]. split; vm_compute; reflexivity.
Qed.
