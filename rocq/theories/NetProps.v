(** C139: what is signed and the rules of the network. *)
From Verif Require Import GoBase BaseLemmas SecpModel SecpSpec SecpLink SecpOrderN EcdsaModel EcdsaSpec EcdsaProofs EcdsaProps PubKeyModel PubKeyProofs PubKeyProps DerModel DerSpec DerProps ScriptModel LockModel LockSpec LockProofs VmSpec
  TxModel TxSpec TxProps TxSig TxSignSpec TxSign TxSign3 HexModel AddressModel BuilderModel WholeModel WholeProofs WholeProps.
From Verif Require PubKeySpec.
From Verif Require Import NetSpec NetProofs BindProofs NetWrong.
From Coq Require Import ZifyBool ZifyNat ZifyN.

(** C139: signed with [SigHashAll], a transaction is sent as the bytes of the network's format and meets its rules for every
    output spent.  Missing: wrong for uncompressed keys in witnesses, redeem scripts over 520 bytes and redeem scripts noted with
    outputs of the first kind, as the three theorems below show; other signature types are not treated. *)
Theorem C139_network_accepts_partial : forall sha256 hmac fuel c kss t t', hash32 sha256 -> uncached t -> tx_ok t' -> tx_ins t <> [] ->
  Forall2 (net_signers sha256 c) kss (tx_ins t) ->
  sign_each sha256 prvkey PubKeyBytes (SignHash hmac fuel) (DoubleSha256 sha256) c 1 0 kss t = Ok t' ->
  Serialize t' = net_bytes (sent t') /\ net_accepts sha256 (Hash160 sha256) (sent t') (spent_outputs t).
Proof. intros. eapply signed_taken; eauto. Qed.
Print Assumptions C139_network_accepts_partial.
(** The same of what the builder builds and signs. *)
Theorem C139_built_accepted_partial : forall sha256 hmac fuel b t, hash32 sha256 -> b_sign prvkey b = true -> Forall (net_group sha256) (b_groups prvkey b) ->
  WBuildTransaction sha256 hmac fuel b = Ok t -> tx_ok t ->
  Serialize t = net_bytes (sent t) /\ net_accepts sha256 (Hash160 sha256) (sent t) (spent_outputs t).
Proof. intros. eapply built_taken; eauto. Qed.
Print Assumptions C139_built_accepted_partial.

Example C139_example : uncached ex_unsigned /\ tx_ok ex_signed /\ tx_ins ex_unsigned <> [] /\ Forall2 (net_signers ex_sha true) [[ex_key]; [ex_key]; [ex_key]] (tx_ins ex_unsigned) /\
  sign_each ex_sha prvkey PubKeyBytes (SignHash ex_hmac 1) (DoubleSha256 ex_sha) true 1 0 [[ex_key]; [ex_key]; [ex_key]] ex_unsigned = Ok ex_signed /\
  map (fun i => len (n_script i)) (n_ins (sent ex_signed)) = [106; 178; 0] /\ map (fun i => map len (n_witness i)) (n_ins (sent ex_signed)) = [[]; []; [71; 33]].
Proof.
  assert (E1 : Hash160 ex_sha (PubKeyBytes ex_key true) = ex_h) by (vm_compute; reflexivity). assert (E2 : Hash160 ex_sha ex_redeem = ex_rh) by (vm_compute; reflexivity).
  split; [repeat split|]. split; [tx_ok_tac|]. split; [discriminate|]. split; [|split; [apply C97_example|split; vm_compute; reflexivity]].
  constructor; [apply ns_p2pkh; [rewrite E1; repeat split|reflexivity]|]. constructor; [|constructor; [apply ns_p2wpkh; [rewrite E1; repeat split|reflexivity]|constructor]].
  apply (ns_p2sh _ true [ex_key] [PubKeyBytes ex_key false; PubKeyBytes ex_key true] ex_redeem).
  - split; [vm_compute; reflexivity|]. split; [discriminate|]. split; [apply m_skip, m_take; [reflexivity|constructor]|]. split; [|reflexivity].
    assert (K : forall c, bytes_ok (PubKeyBytes ex_key c) /\ 2 <= len (PubKeyBytes ex_key c) <= 100) by (intro c; destruct (pub_bytes_ok ex_key c) as [O L]; rewrite L; split; [exact O|destruct c; lia]). constructor; [apply K|constructor; [apply K|constructor]].
  - unfold spends_p2sh. rewrite E2. repeat split.
  - vm_compute. discriminate.
  - constructor; [right; vm_compute; auto|constructor; [left; vm_compute; auto|constructor]].
  - vm_compute. discriminate.
Qed.

Definition ex_net_builder : TransactionBuilder prvkey :=
  MkBuilder prvkey 1 true 100000000 150 0 0 None
    [MkGroup prvkey (Some (MkCoin (hex_encode (repeat 7 32)) 1 1000 (hex_encode (p2pkh_script ex_h)))) (Some [ex_key]) (Some (MkOutput (Some (PayToPubKeyHashAddress (repeat 4 20))) 700)) true None 1;
     MkGroup prvkey (Some (MkCoin (hex_encode (repeat 9 32)) 5 2000 (hex_encode (p2wpkh_script ex_h)))) (Some [ex_key]) (Some (MkOutput (Some (PayToPubKeyHashAddress (repeat 5 20))) 2150)) true None 1] [].
Example C139_built_example : Forall (net_group ex_sha) (b_groups prvkey ex_net_builder) /\
  exists t, WBuildTransaction ex_sha ex_hmac 1 ex_net_builder = Ok t /\ tx_ok t /\ map (fun i => (len (n_script i), map len (n_witness i))) (n_ins (sent t)) = [(106, []); (0, [71; 33])].
Proof.
  assert (E1 : Hash160 ex_sha (PubKeyBytes ex_key true) = ex_h) by (vm_compute; reflexivity). split.
  - constructor; [|constructor; [|constructor]]; (split; [reflexivity|]); eexists _, _; (split; [reflexivity|]); (split; [vm_compute; reflexivity|]); cbn [g_compressed g_redeem].
    + change (net_can ex_sha true [ex_key] (p2pkh_script ex_h) None). rewrite <- E1. constructor.
    + change (net_can ex_sha true [ex_key] (p2wpkh_script ex_h) None). rewrite <- E1. now constructor.
  - eexists. split; [vm_compute; reflexivity|]. split; [tx_ok_tac|]. vm_compute. reflexivity.
Qed.

(** An uncompressed key in a witness: signed and verified, but the network does not take it. *)
Definition ex_h65 : bytes := Eval vm_compute in Hash160 ex_sha (PubKeyBytes ex_key false).
Definition ex_long : transaction := MkTx 2 0 [MkIn (repeat 9 32) 5 2000 0xffffffff [] None [] (Some (p2pkh_script ex_h65)) (p2wpkh_script ex_h65) (p2pkh_script ex_h65) []] [MkOut 900 [0x51]] None None None.
Definition ex_long_signed : transaction := Eval vm_compute in
  match sign_each ex_sha prvkey PubKeyBytes (SignHash ex_hmac 1) (DoubleSha256 ex_sha) false 1 0 [[ex_key]] ex_long with Ok t => t | _ => ex_long end.
Theorem C139_uncompressed_refuted : exists sha256 hmac fuel c kss t t', hash32 sha256 /\ uncached t /\ tx_ok t /\ tx_ok t' /\ tx_ins t <> [] /\
  Forall2 (signers (Hash160 sha256) sha256 prvkey PubKeyBytes c) kss (tx_ins t) /\
  sign_each sha256 prvkey PubKeyBytes (SignHash hmac fuel) (DoubleSha256 sha256) c 1 0 kss t = Ok t' /\
  WVerify sha256 t' = Ok tt /\ ~ net_accepts sha256 (Hash160 sha256) (sent t') (spent_outputs t).
Proof.
  exists ex_sha, ex_hmac, 1%nat, false, [[ex_key]], ex_long, ex_long_signed. split; [exact ex_hash32|]. split; [repeat split|]. split; [tx_ok_tac|]. split; [tx_ok_tac|]. split; [discriminate|].
  assert (F : Forall2 (signers (Hash160 ex_sha) ex_sha prvkey PubKeyBytes false) [[ex_key]] (tx_ins ex_long)).
  { constructor; [|constructor]. apply can_p2wpkh. replace (Hash160 ex_sha (PubKeyBytes ex_key false)) with ex_h65 by (vm_compute; reflexivity). repeat split. }
  assert (S : sign_each ex_sha prvkey PubKeyBytes (SignHash ex_hmac 1) (DoubleSha256 ex_sha) false 1 0 [[ex_key]] ex_long = Ok ex_long_signed) by (vm_compute; reflexivity).
  split; [exact F|]. split; [exact S|]. split; [exact (C97_signed_verifies ex_sha ex_hmac 1 false 1 _ _ _ ex_hash32 ltac:(lia) F S)|].
  intros (_ & _ & A). specialize (A 0%nat _ _ _ eq_refl eq_refl). destruct A as [sig key L|sigs script L|sig key _ _ W N|sigs script _ _ _ W (m & keys & _ & Rm & _ & _ & _ & _)]; try discriminate L.
  - destruct N as [K _]. assert (Lk : len key = 65) by (unfold sent, sent_in in W; cbn in W; injection W as _ <-; reflexivity). destruct K as [[K _]|[K _]]; [lia|discriminate].
  - cbn in W. discriminate W.
Qed.
Print Assumptions C139_uncompressed_refuted.

(** A redeem script of more than 520 bytes. *)
Definition ex_keys16 : list bytes := repeat (PubKeyBytes ex_key true) 16.
Definition ex_redeem16 : bytes := Eval vm_compute in match GenMultiSigScript 1 ex_keys16 with Ok r => r | _ => [] end.
Definition ex_rh16 : bytes := Eval vm_compute in Hash160 ex_sha ex_redeem16.
Definition ex_big : transaction := MkTx 2 0 [MkIn (repeat 8 32) 0 1000 0xffffffff [] (Some ex_redeem16) [] None (p2sh_script ex_rh16) (p2sh_script ex_rh16) []] [MkOut 900 [0x51]] None None None.
Definition ex_big_signed : transaction := Eval vm_compute in
  match sign_each ex_sha prvkey PubKeyBytes (SignHash ex_hmac 1) (DoubleSha256 ex_sha) true 1 0 [[ex_key]] ex_big with Ok t => t | _ => ex_big end.
Theorem C139_large_redeem_refuted : exists sha256 hmac fuel c kss t t', hash32 sha256 /\ uncached t /\ tx_ok t /\ tx_ok t' /\ tx_ins t <> [] /\
  Forall2 (signers (Hash160 sha256) sha256 prvkey PubKeyBytes c) kss (tx_ins t) /\
  sign_each sha256 prvkey PubKeyBytes (SignHash hmac fuel) (DoubleSha256 sha256) c 1 0 kss t = Ok t' /\
  WVerify sha256 t' = Ok tt /\ ~ net_accepts sha256 (Hash160 sha256) (sent t') (spent_outputs t).
Proof.
  exists ex_sha, ex_hmac, 1%nat, true, [[ex_key]], ex_big, ex_big_signed. split; [exact ex_hash32|]. split; [repeat split|]. split; [tx_ok_tac|]. split; [tx_ok_tac|]. split; [discriminate|].
  assert (E2 : Hash160 ex_sha ex_redeem16 = ex_rh16) by (vm_compute; reflexivity).
  assert (F : Forall2 (signers (Hash160 ex_sha) ex_sha prvkey PubKeyBytes true) [[ex_key]] (tx_ins ex_big)).
  { constructor; [|constructor]. apply (can_p2sh _ _ _ _ true [ex_key] ex_keys16 ex_redeem16); [|unfold spends_p2sh; rewrite E2; repeat split].
    split; [vm_compute; reflexivity|]. split; [discriminate|]. split; [unfold ex_keys16; cbn [repeat]; apply m_take; [reflexivity|repeat constructor]|]. split; [|vm_compute; reflexivity].
    destruct (pub_bytes_ok ex_key true) as [O L]. apply Forall_forall. intros p Hp. apply repeat_spec in Hp. subst p. rewrite L. split; [exact O|lia]. }
  assert (S : sign_each ex_sha prvkey PubKeyBytes (SignHash ex_hmac 1) (DoubleSha256 ex_sha) true 1 0 [[ex_key]] ex_big = Ok ex_big_signed) by (vm_compute; reflexivity).
  split; [exact F|]. split; [exact S|]. split; [exact (C97_signed_verifies ex_sha ex_hmac 1 true 1 _ _ _ ex_hash32 ltac:(lia) F S)|].
  intros (_ & _ & A). specialize (A 0%nat _ _ _ eq_refl eq_refl). destruct A as [sig key L|sigs script _ Ls Sc _ (m & keys & _ & _ & _ & _ & _ & Mt)|sig key L|sigs script L]; try discriminate L. clear F S E2.
  set (u := n_script (hd (NIn [] 0 [] 0 []) (n_ins (sent ex_big_signed)))) in *. change (u = 0 :: concat (map shortest_push sigs) ++ shortest_push script) in Sc.
  assert (U : u = 0 :: shortest_push (firstn 71 (skipn 2 u)) ++ shortest_push ex_redeem16) by (vm_compute; reflexivity). set (s0 := firstn 71 (skipn 2 u)) in *. assert (L0 : len s0 = 71) by (vm_compute; reflexivity). assert (Lr : len ex_redeem16 = 547) by (vm_compute; reflexivity).
  assert (B : bytes_ok u) by (unfold u; bytes_ok_tac). clearbody s0. clearbody u.
  rewrite Sc in B. pose proof (Forall_inv_tail B) as B'. rewrite Sc in U. injection U as U. clear Sc B. apply Forall_app in B'. destruct B' as [B Bs].
  assert (Sl : Forall (fun s => len s <= 65535) sigs).
  { clear - B Mt. revert B. induction Mt as [|s k ss ks N Mt IH|ss k ks Mt IH]; intros B; [constructor| |now apply IH]. cbn [map concat] in B. apply Forall_app in B. destruct B as [B1 B2]. constructor; [apply (net_sig_len _ _ _ _ (push_bytes _ B1) N)|now apply IH]. }
  revert U Lr. generalize ex_redeem16. intros R U Lr. destruct sigs as [|s1 sigs]; cbn [map concat app] in U.
  - rewrite <- (app_nil_r (shortest_push script)) in U. apply push_inj in U; [|lia|lia]. destruct U as [_ U]. symmetry in U. now apply push_some in U.
  - inversion Sl as [|? ? L1 Sl']; subst. rewrite <- app_assoc in U. apply push_inj in U; [|lia|lia]. destruct U as [_ U]. destruct sigs as [|s2 sigs]; cbn [map concat app] in U.
    + rewrite <- (app_nil_r (shortest_push script)), <- (app_nil_r (shortest_push R)) in U. apply push_inj in U; [|lia|lia]. destruct U as [-> _]. lia.
    + inversion Sl' as [|? ? L2 _]; subst. rewrite <- app_assoc, <- (app_nil_r (shortest_push R)) in U. apply push_inj in U; [|lia|lia]. destruct U as [_ U]. apply app_eq_nil in U. now apply (push_some script).
Qed.
Print Assumptions C139_large_redeem_refuted.

(** A redeem script noted with an output of the first kind, as [SetRedeemScript] of the builder does: it is signed
    in the place of the locking script. *)
Definition ex_sum (x : bytes) : bytes := repeat 0 31 ++ [fold_right Z.add 0 x mod 256].
Lemma ex_sum32 : hash32 ex_sum.
Proof. intros x. unfold ex_sum. split; [apply Forall_app; split; [repeat constructor; unfold is_byte; lia|constructor; [|constructor]; unfold is_byte; pose proof (Z.mod_pos_bound (fold_right Z.add 0 x) 256 ltac:(lia)); lia]|]. rewrite len_app. reflexivity. Qed.
Definition ex_hs : bytes := Eval vm_compute in Hash160 ex_sum (PubKeyBytes ex_key true).
Definition ex_stray : transaction := MkTx 2 0 [MkIn (repeat 7 32) 1 1000 0xffffffff [] (Some [0x51]) [] None (p2pkh_script ex_hs) (p2pkh_script ex_hs) []] [MkOut 900 [0x51]] None None None.
Definition ex_stray_signed : transaction := Eval vm_compute in
  match sign_each ex_sum prvkey PubKeyBytes (SignHash ex_hmac 1) (DoubleSha256 ex_sum) true 1 0 [[ex_key]] ex_stray with Ok t => t | _ => ex_stray end.
Theorem C139_stray_redeem_refuted : exists sha256 hmac fuel c kss t t', hash32 sha256 /\ uncached t /\ tx_ok t /\ tx_ok t' /\ tx_ins t <> [] /\
  Forall2 (signers (Hash160 sha256) sha256 prvkey PubKeyBytes c) kss (tx_ins t) /\
  sign_each sha256 prvkey PubKeyBytes (SignHash hmac fuel) (DoubleSha256 sha256) c 1 0 kss t = Ok t' /\
  WVerify sha256 t' = Ok tt /\ ~ net_accepts sha256 (Hash160 sha256) (sent t') (spent_outputs t).
Proof.
  exists ex_sum, ex_hmac, 1%nat, true, [[ex_key]], ex_stray, ex_stray_signed. split; [exact ex_sum32|]. split; [repeat split|]. split; [tx_ok_tac|]. split; [tx_ok_tac|]. split; [discriminate|].
  assert (F : Forall2 (signers (Hash160 ex_sum) ex_sum prvkey PubKeyBytes true) [[ex_key]] (tx_ins ex_stray)).
  { constructor; [|constructor]. apply can_p2pkh. replace (Hash160 ex_sum (PubKeyBytes ex_key true)) with ex_hs by (vm_compute; reflexivity). repeat split. }
  assert (S : sign_each ex_sum prvkey PubKeyBytes (SignHash ex_hmac 1) (DoubleSha256 ex_sum) true 1 0 [[ex_key]] ex_stray = Ok ex_stray_signed) by (vm_compute; reflexivity).
  split; [exact F|]. split; [exact S|]. split; [exact (C97_signed_verifies ex_sum ex_hmac 1 true 1 _ _ _ ex_sum32 ltac:(lia) F S)|].
  intros (_ & _ & A). specialize (A 0%nat _ _ _ eq_refl eq_refl). destruct A as [sig key _ Sc _ N|sigs script L|sig key L|sigs script L]; try discriminate L. clear F S.
  set (u := n_script (hd (NIn [] 0 [] 0 []) (n_ins (sent ex_stray_signed)))) in *. change (u = shortest_push sig ++ shortest_push key) in Sc.
  set (h' := old_digest ex_sum 0 _ _) in N. set (h := old_digest ex_sum 0 [0x51] (sent ex_stray)).
  assert (D : exists der, SignHash ex_hmac 1 ex_key h = Ok der /\ u = shortest_push (der ++ [1]) ++ shortest_push (PubKeyBytes ex_key true) /\ len der = 70 /\ exists r s, SigDeserialize der = Ok (r, s) /\ prime_p - order_n <= r /\
    (message_int h' - message_int h) mod order_n <> 0 /\ (message_int h' + message_int h + 2 * r * 2) mod order_n <> 0).
  { eexists. split; [vm_compute; reflexivity|]. split; [vm_compute; reflexivity|]. split; [vm_compute; reflexivity|]. eexists _, _. split; [vm_compute; reflexivity|]. split; [vm_compute; discriminate|]. split; vm_compute; discriminate. }
  destruct D as (der & Sd & U & Ld & r & s & Rd & Lr & N1 & N2). clearbody h h'. destruct (pub_bytes ex_key true) as (x & y & P & G & Kb & _).
  assert (M : multiple base 2 (Some (x, y))) by (destruct (made_good _ (proj2_sig ex_key)) as (_ & _ & MQ); rewrite P in MQ; exact MQ).
  assert (Bu : bytes_ok u) by (unfold u; bytes_ok_tac). clearbody u. rewrite Sc in Bu. apply Forall_app in Bu. destruct Bu as [Bs _]. apply push_bytes in Bs.
  pose proof (net_sig_len _ _ _ _ Bs N) as Ln. pose proof (sec_form_len _ _ (proj1 N)) as Lk. pose proof (signature_ok ex_sum ex_hmac 1 false ex_key true h der Sd ltac:(discriminate)) as N0.
  pose proof (sec_form_len _ _ (proj1 N0)) as Lk0. rewrite Sc in U. apply push_inj in U; [|lia|rewrite len_app, Ld; vm_compute; discriminate]. destruct U as [Es U]. subst sig.
  rewrite <- (app_nil_r (shortest_push key)), <- (app_nil_r (shortest_push (PubKeyBytes ex_key true))) in U. apply push_inj in U; [|lia|lia]. destruct U as [-> _].
  assert (En : PubKeySpec.encodes (PubKeyBytes ex_key true) x y) by (rewrite Kb; constructor).
  destruct (two_digests _ _ _ _ _ 2 x y En G M Bs N0 N) as (r' & s' & Rd' & T). rewrite removelast_last, Rd in Rd'. injection Rd' as <- <-. destruct (T Lr); contradiction.
Qed.
Print Assumptions C139_stray_redeem_refuted.
