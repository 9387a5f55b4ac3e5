(** C150: signing an input with no key at all. *)
From Verif Require Import GoBase BaseLemmas SecpModel SecpSpec EcdsaModel EcdsaSpec PubKeyModel HexModel AddressModel ScriptModel ScriptSpec ScriptProofs LockModel LockSpec LockProofs VmSpec VmModel VmProofs VmMore VmLock TxModel TxSpec TxProofs TxSig
  TxSignSpec TxSign TxSign2 TxSign3 BuilderModel BuilderSpec BuilderProofs BuilderSign TxSignProps BuilderCalls BuilderProps SpendSpec SpendProofs SpendProps WholeModel WholeProofs WholeProps.
Local Open Scope Z_scope.

Lemma no_signs sha256 DS (prvkey : Type) PubKeyBytes EcdsaSign idx c ht t i : index (tx_ins t) idx = Ok i ->
  SignIndex sha256 DS prvkey PubKeyBytes EcdsaSign idx c ht [] t = EmbedIdxSignature sha256 idx [] t.
Proof. intros E. unfold SignIndex. rewrite E. cbn [rbind]. change (1 <? len (@nil prvkey)) with false. cbn [andb sign_loop rbind]. reflexivity. Qed.

(** C150 is false of SignIndex: an input that pays to a key's hash makes it panic, whatever the transaction. *)
Theorem C150_key_hash_refuted : forall sha256 DS (prvkey : Type) PubKeyBytes EcdsaSign idx c ht t i h, index (tx_ins t) idx = Ok i -> bytes_ok h -> len h = 20 ->
  ti_rawlock i = p2pkh_script h \/ ti_rawlock i = p2wpkh_script h -> SignIndex sha256 DS prvkey PubKeyBytes EcdsaSign idx c ht [] t = Panic.
Proof.
  intros sha256 DS prvkey PubKeyBytes EcdsaSign idx c ht t i h Hi O L R. rewrite (no_signs _ _ _ _ _ _ _ _ _ _ Hi). unfold EmbedIdxSignature. rewrite Hi. cbn [rbind]. change (1 <? len (@nil PubKeySign)) with false. cbn [andb].
  destruct R as [-> | ->]; [change (p2pkh_script h) with (template (P2PKH h)); rewrite (parse_of (P2PKH h) O L)|change (p2wpkh_script h) with (template (P2WPKH h)); rewrite (parse_of (P2WPKH h) O L)]; reflexivity.
Qed.
Print Assumptions C150_key_hash_refuted.

(** One that pays to a script's hash is signed without a word, and the transaction without any signature verifies: this
    for every one-input transaction. *)
Theorem C150_script_hash_refuted : forall sha256 hmac fuel c ht t i r, hash32 sha256 -> tx_ins t = [i] ->
  spends_p2sh (Hash160 sha256) r i \/ spends_p2wsh (Hash160 sha256) sha256 r i -> bytes_ok r -> 2 <= len r <= 520 ->
  exists t', SignIndex sha256 (DoubleSha256 sha256) prvkey PubKeyBytes (SignHash hmac fuel) 0 c ht [] t = Ok t' /\ WVerify sha256 t' = Ok tt /\ tx_outs t' = tx_outs t /\
    exists i', tx_ins t' = [i'] /\ script_pushing (ti_unlock i') [r] /\ (ti_witness i' = [] \/ ti_witness i' = [r]).
Proof.
  intros sha256 hmac fuel c ht t i r Hs Hi Sp Or Lr. destruct (hashes sha256 Hs) as [H1 H2]. destruct (H1 r) as [O1 L1]. destruct (H2 r) as [O2 L2].
  assert (Ix : index (tx_ins t) 0 = Ok i) by (rewrite Hi; reflexivity). rewrite (no_signs _ _ _ _ _ _ _ _ _ _ Ix). unfold EmbedIdxSignature. rewrite Ix. cbn [rbind]. change (1 <? len (@nil PubKeySign)) with false. cbn [andb].
  assert (Pr : pushable r). { split; [exact Or | ]. split; [lia | ]. split; intros ->; vm_compute in Lr; intuition congruence. }
  destruct (add_item r NewScriptBuilder Pr) as (j & e & Ee & Oe & Le & En & P). change (Script NewScriptBuilder) with (@nil Z) in Ee. cbn [app] in Ee.
  assert (Su : script_pushing e [r]) by (exists [j]; split; [apply encodes_script; exact En | constructor; [exact P | constructor]]).
  assert (M : in_memory (e ++ p2sh_script (Hash160 sha256 r))).
  { unfold p2sh_script. split; [rewrite !bytes_ok_app; repeat split; auto; bytes_ok_tac | ]. rewrite !len_app. change (len [169; 20]) with 2. change (len [135]) with 1.
    clear - Le Lr L1. rewrite L1. lia. }
  assert (Uk : p2sh_unlocking [] r = e) by (unfold p2sh_unlocking; change (0 <? len (@nil PubKeySign)) with false; exact Ee).
  assert (K : forall t' i' s, tx_ins t' = [i'] -> ParseLockingScript (ti_rawlock i') = Ok s -> ti_finallock i' = p2sh_script (Hash160 sha256 r) -> ti_unlock i' = e -> WVerify sha256 t' = Ok tt).
  { intros t' i' s Ei Ps F U. unfold WVerify, TxModel.Verify. rewrite Ei. cbn [TxModel.verify_from].
    rewrite (redeem_alone _ _ _ 0 i' _ r s Ps F O1 L1); [ | rewrite U; exact M | rewrite U; exact Su]. cbn [rbind]. rewrite Ps. reflexivity. }
  assert (Si : forall f, tx_ins (set_in 0 f t) = [f i] /\ tx_outs (set_in 0 f t) = tx_outs t) by (intros f; unfold set_in; rewrite Hi; split; reflexivity).
  destruct Sp as [(Ra & Fi & Re & Co) | (Ra & Fi & Re & Co)].
  - assert (Ps : ParseLockingScript (ti_rawlock i) = Ok (P2SH (Hash160 sha256 r))) by (rewrite Ra; apply (parse_of (P2SH (Hash160 sha256 r))); assumption).
    rewrite Ps, Re. cbn [rbind GetRawUnlockingScriptBytes GetWitnessUnlockingScriptBytes nilb]. rewrite Uk. eexists. split; [reflexivity|]. destruct (Si (fun i0 => with_witness [] (with_unlock e i0))) as [S1 S2].
    split; [eapply (K _ _ (P2SH (Hash160 sha256 r))); [exact S1|exact Ps|exact Fi|reflexivity]|]. split; [exact S2|]. eexists. split; [exact S1|]. split; [exact Su|left; reflexivity].
  - assert (Ps : ParseLockingScript (ti_rawlock i) = Ok (P2WSH (sha256 r))) by (rewrite Ra; apply (parse_of (P2WSH (sha256 r))); assumption).
    rewrite Ps, Re. cbn [rbind GetRawUnlockingScriptBytes GetWitnessUnlockingScriptBytes nilb]. rewrite list_Z_eqb_refl. cbn [negb rbind]. rewrite Uk. change (0 <? len (@nil PubKeySign)) with false. cbn [app]. eexists. split; [reflexivity|].
    destruct (Si (fun i0 => with_witness [r] (with_unlock e i0))) as [S1 S2].
    split; [eapply (K _ _ (P2WSH (sha256 r))); [exact S1|exact Ps|exact Fi|reflexivity]|]. split; [exact S2|]. eexists. split; [exact S1|]. split; [exact Su|right; reflexivity].
Qed.
Print Assumptions C150_script_hash_refuted.

Section Calls.
Variable Hash160 sha256 DS : bytes -> bytes.
Variable prvkey : Type.
Variable PubKeyBytes : prvkey -> bool -> bytes.
Variable EcdsaSign : prvkey -> bytes -> res bytes.
Notation Build := (BuildTransaction Hash160 sha256 DS prvkey PubKeyBytes EcdsaSign).
Definition keyless (g : Group prvkey) : Prop := g_keys prvkey g = None.
Lemma update_keyless f gs n : (forall g, keyless g -> keyless (f g)) -> Forall keyless gs -> Forall keyless (update n f gs).
Proof. intros F H. revert n. induction H as [|g gs Hg H IH]; intros [|n]; cbn [update]; constructor; auto. Qed.
Lemma calls_keyless : forall cs (b b' : TransactionBuilder prvkey), do_calls prvkey cs b = Ok b' -> (forall ks, ~ In (CAddKeys prvkey ks) cs) -> Forall keyless (b_groups prvkey b) -> Forall keyless (b_groups prvkey b').
Proof.
  induction cs as [|c cs IH]; intros b b' E N F; cbn [do_calls] in E; [now injection E as <-|]. apply rbind_ok in E. destruct E as (b1 & E1 & E). apply (IH b1 b' E); [intros ks I; apply (N ks); now right|].
  destruct c; cbn [do_call] in E1; try (injection E1 as <-; exact F); try (unfold AddCoin, To, SetRedeemScript, SetPubKeyUncompressed, SetSigHashType, set_group in E1; apply rbind_ok in E1; destruct E1 as (? & _ & E1); injection E1 as <-; cbn [b_groups]; apply update_keyless; [intros g Hg; exact Hg|exact F]).
  - elim (N ks). now left.
  - injection E1 as <-. cbn [Then b_groups]. apply Forall_app. split; [exact F|]. repeat constructor.
Qed.
Lemma calls_sign : forall cs (b b' : TransactionBuilder prvkey), do_calls prvkey cs b = Ok b' -> In (CSign prvkey) cs \/ b_sign prvkey b = true -> b_sign prvkey b' = true.
Proof.
  induction cs as [|c cs IH]; intros b b' E N; cbn [do_calls] in E; [injection E as <-; destruct N as [[]|N]; exact N|]. apply rbind_ok in E. destruct E as (b1 & E1 & E). apply (IH b1 b' E).
  destruct N as [[->|N]|N]; [right; cbn [do_call] in E1; injection E1 as <-; reflexivity|left; exact N|right].
  destruct c; cbn [do_call] in E1; try (unfold AddCoin, AddKeys, To, SetRedeemScript, SetPubKeyUncompressed, SetSigHashType, set_group in E1; apply rbind_ok in E1; destruct E1 as (? & _ & E1)); injection E1 as <-; cbn [b_sign]; try exact N; reflexivity.
Qed.
Lemma gather_keyless : forall gs a a', gather Hash160 prvkey gs a = Ok a' -> Forall keyless gs -> (length (ga_inputs prvkey a) = length (ga_txins prvkey a) /\ Forall (fun x => n_keys prvkey x = None) (ga_inputs prvkey a)) ->
  length (ga_inputs prvkey a') = length (ga_txins prvkey a') /\ Forall (fun x => n_keys prvkey x = None) (ga_inputs prvkey a').
Proof.
  induction gs as [|g gs IH]; intros a a' E F I; cbn [gather] in E; [now injection E as <-|]. apply rbind_ok in E. destruct E as (a1 & E1 & E). apply rbind_ok in E. destruct E as (a2 & E2 & E).
  inversion F as [|? ? Kg F']; subst. apply (IH a2 a' E F'). assert (A1 : length (ga_inputs prvkey a1) = length (ga_txins prvkey a1) /\ Forall (fun x => n_keys prvkey x = None) (ga_inputs prvkey a1)).
  { unfold gather_in in E1. destruct (g_coin prvkey g) as [c|]; [|now injection E1 as <-]. apply rbind_ok in E1. destruct E1 as (? & _ & E1). apply rbind_ok in E1. destruct E1 as (? & _ & E1). apply rbind_ok in E1. destruct E1 as (? & _ & E1).
    injection E1 as <-. cbn [ga_inputs ga_txins]. rewrite !app_length. destruct I as [I1 I2]. split; [rewrite I1; reflexivity|]. apply Forall_app. split; [exact I2|]. constructor; [exact Kg|constructor]. }
  unfold gather_out in E2. destruct (g_output prvkey g) as [o|]; [|now injection E2 as <-]. injection E2 as <-. exact A1.
Qed.
Lemma build_keyless (b : TransactionBuilder prvkey) t : b_sign prvkey b = true -> Forall keyless (b_groups prvkey b) -> Build (unsigned prvkey b) = Ok t -> Build b = Err "transaction.builder.sign.key.empty".
Proof.
  unfold BuildTransaction. cbn [unsigned b_groups b_maxFees b_sign]. intros Sg F E. apply rbind_ok in E. destruct E as (a & Ea & E). rewrite Ea. cbn [rbind].
  change (build_fees prvkey (unsigned prvkey b) a) with (build_fees prvkey b a) in E. change (change_out prvkey (unsigned prvkey b)) with (change_out prvkey b) in E.
  destruct (len (ga_txins prvkey a) =? 0) eqn:C1; [discriminate|]. destruct (len (ga_txouts prvkey a) =? 0); [discriminate|].
  destruct (b_maxFees prvkey b <? _); [discriminate|]. destruct (ga_in prvkey a <? _); [discriminate|]. destruct (i64 _ <? 0); [discriminate|]. apply rbind_ok in E. destruct E as (ch & -> & _). cbn [rbind]. rewrite Sg.
  destruct (gather_keyless _ _ _ Ea F) as [L K]; [split; [reflexivity|constructor]|]. destruct (ga_inputs prvkey a) as [|x xs]; [exfalso; unfold len in C1; rewrite <- L in C1; discriminate|]. inversion K as [|? ? Kx K']; subst. cbn [sign_inputs]. rewrite Kx. reflexivity.
Qed.
End Calls.

(** C150: the builder, told to sign and never given keys, answers with an error where it would otherwise have built. *)
Theorem C150_builder_partial : forall Hash160 sha256 DS prvkey PubKeyBytes EcdsaSign cs b,
  do_calls prvkey cs (NewTransactionBuilder prvkey) = Ok b -> In (CSign prvkey) cs -> (forall ks, ~ In (CAddKeys prvkey ks) cs) ->
  sums_ok prvkey cs -> Forall (fun c => len (coin_script c) <= 2 ^ 48) (said_coins prvkey cs) -> said_relay prvkey cs <= 0 ->
  (forall t, BuildTransaction Hash160 sha256 DS prvkey PubKeyBytes EcdsaSign b <> Ok t) /\
  (can_build prvkey cs -> (0 < left_over prvkey cs -> exists a, said_change prvkey cs = Some (Some a)) ->
   BuildTransaction Hash160 sha256 DS prvkey PubKeyBytes EcdsaSign b = Err "transaction.builder.sign.key.empty").
Proof.
  intros Hash160 sha256 DS prvkey PubKeyBytes EcdsaSign cs b E Is Nk (Ac & Ap & Rf & T1 & T2) Sh Re.
  pose proof (calls_sign prvkey cs _ _ E (or_introl Is)) as Sg. assert (F : Forall (keyless prvkey) (b_groups prvkey b)) by (apply (calls_keyless prvkey cs _ _ E Nk); repeat constructor).
  pose proof (build_keyless Hash160 sha256 DS prvkey PubKeyBytes EcdsaSign b) as B. split.
  - intros t Et. destruct (build_needs Hash160 sha256 DS prvkey PubKeyBytes EcdsaSign b t Et) as (u & Eu). rewrite (B u Sg F Eu) in Et. discriminate.
  - intros Cb Ch. destruct (state_said prvkey cs) as (b' & E' & C & P & D & Chg & Sf & Rl & Mx & _). rewrite E in E'. injection E' as <-. rewrite i64_id in Sf by lia.
    assert (U : exists t, BuildTransaction Hash160 sha256 DS prvkey PubKeyBytes EcdsaSign (unsigned prvkey b) = Ok t).
    { unfold can_build, left_over in *. rewrite <- C, <- P, <- Chg, <- Sf, <- Mx, <- Rl in *. apply (build_unsigned Hash160 sha256 DS prvkey PubKeyBytes EcdsaSign (unsigned prvkey b)); try assumption; try reflexivity. split; assumption. }
    destruct U as (u & Eu). exact (B u Sg F Eu).
Qed.
Print Assumptions C150_builder_partial.

Definition keyless_calls (script : bytes) : list (call Z) := [CAddCoin Z (ex_coin 3 1000 script); CTo Z (ex_addr 1) 700; CChange Z (ex_addr 9); CFees Z 100; CSign Z].
Definition empty_slice (script : bytes) : list (call Z) := CAddKeys Z (Some []) :: keyless_calls script.
(** Without AddKeys an error; with an empty slice of keys a panic, or for a script's hash a transaction. *)
Example C150_example : built (keyless_calls (p2pkh_script (repeat 7 20))) tx_outs = Err "transaction.builder.sign.key.empty"%string /\
  built (empty_slice (p2pkh_script (repeat 7 20))) tx_outs = Panic /\ built (empty_slice (p2wpkh_script (repeat 7 20))) tx_outs = Panic /\
  built (CRedeem Z (Some toy_redeem) :: empty_slice (p2sh_script (toy160 toy_redeem))) (fun t => map (fun i => len (ti_unlock i)) (tx_ins t)) = Ok [len toy_redeem + 1] /\
  (forall ks, ~ In (CAddKeys Z ks) (keyless_calls [])) /\ sums_ok Z (keyless_calls (p2pkh_script (repeat 7 20))) /\ 0 < left_over Z (keyless_calls (p2pkh_script (repeat 7 20))).
Proof.
  split; [vm_compute; reflexivity|]. split; [vm_compute; reflexivity|]. split; [vm_compute; reflexivity|]. split; [vm_compute; reflexivity|]. split; [intros ks H; repeat (destruct H as [H|H]; [discriminate|]); destruct H|].
  split; [|vm_compute; reflexivity]. repeat split; try (vm_compute; reflexivity); try (vm_compute; discriminate); repeat constructor; vm_compute; discriminate.
Qed.
