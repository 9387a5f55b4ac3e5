(** C46-C50, C83, C84: building transactions, size estimates, multisig scripts. *)
From Verif Require Import GoBase BaseLemmas BufferModel ScriptModel ScriptSpec HexModel AddressModel LockModel LockSpec VmSpec TxModel TxSpec TxSignSpec TxSign TxSignProps
  BuilderModel BuilderSpec BuilderProofs BuilderCalls BuilderMore BuilderSign FeeProofs.
From Coq Require Import ZifyBool ZifyNat ZifyN.

(** C46, in terms of the calls made. *)
Theorem C46_value_conserved : forall Hash160 sha256 DS prvkey PubKeyBytes EcdsaSign cs b t,
  do_calls prvkey cs (NewTransactionBuilder prvkey) = Ok b -> BuildTransaction Hash160 sha256 DS prvkey PubKeyBytes EcdsaSign b = Ok t ->
  Forall (fun c => 0 <= coin_value c) (said_coins prvkey cs) -> Forall (fun o => 0 <= o_value o) (said_payments prvkey cs) -> 0 <= said_fees prvkey cs < 2 ^ 63 ->
  sumZ (map coin_value (said_coins prvkey cs)) < 2 ^ 63 -> sumZ (map o_value (said_payments prvkey cs)) < 2 ^ 63 ->
  exists fee, sumZ (map coin_value (said_coins prvkey cs)) = sumZ (map to_value (tx_outs t)) + fee /\ map ti_value (tx_ins t) = map coin_value (said_coins prvkey cs) /\ Fees t = fee /\ fee <= said_max prvkey cs /\
    (said_relay prvkey cs <= 0 -> fee = said_fees prvkey cs) /\
    (0 < said_relay prvkey cs -> fee = EstimateFees (EstimateSize (tx_ins t) (firstn (length (said_payments prvkey cs)) (tx_outs t)) + sumZ (map len (said_data prvkey cs))) (said_relay prvkey cs)).
Proof. exact calls_conserve. Qed.
Print Assumptions C46_value_conserved.

Definition ex_txid : bytes := str_bytes "00000000000000000000000000000000000000000000000000000000000000ab".
Definition hex_of (s : bytes) : bytes := hex_encode s.
Definition ex_addr (n : Z) : option address := Some (PayToPubKeyHashAddress (repeat n 20)).
Definition ex_coin (n v : Z) (script : bytes) : option Coin := Some (MkCoin ex_txid n v (hex_of script)).
Notation toy_build := (BuildTransaction toy160 toy256 toy256 Z toy_pub toy_sign).
Notation toy_calls cs := (do_calls Z cs (NewTransactionBuilder Z)).
(** Two coins, two payments, change, data, all signed. *)
Definition ex_calls : list (call Z) :=
  [CAddCoin Z (ex_coin 3 1000 (p2pkh_script (toy160 (toy_pub 8 true)))); CAddKeys Z (Some [8]); CTo Z (ex_addr 1) 700; CThen Z;
   CAddCoin Z (ex_coin 5 2000 (p2wsh_script (toy256 toy_redeem))); CRedeem Z (Some toy_redeem); CAddKeys Z (Some [5; 7]); CTo Z (ex_addr 2) 900; CThen Z;
   CAddCoin Z (ex_coin 6 500 (p2pkh_script (toy160 (toy_pub 8 false)))); CUncompressed Z; CAddKeys Z (Some [8]);
   CChange Z (ex_addr 9); CFees Z 150; CPush Z [1; 2; 3]; CLock Z 77; CSign Z].
(** Run the calls, build, and look at the result. *)
Definition built {A} (cs : list (call Z)) (view : transaction -> A) : res A := let! b := toy_calls cs in let! t := toy_build b in Ok (view t).
Lemma built_ok {A} cs (view : transaction -> A) x : built cs view = Ok x -> exists b t, toy_calls cs = Ok b /\ toy_build b = Ok t /\ view t = x.
Proof. unfold built. destruct (toy_calls cs) as [b| |] eqn:E; cbn; [|discriminate|discriminate]. destruct (toy_build b) as [t| |] eqn:E2; cbn; [|discriminate|discriminate]. intros H. exists b, t. repeat split; auto. congruence. Qed.
Example C46_example : built ex_calls (fun t => (map to_value (tx_outs t), Fees t)) = Ok ([700; 900; 1750; 0], 150) /\
  map coin_value (said_coins Z ex_calls) = [1000; 2000; 500] /\ map o_value (said_payments Z ex_calls) = [700; 900].
Proof. split; vm_compute; [reflexivity|]. split; reflexivity. Qed.

(** C47 is false: a fee of 2^64-1 becomes -1, and a payment of 2^64-1 counts as -1. *)
Definition bad_calls (v f : Z) : list (call Z) :=
  [CAddCoin Z (ex_coin 3 1000 (p2pkh_script (repeat 1 20))); CTo Z (ex_addr 1) v; CChange Z (ex_addr 9); CFees Z f].
Theorem C47_never_overpays_refuted : exists cs b t, do_calls Z cs (NewTransactionBuilder Z) = Ok b /\ toy_build b = Ok t /\
  Forall (fun c => 0 <= coin_value c < 2 ^ 64) (said_coins Z cs) /\ Forall (fun o => 0 <= o_value o < 2 ^ 64) (said_payments Z cs) /\ 0 <= said_fees Z cs < 2 ^ 64 /\
  sumZ (map ti_value (tx_ins t)) < sumZ (map to_value (tx_outs t)).
Proof.
  exists (bad_calls 500 (2 ^ 64 - 1)). assert (E : built (bad_calls 500 (2 ^ 64 - 1)) (fun t => (map ti_value (tx_ins t), map to_value (tx_outs t))) = Ok ([1000], [500; 501])) by (vm_compute; reflexivity).
  apply built_ok in E. destruct E as (b & t & E1 & E2 & E3). exists b, t. split; [exact E1|]. split; [exact E2|]. injection E3 as -> ->.
  split; [repeat constructor; discriminate|]. split; [repeat constructor; discriminate|]. split; [split; [discriminate|reflexivity]|reflexivity].
Qed.
Print Assumptions C47_never_overpays_refuted.
(** C47: with totals below 2^63 the outputs exceed the inputs exactly when the fee is negative. *)
Theorem C47_never_overpays_partial : forall Hash160 sha256 DS prvkey PubKeyBytes EcdsaSign b t,
  BuildTransaction Hash160 sha256 DS prvkey PubKeyBytes EcdsaSign b = Ok t -> amounts_ok prvkey b -> total_coins prvkey b < 2 ^ 63 -> total_paid prvkey b < 2 ^ 63 ->
  (sumZ (map to_value (tx_outs t)) <= sumZ (map ti_value (tx_ins t)) <-> 0 <= Fees t).
Proof. exact never_overpays. Qed.
Print Assumptions C47_never_overpays_partial.
Example C47_example : built (bad_calls 500 200) (fun t => (map to_value (tx_outs t), Fees t)) = Ok ([500; 300], 200) /\
  built (bad_calls (2 ^ 64 - 1) 200) (fun t => map to_value (tx_outs t)) = Ok [2 ^ 64 - 1; 801] /\ is_ok (built (bad_calls 500 501) Fees) = false.
Proof. vm_compute. repeat split; reflexivity. Qed.

(** C48: every sequence of calls returns; the inputs are the coins, the outputs the payments, then change, then data. *)
Theorem C48_layout : forall Hash160 sha256 DS prvkey PubKeyBytes EcdsaSign cs, exists b, do_calls prvkey cs (NewTransactionBuilder prvkey) = Ok b /\
  forall t, BuildTransaction Hash160 sha256 DS prvkey PubKeyBytes EcdsaSign b = Ok t ->
  Forall (fun c => len (coin_script c) <= 2 ^ 48) (said_coins prvkey cs) -> Forall pushable (said_data prvkey cs) ->
  Forall2 spends_coin (said_coins prvkey cs) (tx_ins t) /\ said_coins prvkey cs <> [] /\ said_payments prvkey cs <> [] /\ tx_version t = 1 /\ tx_locktime t = said_lock prvkey cs /\
  exists ch datas, tx_outs t = map (fun o => MkOut (o_value o) (script_to (o_addr o))) (said_payments prvkey cs) ++ ch ++ datas /\ Forall2 carries (said_data prvkey cs) datas /\
    let left := sumZ (map to_value (tx_outs t)) - sumZ (map o_value (said_payments prvkey cs)) in
    (ch = [] /\ left = 0 \/ exists a, said_change prvkey cs = Some (Some a) /\ ch = [MkOut left (LockingScript a)] /\ 0 < left).
Proof. exact calls_layout. Qed.
Print Assumptions C48_layout.
(** The change output is there exactly when something is left after payments and fee, and pays that. *)
Theorem C48_change : forall Hash160 sha256 DS prvkey PubKeyBytes EcdsaSign cs b t,
  do_calls prvkey cs (NewTransactionBuilder prvkey) = Ok b -> BuildTransaction Hash160 sha256 DS prvkey PubKeyBytes EcdsaSign b = Ok t ->
  Forall (fun c => 0 <= coin_value c) (said_coins prvkey cs) -> Forall (fun o => 0 <= o_value o) (said_payments prvkey cs) -> 0 <= said_fees prvkey cs < 2 ^ 63 ->
  sumZ (map coin_value (said_coins prvkey cs)) < 2 ^ 63 -> sumZ (map o_value (said_payments prvkey cs)) < 2 ^ 63 ->
  Forall (fun c => len (coin_script c) <= 2 ^ 48) (said_coins prvkey cs) -> Forall pushable (said_data prvkey cs) ->
  exists fee datas, (said_relay prvkey cs <= 0 -> fee = said_fees prvkey cs) /\ Forall2 carries (said_data prvkey cs) datas /\
    let left := sumZ (map coin_value (said_coins prvkey cs)) - sumZ (map o_value (said_payments prvkey cs)) - fee in 0 <= left /\
    (0 < left -> exists a, said_change prvkey cs = Some (Some a) /\
       tx_outs t = map (fun o => MkOut (o_value o) (script_to (o_addr o))) (said_payments prvkey cs) ++ [MkOut left (LockingScript a)] ++ datas) /\
    (left = 0 -> tx_outs t = map (fun o => MkOut (o_value o) (script_to (o_addr o))) (said_payments prvkey cs) ++ datas).
Proof. exact calls_change. Qed.
Print Assumptions C48_change.
Example C48_example : Forall pushable (said_data Z ex_calls) /\
  built ex_calls (fun t => (map ti_index (tx_ins t), tx_locktime t, map to_script (tx_outs t))) =
  Ok ([3; 5; 6], 77, [p2pkh_script (repeat 1 20); p2pkh_script (repeat 2 20); p2pkh_script (repeat 9 20); [0x6a; 3; 1; 2; 3]]).
Proof. split; [repeat constructor; vm_compute; discriminate|]. vm_compute. reflexivity. Qed.

(** C84: told to sign and given the right keys for each coin, the builder makes a transaction that verifies; and
    signing does not make it fail. *)
Theorem C84_built_transaction_verifies : forall Hash160 sha256 DS prvkey PubKeyBytes EcdsaSign EcdsaVerify ht b t,
  scheme_ok prvkey PubKeyBytes EcdsaSign EcdsaVerify -> hashes_ok Hash160 sha256 -> 0 <= ht < 256 -> b_sign prvkey b = true ->
  Forall (group_signs Hash160 sha256 prvkey PubKeyBytes ht) (b_groups prvkey b) ->
  BuildTransaction Hash160 sha256 DS prvkey PubKeyBytes EcdsaSign b = Ok t -> Verify Hash160 DS EcdsaVerify t = Ok tt.
Proof. exact built_verifies. Qed.
Print Assumptions C84_built_transaction_verifies.
Theorem C84_signing_succeeds : forall Hash160 sha256 DS prvkey PubKeyBytes EcdsaSign EcdsaVerify ht b t,
  scheme_ok prvkey PubKeyBytes EcdsaSign EcdsaVerify -> hashes_ok Hash160 sha256 -> 0 <= ht < 256 -> (forall k h, exists s, EcdsaSign k h = Ok s) ->
  Forall (group_signs Hash160 sha256 prvkey PubKeyBytes ht) (b_groups prvkey b) ->
  BuildTransaction Hash160 sha256 DS prvkey PubKeyBytes EcdsaSign (unsigned prvkey b) = Ok t ->
  exists t', BuildTransaction Hash160 sha256 DS prvkey PubKeyBytes EcdsaSign b = Ok t' /\ core t' = core t.
Proof. exact built_succeeds. Qed.
Print Assumptions C84_signing_succeeds.
Definition ex_groups : list (Group Z) :=
  [MkGroup Z (ex_coin 3 1000 (p2pkh_script (toy160 (toy_pub 8 true)))) (Some [8]) (Some (MkOutput (ex_addr 1) 700)) true None 1;
   MkGroup Z (ex_coin 5 2000 (p2wsh_script (toy256 toy_redeem))) (Some [5; 7]) (Some (MkOutput (ex_addr 2) 900)) true (Some toy_redeem) 1;
   MkGroup Z (ex_coin 6 500 (p2pkh_script (toy160 (toy_pub 8 false)))) (Some [8]) None false None 1].
Example C84_example : (exists b, toy_calls ex_calls = Ok b /\ b_sign Z b = true /\ b_groups Z b = ex_groups /\ Forall (group_signs toy160 toy256 Z toy_pub 1) ex_groups) /\ built ex_calls toy_check = Ok (Ok tt).
Proof.
  split; [|vm_compute; reflexivity]. exists (MkBuilder Z 2 true 100000000 150 0 77 (Some (ex_addr 9)) ex_groups [[1; 2; 3]]). split; [vm_compute; reflexivity|]. split; [reflexivity|]. split; [reflexivity|].
  apply Forall_cons; [|apply Forall_cons; [|apply Forall_cons; [|constructor]]]; (split; [reflexivity|]).
  - exists [8], (p2pkh_script (toy160 (toy_pub 8 true))). split; [reflexivity|]. split; [vm_compute; reflexivity|apply cs_p2pkh].
  - exists [5; 7], (p2wsh_script (toy256 toy_redeem)). split; [reflexivity|]. split; [vm_compute; reflexivity|]. eapply cs_p2wsh. apply toy_multisig. cbn. tauto.
  - exists [8], (p2pkh_script (toy160 (toy_pub 8 false))). split; [reflexivity|]. split; [vm_compute; reflexivity|apply cs_p2pkh].
Qed.

(** C49 is false for any transaction whose inputs carry the largest signatures foreseen, and for any that spends only
    witness coins. *)
Definition est_in (n : nat) : TxIn := MkIn (repeat 0 32) 0 0 0 [] None [] None [] [] (repeat 0 n).
Definition est_tx (n : nat) : transaction := MkTx 1 0 [est_in n; est_in n] [MkOut 5 (repeat 0 25); MkOut 5 (repeat 0 22)] None None None.
Theorem C49_size_estimate_refuted : (exists t, tx_ok t /\ EstimateSize (tx_ins t) (tx_outs t) < len (Serialize t)) /\
  (forall t, tx_ok t -> tx_outs t <> [] -> Forall (fun i => ti_code i = None /\ len (ti_unlock i) = 108) (tx_ins t) -> EstimateSize (tx_ins t) (tx_outs t) < len (Serialize t)) /\
  (forall t, tx_ok t -> tx_ins t <> [] -> Forall (fun i => ti_code i <> None) (tx_ins t) -> EstimateSize (tx_ins t) (tx_outs t) + 40 * len (tx_ins t) < Vsize t).
Proof.
  split; [|split; [exact estimate_short|exact estimate_witness_short]]. exists (est_tx 108). split; [|vm_compute; reflexivity].
  assert (B : forall n x, is_byte x -> bytes_ok (repeat x n)) by (intros n x H; apply Forall_forall; intros y Hy; apply repeat_spec in Hy; now subst).
  repeat (split || apply Forall_cons || apply Forall_nil); vm_compute; congruence.
Qed.
Print Assumptions C49_size_estimate_refuted.
(** C49: exactly, for transactions without witness inputs: each output script's length prefix is missing, each input is
    counted with a 108 byte script.  So with scripts of at most 108 bytes only the prefixes are missing. *)
Theorem C49_size_estimate_exact_partial : forall t, tx_ok t -> Forall (fun i => ti_code i = None) (tx_ins t) ->
  len (Serialize t) = EstimateSize (tx_ins t) (tx_outs t) + sumZ (map script_prefix (tx_outs t)) + sumZ (map over (tx_ins t)).
Proof. exact estimate_legacy. Qed.
Print Assumptions C49_size_estimate_exact_partial.
Theorem C49_size_estimate_partial : forall t, tx_ok t -> Forall (fun i => ti_code i = None /\ len (ti_unlock i) <= 108) (tx_ins t) ->
  len (Serialize t) <= EstimateSize (tx_ins t) (tx_outs t) + sumZ (map script_prefix (tx_outs t)).
Proof. exact estimate_worst. Qed.
Print Assumptions C49_size_estimate_partial.
Example C49_example : len (Serialize (est_tx 108)) = 373 /\ EstimateSize (tx_ins (est_tx 108)) (tx_outs (est_tx 108)) = 371 /\ len (Serialize (est_tx 100)) = 357 /\
  EstimateNormalSize 2 2 = 374 /\ map script_prefix (tx_outs (est_tx 100)) = [1; 1] /\ map over (tx_ins (est_tx 100)) = [-8; -8].
Proof. vm_compute. repeat split; reflexivity. Qed.

(** C50: with up to 16 keys of public key size, the script is the standard one, is recognised, and shows m and the keys;
    no other m or keys give the same script. *)
Theorem C50_multisig_recognised : forall m keys, 0 <= m <= len keys -> 1 <= len keys <= 16 -> Forall (fun k => key_sized k /\ bytes_ok k) keys ->
  GenMultiSigScript m keys = Ok (multisig_bytes m keys) /\
  exists is, AllInstructions (multisig_bytes m keys) = Ok is /\ isMultiSig is = true /\ asSmallInt (hd (Instr 0 []) is) = m /\ map idata (firstn (length keys) (tl is)) = keys /\
  (forall m' keys', 0 <= m' <= len keys' -> 1 <= len keys' <= 16 -> Forall (fun k => key_sized k /\ bytes_ok k) keys' -> GenMultiSigScript m' keys' = GenMultiSigScript m keys -> m' = m /\ keys' = keys).
Proof.
  intros m keys Hm Hn F. split; [apply gen_multisig; auto; [lia|]; eapply Forall_impl; [|exact F]; cbn; tauto|]. now apply multisig_recognised.
Qed.
Print Assumptions C50_multisig_recognised.
(** Exactly the scripts recognised: a small number, 1 to 16 pushes of key size, their number, OP_CHECKMULTISIG. *)
Theorem C50_recognised_iff : forall is, isMultiSig is = true <-> exists m f ks n c, is = f :: ks ++ [n; c] /\ 0 <= m <= 16 /\ iop f = small_op m /\ 1 <= len ks <= 16 /\
  iop n = small_op (len ks) /\ iop c = 0xae /\ Forall (fun i => key_sized (idata i)) ks.
Proof. exact is_multisig. Qed.
Print Assumptions C50_recognised_iff.
(** "Malformed parameters are rejected" is false: m = 0, m < 0, more than 16 keys and keys of any size are accepted, and
    the recogniser accepts m > n.  Only m > n is rejected when building. *)
Definition key33 : bytes := 2 :: repeat 7 32.
Theorem C50_malformed_rejected_refuted :
  (exists r, GenMultiSigScript 0 [key33] = Ok r) /\ (exists r, GenMultiSigScript (-5) [key33] = Ok r) /\ (exists r is, GenMultiSigScript 1 (repeat key33 17) = Ok r /\ AllInstructions r = Ok is /\ isMultiSig is = false) /\
  (exists r, GenMultiSigScript 1 [[1; 2; 3]] = Ok r) /\ (exists r, GenMultiSigScript 0 [] = Ok r) /\ isMultiSig [Instr 0x55 []; Instr 33 key33; Instr 0x51 []; Instr 0xae []] = true.
Proof. split; [eexists; vm_compute; reflexivity|]. split; [eexists; vm_compute; reflexivity|]. split; [eexists _, _; split; [vm_compute; reflexivity|]; split; [vm_compute; reflexivity|vm_compute; reflexivity]|]. split; [eexists; vm_compute; reflexivity|]. split; [eexists; vm_compute; reflexivity|]. vm_compute. reflexivity. Qed.
Print Assumptions C50_malformed_rejected_refuted.
Theorem C50_too_few_keys_rejected_partial : forall m keys, len keys < m -> exists e, GenMultiSigScript m keys = Err e.
Proof. intros m keys H. unfold GenMultiSigScript. replace (len keys <? m) with true by lia. eauto. Qed.
Print Assumptions C50_too_few_keys_rejected_partial.
Example C50_example : GenMultiSigScript 1 [key33; key33] = Ok ([0x51; 33] ++ key33 ++ [33] ++ key33 ++ [0x52; 0xae]) /\ key_sized key33 /\ is_ok (GenMultiSigScript 3 [key33; key33]) = false.
Proof. split; [vm_compute; reflexivity|]. split; [left; reflexivity|]. vm_compute. reflexivity. Qed.

(** C83 is false: 290 satoshi per 1000 bytes for 100 bytes are 29, the floating point product gives 28. *)
Theorem C83_fee_is_rate_times_size_refuted : exists size rate, 0 < rate /\ 0 < size /\ EstimateFees size rate <> rate * size / 1000.
Proof. exists 100, 290. split; [reflexivity|]. split; [reflexivity|]. vm_compute. discriminate. Qed.
Print Assumptions C83_fee_is_rate_times_size_refuted.
(** C83: the fee is right to the satoshi below, except that a whole number may come out one too low.  (Uses the
    standard library's real numbers.) *)
Theorem C83_fee_is_rate_times_size_partial : forall size rate, 0 < rate < 2 ^ 53 -> 0 < size < 2 ^ 53 -> rate * size < 1000 * 2 ^ 42 ->
  EstimateFees size rate = rate * size / 1000 \/ (rate * size) mod 1000 = 0 /\ EstimateFees size rate = rate * size / 1000 - 1.
Proof. exact fee_exact. Qed.
Print Assumptions C83_fee_is_rate_times_size_partial.
Example C83_example : EstimateFees 226 1000 = 226 /\ EstimateFees 226 12345 = 2789 /\ 226 * 12345 / 1000 = 2789 /\ EstimateFees 100 290 = 28 /\ EstimateFees 100 0 = 0.
Proof. vm_compute. repeat split; reflexivity. Qed.
