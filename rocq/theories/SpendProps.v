(** C135, C136: when a builder builds; spending the outputs of earlier transactions. *)
From Verif Require Import GoBase BaseLemmas BufferModel ScriptModel ScriptSpec HexModel HexProofs AddressModel AddressSpec LockModel LockSpec VmSpec TxModel TxSpec TxSignSpec TxSign TxSignProps
  BuilderModel BuilderSpec BuilderProofs BuilderCalls BuilderSign BuilderProps.
From Verif Require Import SpendSpec SpendProofs.
From Coq Require Import ZifyBool ZifyNat ZifyN.

(** C135: without relay rate and unsigned, the builder builds exactly when it has a coin and a payment, can read each coin, may
    spend the fee, has enough, and knows where the rest goes.  It panics exactly when that is a nil address. *)
Theorem C135_builds_iff : forall Hash160 sha256 DS prvkey PubKeyBytes EcdsaSign cs b,
  do_calls prvkey cs (NewTransactionBuilder prvkey) = Ok b -> ~ In (CSign prvkey) cs -> sums_ok prvkey cs -> Forall (fun c => len (coin_script c) <= 2 ^ 48) (said_coins prvkey cs) -> said_relay prvkey cs <= 0 ->
  ((exists t, BuildTransaction Hash160 sha256 DS prvkey PubKeyBytes EcdsaSign b = Ok t) <-> can_build prvkey cs /\ (0 < left_over prvkey cs -> exists a, said_change prvkey cs = Some (Some a))) /\
  (BuildTransaction Hash160 sha256 DS prvkey PubKeyBytes EcdsaSign b = Panic <-> can_build prvkey cs /\ 0 < left_over prvkey cs /\ said_change prvkey cs = Some None).
Proof. exact calls_build. Qed.
Print Assumptions C135_builds_iff.
(** With the right keys for each coin, signing changes nothing of this. *)
Theorem C135_signed_builds_iff : forall Hash160 sha256 DS prvkey PubKeyBytes EcdsaSign EcdsaVerify cs b ht,
  scheme_ok prvkey PubKeyBytes EcdsaSign EcdsaVerify -> hashes_ok Hash160 sha256 -> 0 <= ht < 256 -> (forall k h, exists s, EcdsaSign k h = Ok s) ->
  Forall (group_signs Hash160 sha256 prvkey PubKeyBytes ht) (b_groups prvkey b) ->
  do_calls prvkey cs (NewTransactionBuilder prvkey) = Ok b -> sums_ok prvkey cs -> Forall (fun c => len (coin_script c) <= 2 ^ 48) (said_coins prvkey cs) -> said_relay prvkey cs <= 0 ->
  ((exists t, BuildTransaction Hash160 sha256 DS prvkey PubKeyBytes EcdsaSign b = Ok t) <-> can_build prvkey cs /\ (0 < left_over prvkey cs -> exists a, said_change prvkey cs = Some (Some a))).
Proof. exact calls_build_signed. Qed.
Print Assumptions C135_signed_builds_iff.

(** C136: any outputs of any earlier transactions, given as coins by id, number, value and script, with the keys that open
    them: if they cover payments and fee, the builder builds, and the transaction verifies, spends these outputs and pays
    the payments and the rest to the change address. *)
Theorem C136_outputs_can_be_spent : forall Hash160 sha256 DS prvkey PubKeyBytes EcdsaSign EcdsaVerify hs ps change fee,
  scheme_ok prvkey PubKeyBytes EcdsaSign EcdsaVerify -> hashes_ok Hash160 sha256 -> (forall x, bytes_ok (DS x)) -> (forall k h, exists s, EcdsaSign k h = Ok s) ->
  Forall (holds Hash160 sha256 prvkey PubKeyBytes) hs -> hs <> [] -> ps <> [] -> Forall (fun h => 0 <= to_value (h_out prvkey h)) hs -> Forall (fun p => 0 <= snd p) ps -> 0 <= fee <= 100000000 ->
  let have := sumZ (map (fun h => to_value (h_out prvkey h)) hs) in let left := have - sumZ (map snd ps) - fee in have < 2 ^ 63 -> 0 <= left ->
  exists b t, do_calls prvkey (spending DS prvkey hs ps change fee) (NewTransactionBuilder prvkey) = Ok b /\ BuildTransaction Hash160 sha256 DS prvkey PubKeyBytes EcdsaSign b = Ok t /\
    Verify Hash160 DS EcdsaVerify t = Ok tt /\
    map (fun i => (ti_hash i, ti_index i, ti_value i)) (tx_ins t) = map (fun h => (DS (SerializeNoWitness (h_tx prvkey h)), Z.of_nat (h_n prvkey h), to_value (h_out prvkey h))) hs /\
    tx_outs t = map (fun p => MkOut (snd p) (LockingScript (fst p))) ps ++ (if 0 <? left then [MkOut left (LockingScript change)] else []).
Proof. exact spend_outputs. Qed.
Print Assumptions C136_outputs_can_be_spent.

(** What stops a build: coins that do not read, too little, too high a fee, nowhere for the rest to go. *)
Definition try_calls (coin : option Coin) (v f : Z) (ch : list (call Z)) : list (call Z) := [CAddCoin Z coin; CTo Z (ex_addr 1) v; CFees Z f] ++ ch.
Definition upper_coin : option Coin := Some (MkCoin (str_bytes "AB") 3 1000 (str_bytes "A914AbababababababababababababababababababaB87")).
Example C135_example :
  (let outs cs := built cs (fun t => map to_value (tx_outs t)) in
   outs (try_calls upper_coin 900 100 []) = Ok [900] /\ outs (try_calls upper_coin 900 90 [CChange Z (ex_addr 9)]) = Ok [900; 10] /\ outs (try_calls upper_coin 900 90 [CChange Z None]) = Panic /\
   outs (try_calls upper_coin 900 90 []) = Err "transaction.builder.changeto.empty" /\ outs (try_calls upper_coin 900 101 []) = Err "transaction.builder.min.fee.not.enough" /\
   outs (try_calls upper_coin 900 100 [CMax Z 99]) = Err "transaction.builder.fee.too.high" /\ is_ok (outs (try_calls (Some (MkCoin (str_bytes "AB") 3 1000 (str_bytes "51"))) 900 100 [])) = false) /\
  can_build Z (try_calls upper_coin 900 90 [CChange Z None]) /\ sums_ok Z (try_calls upper_coin 900 90 [CChange Z None]) /\ left_over Z (try_calls upper_coin 900 90 [CChange Z None]) = 10.
Proof.
  split; [vm_compute; repeat split; reflexivity|]. assert (C : said_coins Z (try_calls upper_coin 900 90 [CChange Z None]) = list_of upper_coin) by reflexivity.
  split; [|split; [|reflexivity]].
  - split; [rewrite C; discriminate|]. split; [discriminate|]. split; [|split; vm_compute; discriminate]. rewrite C. constructor; [|constructor]. split.
    + split; [|reflexivity]. repeat (apply Forall_cons; [unfold is_hex; cbn; lia|]). constructor.
    + exists (PayToScriptHashAddress (repeat 0xab 20)). split; [split; [|reflexivity]; apply Forall_forall; intros y Hy; apply repeat_spec in Hy; subst; unfold is_byte; lia|vm_compute; reflexivity].
  - split; [repeat constructor; vm_compute; discriminate|]. split; [repeat constructor; vm_compute; discriminate|]. split; [split; vm_compute; [discriminate|reflexivity]|]. split; vm_compute; reflexivity.
Qed.

(** A transaction with outputs of all four kinds, and one that spends three of them and the change of which is spent next. *)
Definition first_tx : transaction :=
  MkTx 1 0 [] [MkOut 1000 (p2pkh_script (toy160 (toy_pub 8 false))); MkOut 2000 (p2wpkh_script (toy160 (toy_pub 3 true))); MkOut 3000 (p2sh_script (toy160 toy_redeem)); MkOut 4000 (p2wsh_script (toy256 toy_redeem))] None None None.
Definition first_held : list (holding Z) :=
  [MkHolding Z first_tx 3 (MkOut 4000 (p2wsh_script (toy256 toy_redeem))) true [5; 7] (Some toy_redeem); MkHolding Z first_tx 0 (MkOut 1000 (p2pkh_script (toy160 (toy_pub 8 false)))) false [8] None;
   MkHolding Z first_tx 2 (MkOut 3000 (p2sh_script (toy160 toy_redeem))) true [6; 7] (Some toy_redeem)].
Definition change_to : address := PayToWitnessV0PubKeyHashAddress (toy160 (toy_pub 3 true)).
Definition first_pays : list (address * Z) := [(PayToPubKeyHashAddress (repeat 1 20), 5000); (PayToScriptHashAddress (repeat 2 20), 600)].
Definition second_tx : transaction := Eval vm_compute in match built (spending toy256 Z first_held first_pays change_to 150) (fun t => t) with Ok t => t | _ => first_tx end.
Definition second_held : list (holding Z) := [MkHolding Z second_tx 2 (MkOut 2250 (LockingScript change_to)) true [3] None; MkHolding Z first_tx 1 (MkOut 2000 (p2wpkh_script (toy160 (toy_pub 3 true)))) true [3] None].
Example C136_example : Forall (holds toy160 toy256 Z toy_pub) first_held /\ Forall (holds toy160 toy256 Z toy_pub) second_held /\
  built (spending toy256 Z first_held first_pays change_to 150) (fun t => t) = Ok second_tx /\ toy_check second_tx = Ok tt /\ map to_value (tx_outs second_tx) = [5000; 600; 2250] /\
  built (spending toy256 Z second_held first_pays change_to 150) (fun _ => tt) = Err "transaction.builder.amount.not.enough" /\
  built (spending toy256 Z second_held [(PayToPubKeyHashAddress (repeat 1 20), 4100)] change_to 150) (fun t => (map ti_hash (tx_ins t), map to_value (tx_outs t), toy_check t)) =
    Ok ([toy256 (SerializeNoWitness second_tx); toy256 (SerializeNoWitness first_tx)], [4100], Ok tt).
Proof.
  split; [|split; [|vm_compute; repeat split; reflexivity]].
  - constructor; [|constructor; [|constructor; [|constructor]]]; (split; [reflexivity|]).
    + eapply cs_p2wsh. apply toy_multisig. cbn. tauto.
    + apply cs_p2pkh.
    + eapply cs_p2sh. apply toy_multisig. cbn. tauto.
  - constructor; [|constructor; [|constructor]]; (split; [reflexivity|]); [|apply cs_p2wpkh].
    assert (E : LockingScript change_to = p2wpkh_script (toy160 (toy_pub 3 true))) by (vm_compute; reflexivity). cbn [h_out to_script h_compressed h_keys h_redeem]. rewrite E. apply cs_p2wpkh.
Qed.
