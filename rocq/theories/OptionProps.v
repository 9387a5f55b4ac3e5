(** C129: what a builder is told about a coin counts, in whatever order it is told. *)
From Verif Require Import GoBase BaseLemmas ScriptModel HexModel AddressModel LockModel LockSpec TxModel TxSpec TxSignSpec TxSign TxSignProps BuilderModel BuilderSpec BuilderProps OptionSpec OptionProofs.
From Coq Require Import ZifyBool ZifyNat ZifyN.

(** With the coin before its options, each coin is spent with the redeem script and signed with the keys, the kind of
    public key and the type that were said with it.  Missing: options said before the coin, which are lost. *)
Theorem C129_options_partial : forall Hash160 sha256 DS prvkey PubKeyBytes EcdsaSign cs,
  Forall (coin_first prvkey) (stretches prvkey cs) -> In (CSign prvkey) cs -> exists b b0, do_calls prvkey cs (NewTransactionBuilder prvkey) = Ok b /\
  do_calls prvkey (filter (not_sign prvkey) cs) (NewTransactionBuilder prvkey) = Ok b0 /\
  forall t, BuildTransaction Hash160 sha256 DS prvkey PubKeyBytes EcdsaSign b = Ok t ->
    exists t0, BuildTransaction Hash160 sha256 DS prvkey PubKeyBytes EcdsaSign b0 = Ok t0 /\ map ti_redeem (tx_ins t0) = per_coin prvkey (said_redeem prvkey) cs /\
      signed_as sha256 DS prvkey PubKeyBytes EcdsaSign 0 (per_coin prvkey (how_signed prvkey) cs) t0 t.
Proof. exact options_signed. Qed.
Print Assumptions C129_options_partial.

Definition opt_coin : call Z := CAddCoin Z (ex_coin 3 1000 (p2pkh_script (toy160 (toy_pub 8 true)))).
Definition opt_rest : list (call Z) := [CAddKeys Z (Some [8]); CTo Z (ex_addr 1) 700; CChange Z (ex_addr 9); CSign Z; CFees Z 100].
(** The type of the signature of the first input: the byte in front of the push of the 33-byte key. *)
Definition sig_type (t : transaction) : list Z := map (fun i => nth (length (ti_unlock i) - (1 + length (toy_pub 8 true)) - 1) (ti_unlock i) 0) (tx_ins t).
Lemma coin_first_ex (s : list (call Z)) : (exists c r, s = CAddCoin Z c :: r /\ forall c, ~ In (CAddCoin Z c) r) -> coin_first Z s.
Proof. intros (c & r & -> & N) [|a x] c' y E; [constructor|]. exfalso. cbn [app] in E. assert (E' : r = x ++ CAddCoin Z c' :: y) by congruence. apply (N c'). rewrite E'. apply in_or_app. right. now left. Qed.
Example C129_example : Forall (coin_first Z) (stretches Z ex_calls) /\ In (CSign Z) ex_calls /\ is_ok (built ex_calls (fun t => t)) = true /\
  per_coin Z (how_signed Z) ex_calls = [(true, 1, Some [8]); (true, 1, Some [5; 7]); (false, 1, Some [8])] /\ per_coin Z (said_redeem Z) ex_calls = [None; Some toy_redeem; None] /\
  built (opt_coin :: CSigHash Z 2 :: opt_rest) sig_type = Ok [2].
Proof.
  split. { repeat (constructor; [apply coin_first_ex; eexists _, _; split; [reflexivity|]; intros c; cbn [In]; intuition discriminate|]). constructor. }
  split; [cbn [In ex_calls]; tauto|]. split; [vm_compute; reflexivity|]. split; [reflexivity|]. split; [reflexivity|]. vm_compute; reflexivity.
Qed.

(** It is false otherwise: the type of signature or the kind of public key, said before the coin, leaves no trace; nor
    does a coin before another coin, or a payment before another, without [Then] between them. *)
Theorem C129_lost_refuted : forall prvkey o k a b d, silences prvkey o k -> ~ In (CThen prvkey) b ->
  exists s, do_calls prvkey (a ++ o :: b ++ k :: d) (NewTransactionBuilder prvkey) = Ok s /\ do_calls prvkey (a ++ b ++ k :: d) (NewTransactionBuilder prvkey) = Ok s.
Proof. intros prvkey o k a b d S N. rewrite (lost prvkey o k a b d S N), new_state. eauto. Qed.
Print Assumptions C129_lost_refuted.
(** SIGHASH_NONE, asked for before the coin: the transaction is signed with SIGHASH_ALL. *)
Example C129_lost_example : silences Z (CSigHash Z 2) opt_coin /\ built (CSigHash Z 2 :: opt_coin :: opt_rest) sig_type = Ok [1] /\
  silences Z (CTo Z (ex_addr 1) 700) (CTo Z (ex_addr 2) 100) /\ built (opt_coin :: opt_rest ++ [CTo Z (ex_addr 2) 100]) (fun t => map to_value (tx_outs t)) = Ok [100; 800].
Proof. split; [constructor; exact I|]. split; [vm_compute; reflexivity|]. split; [constructor|]. vm_compute; reflexivity. Qed.
