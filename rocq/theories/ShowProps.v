(** C131, C132: the text of a transaction. *)
From Verif Require Import GoBase BaseLemmas BufferModel BufferSpec ScriptModel ScriptSpec HexModel AddressModel LockModel LockSpec TxModel TxSpec TxSignSpec TxSign TxSignProps BuilderModel BuilderSpec BuilderProps ShowModel ShowSpec ShowProofs.
From Coq Require Import ZifyBool ZifyNat ZifyN.

(** C131: printing panics exactly when the witness of a witness program is not there.  Missing: those transactions. *)
Theorem C131_prints_partial : forall et t, printable t -> (Forall (fun i => ~ unwitnessed i) (tx_ins t) <-> exists s, ToString et t = Ok s) /\ (Exists unwitnessed (tx_ins t) <-> ToString et t = Panic).
Proof.
  intros et t P. assert (D : Forall (fun i => ~ unwitnessed i) (tx_ins t) \/ Exists unwitnessed (tx_ins t)).
  { clear P. assert (X : forall i, unwitnessed i \/ ~ unwitnessed i) by (intros i; unfold unwitnessed; destruct (ti_code i), (ti_witness i); [left; split; congruence|right; intros [_ H]; congruence|right; intros [H _]; congruence..]).
    induction (tx_ins t) as [|i l [IH|IH]]; [left; constructor| |right; now right]. destruct (X i); [right; now left|left; now constructor]. }
  destruct D as [D|D].
  - destruct (to_string_ok et t P D) as (s & E). split; split; intros H; [eauto|exact D| |congruence]. exfalso. rewrite Forall_forall in D. apply Exists_exists in H. destruct H as (i & I & U). exact (D i I U).
  - pose proof (to_string_panic et t D) as E. split; split; intros H; [|destruct H as (s & H); congruence|exact E|exact D]. exfalso. rewrite Forall_forall in H. apply Exists_exists in D. destruct D as (i & I & U). exact (H i I U).
Qed.
Print Assumptions C131_prints_partial.

(** It is false of every transaction that the builder makes without signing from a coin locked by a witness key hash. *)
Theorem C131_unsigned_refuted : forall Hash160 sha256 DS prvkey PubKeyBytes EcdsaSign et cs b t h,
  ~ In (CSign prvkey) cs -> do_calls prvkey cs (NewTransactionBuilder prvkey) = Ok b -> BuildTransaction Hash160 sha256 DS prvkey PubKeyBytes EcdsaSign b = Ok t -> bytes_ok h -> len h = 20 ->
  Exists (fun c => hex_decode (coin_script c) = Ok (p2wpkh_script h)) (said_coins prvkey cs) -> ToString et t = Panic.
Proof. exact unsigned_panics. Qed.
Print Assumptions C131_unsigned_refuted.
Definition show_calls (script : bytes) : list (call Z) := [CAddCoin Z (ex_coin 3 1000 script); CTo Z (ex_addr 1) 700; CChange Z (ex_addr 9); CFees Z 100].
Definition no_text (e : string) : bytes := str_bytes e.
Example C131_example : built (show_calls (p2wpkh_script (repeat 7 20))) (ToString no_text) = Ok Panic /\
  built (show_calls (p2pkh_script (repeat 7 20))) (fun t => is_ok (ToString no_text t)) = Ok true /\ built ex_calls (fun t => is_ok (ToString no_text t)) = Ok true.
Proof. split; [vm_compute; reflexivity|]. split; vm_compute; reflexivity. Qed.

(** C132: two transactions with the same text have the same inputs and outputs, as far as the text goes.  Missing:
    version, lock time, sequence numbers and the witness items behind the first. *)
Theorem C132_text_shows_partial : forall et t u s, tx_legible t -> tx_legible u -> ToString et t = Ok s -> ToString et u = Ok s -> map shown (tx_ins t) = map shown (tx_ins u) /\ tx_outs t = tx_outs u.
Proof. exact text_shows. Qed.
Print Assumptions C132_text_shows_partial.

(** The fee is on a line of its own. *)
Theorem C132_fee_line : forall et t s, 0 <= sumZ (map to_value (tx_outs t)) <= sumZ (map ti_value (tx_ins t)) -> sumZ (map ti_value (tx_ins t)) < 2 ^ 63 -> ToString et t = Ok s ->
  exists d, decimal d (sumZ (map ti_value (tx_ins t)) - sumZ (map to_value (tx_outs t))) /\ has_line s (str_bytes "  ""fees"":" ++ 9 :: d ++ str_bytes " sat,").
Proof. exact fee_line. Qed.
Print Assumptions C132_fee_line.

(** Those are not in the text of any transaction. *)
Theorem C132_timing_refuted : forall et v l q t, ToString et (retimed v l q t) = ToString et t.
Proof. exact retimed_text. Qed.
Print Assumptions C132_timing_refuted.
(** Nor are the witness items behind the first. *)
Definition show_in (w : list bytes) : TxIn := MkIn (repeat 5 32) 1 1000 0xffffffff [] None w (Some [172]) (p2wpkh_script (repeat 7 20)) (p2pkh_script (repeat 7 20)) [].
Definition show_tx (w : list bytes) : transaction := MkTx 1 0 [show_in w] [MkOut 900 (p2pkh_script (repeat 9 20))] None None None.
Theorem C132_witness_refuted : exists t u, tx_legible t /\ tx_legible u /\ (forall et, exists s, ToString et t = Ok s /\ ToString et u = Ok s) /\ map ti_witness (tx_ins t) <> map ti_witness (tx_ins u).
Proof.
  assert (Lg : forall d is, in_memory d -> AllInstructions d = Ok is -> legible d) by (intros d is M E; split; [exact M|]; exists is; now apply ScriptProofs.parse_iff).
  assert (Ml : forall d, forallb (fun c => (0 <=? c) && (c <? 256)) d = true -> len d <= 2 ^ 48 -> in_memory d) by (intros d F L; split; [|exact L]; rewrite forallb_forall in F; apply Forall_forall; intros c I; specialize (F c I); unfold is_byte; lia).
  assert (L1 : legible (p2wpkh_script (repeat 7 20))) by (eapply Lg; [apply Ml; [reflexivity|vm_compute; discriminate]|vm_compute; reflexivity]).
  assert (L2 : forall n, n = 7 \/ n = 9 -> legible (p2pkh_script (repeat n 20))) by (intros n [->| ->]; (eapply Lg; [apply Ml; [reflexivity|vm_compute; discriminate]|vm_compute; reflexivity])).
  assert (L3 : legible []) by (split; [split; [constructor|vm_compute; discriminate]|exists []; constructor]).
  assert (T : forall a, is_byte a -> tx_legible (show_tx [[3]; [a]])).
  { intros a A. split; (constructor; [|constructor]).
    - unfold in_legible, show_in. cbn [ti_hash ti_index ti_value ti_sighash ti_rawlock ti_finallock ti_unlock ti_redeem ti_code ti_witness]. split; [apply Forall_forall; intros c I; apply repeat_spec in I; subst; unfold is_byte; lia|].
      split; [lia|]. split; [lia|]. split; [constructor|]. split; [exact L1|]. split; [apply L2; auto|]. split; [exact L3|]. split; [discriminate|]. split; [intros c E; assert (c = [172]) as -> by congruence; constructor; [unfold is_byte; lia|constructor]|].
      repeat constructor; unfold is_byte in *; lia.
    - split; [simpl; lia|]. cbn [TxModel.to_script]. apply L2. auto. }
  exists (show_tx [[3]; [4]]), (show_tx [[3]; [5]]). split; [apply T; unfold is_byte; lia|]. split; [apply T; unfold is_byte; lia|]. split; [|discriminate].
  intros et. eexists. split; vm_compute; reflexivity.
Qed.
Print Assumptions C132_witness_refuted.
Example C132_example : ToString no_text (show_tx [[3]; [4]]) = Ok (str_bytes "
{
  ""inputs"":[
    {
      ""hash"":	""0505050505050505050505050505050505050505050505050505050505050505"",
      ""n"":	1,
      ""Value"":	1000,
      ""rawlocking"":	""OP_0 OP_DATA_20 0707070707070707070707070707070707070707"",
      ""finallocking"":	""OP_DUP OP_HASH160 OP_DATA_20 0707070707070707070707070707070707070707 OP_EQUALVERIFY OP_CHECKSIG"",
      ""rawunlocking"":	"""",
      ""script"":	"""",
      ""sighash"":	"""",
      ""witness"":	""03"",
      ""scriptcode"":	""ac""
    }
  ],
  ""outputs"":[
    {
      ""value"":	900,
      ""script"":	""OP_DUP OP_HASH160 OP_DATA_20 0909090909090909090909090909090909090909 OP_EQUALVERIFY OP_CHECKSIG""
    }
  ],
  ""basesize"":	85,
  ""witsize"":	5,
  ""vsize"":	86,
  ""size"":	90,
  ""weight"":	345,
  ""fees"":	100 sat,
  ""feesperb"":	1.11 sat/B,
  ""saving"":	5.56 %
}
") /\ Serialize (retimed 2 500000 (fun _ => 0) (show_tx [[3]; [4]])) <> Serialize (show_tx [[3]; [4]]).
Proof. split; [vm_compute; reflexivity|]. vm_compute. discriminate. Qed.
