(** C162: the fee does not fall when a transaction grows or the rate rises. *)
From Verif Require Import GoBase BaseLemmas BufferModel ScriptModel ScriptSpec HexModel AddressModel LockModel LockSpec VmSpec TxModel TxSpec TxSignSpec TxSign TxSignProps
  BuilderModel BuilderSpec BuilderProofs BuilderCalls BuilderMore BuilderSign FeeProofs TxProofs TxSig BuilderProps RateProps.
From Coq Require Import ZifyBool ZifyNat ZifyN.

(** C162: a higher rate or a larger size never gives a lower fee, although each is rounded. *)
Theorem C162_fee_grows : forall size size' rate rate', 0 < size <= size' -> 0 < rate <= rate' -> rate' < 2 ^ 53 -> rate' * size' < 1000 * 2 ^ 42 -> EstimateFees size rate <= EstimateFees size' rate'.
Proof.
  intros s s' r r' S R R' B. assert (M : r * s <= r' * s') by nia. assert (s' < 2 ^ 53) by nia.
  pose proof (Z.div_mod (r * s) 1000 ltac:(lia)). pose proof (Z.mod_pos_bound (r * s) 1000 ltac:(lia)). pose proof (Z.div_mod (r' * s') 1000 ltac:(lia)). pose proof (Z.mod_pos_bound (r' * s') 1000 ltac:(lia)).
  destruct (Z.eq_dec (r * s) (r' * s')) as [Eq|Nq]; [assert (s = s') by nia; assert (r = r') by nia; subst; lia|].
  destruct (fee_exact s' r' ltac:(lia) ltac:(lia) ltac:(lia)) as [->|[Z' ->]]; destruct (fee_exact s r ltac:(lia) ltac:(lia) ltac:(lia)) as [->|[Z0 ->]]; lia.
Qed.
Print Assumptions C162_fee_grows.
Example C162_example_fee : EstimateFees 100 290 = 28 /\ EstimateFees 101 290 = 29 /\ EstimateFees 100 291 = 29 /\ EstimateFees 99 290 = 28.
Proof. vm_compute. repeat split; reflexivity. Qed.

Lemma estimate_is ins outs : len ins < 2 ^ 64 -> len outs < 2 ^ 64 -> let L := len (filter plain ins) in let W := len ins - L in
  EstimateSize ins outs = (4 * (8 + len (compact (len ins)) + 149 * L + len (compact (len outs)) + sumZ (map (fun o => 8 + len (to_script o)) outs)) + (if W =? 0 then 0 else 3 * W + L)) / 4 /\ 0 <= L <= len ins /\ 0 < EstimateSize ins outs.
Proof.
  intros Mi Mo L W. destruct (estimate_upper ins outs Mi Mo) as [P0 _]. split; [|split; [|exact P0]].
  2: { unfold L. split; [apply len_nonneg|]. clear. induction ins as [|i l IH]; [reflexivity|]. cbn [filter]. destruct (plain i); rewrite ?len_cons; lia. }
  clear P0. unfold EstimateSize. rewrite !compact_len.
  assert (Li : u64 (len ins) = len ins) by (unfold u64; rewrite Z.mod_small; [reflexivity|]; pose proof (len_nonneg ins); lia).
  assert (Lo : u64 (len outs) = len outs) by (unfold u64; rewrite Z.mod_small; [reflexivity|]; pose proof (len_nonneg outs); lia).
  rewrite Li, Lo.
  assert (I : sumZ (map (fun i => if in_has_witness i then 0 else 149) ins) = 149 * L /\ 0 <= L /\
    sumZ (map (fun i => if in_has_witness i then VarIntSerializeSize 2 + VarIntSerializeSize 73 + VarIntSerializeSize 33 else VarIntSerializeSize 0) ins) = 3 * (len ins - L) + L /\ L <= len ins /\
    existsb in_has_witness ins = negb (len ins - L =? 0)).
  { unfold L. clear. induction ins as [|i l IH]; [repeat split; vm_compute; congruence|]. cbn [map filter existsb]. change (sumZ (?a :: ?r)) with (a + sumZ r) in *.
    unfold in_has_witness, plain in *. destruct (ti_code i); rewrite ?len_cons; change (VarIntSerializeSize 2 + VarIntSerializeSize 73 + VarIntSerializeSize 33) with 3 in *; change (VarIntSerializeSize 0) with 1 in *; cbn [orb];
      (split; [lia|]; split; [lia|]; split; [lia|]; split; [lia|]); [lia|]. destruct IH as (_ & _ & _ & _ & ->). lia. }
  destruct I as (-> & L0 & -> & L1 & ->). fold W.
  pose proof (compact_pos (len ins)) as Q1. pose proof (compact_pos (len outs)) as Q2. rewrite compact_len in Q1, Q2.
  pose proof (sumZ_nonneg (map (fun o => 8 + len (to_script o)) outs)) as P. rewrite Forall_map in P. specialize (P ltac:(apply Forall_forall; intros x _; pose proof (len_nonneg (to_script x)); lia)).
  destruct (W =? 0) eqn:EW; cbn [negb]; rewrite Z.quot_div_nonneg by lia; f_equal; lia.
Qed.

(** C162: two builds at rates [rate <= rate'], the second with no fewer inputs of either kind, the first one's payments
    and more, and no less data: the second pays no less. *)
Theorem C162_growing_pays_more : forall Hash160 sha256 DS prvkey PubKeyBytes EcdsaSign cs b t cs' b' t',
  do_calls prvkey cs (NewTransactionBuilder prvkey) = Ok b -> BuildTransaction Hash160 sha256 DS prvkey PubKeyBytes EcdsaSign b = Ok t -> sane prvkey cs -> tx_ok t ->
  do_calls prvkey cs' (NewTransactionBuilder prvkey) = Ok b' -> BuildTransaction Hash160 sha256 DS prvkey PubKeyBytes EcdsaSign b' = Ok t' -> sane prvkey cs' -> tx_ok t' ->
  0 < said_relay prvkey cs <= said_relay prvkey cs' -> said_relay prvkey cs' < 2 ^ 53 ->
  said_relay prvkey cs' * (len (Serialize t') + 149 * len (tx_ins t')) < 1000 * 2 ^ 42 ->
  plain_inputs t <= plain_inputs t' -> len (tx_ins t) - plain_inputs t <= len (tx_ins t') - plain_inputs t' ->
  (exists more, said_payments prvkey cs' = said_payments prvkey cs ++ more) -> sumZ (map len (said_data prvkey cs)) <= sumZ (map len (said_data prvkey cs')) ->
  Fees t <= Fees t'.
Proof.
  intros H1 H2 H3 prvkey H4 H5 cs b t cs' b' t' E B Sa T E' B' Sa' T' R R' Bd Hp Hw (more & Hm) Hd.
  assert (PL : forall cs b t, do_calls prvkey cs (NewTransactionBuilder prvkey) = Ok b -> BuildTransaction H1 H2 H3 prvkey H4 H5 b = Ok t -> sane prvkey cs -> 0 < said_relay prvkey cs ->
    let pays := map (fun o => MkOut (o_value o) (script_to (o_addr o))) (said_payments prvkey cs) in
    exists ch datas, tx_outs t = pays ++ ch ++ datas /\ Forall2 carries (said_data prvkey cs) datas /\ Fees t = EstimateFees (EstimateSize (tx_ins t) pays + sumZ (map len (said_data prvkey cs))) (said_relay prvkey cs)).
  { clear. intros cs b t E B (A1 & A2 & A3 & A4 & A5 & A6 & A7) R. cbv zeta.
    destruct (calls_conserve H1 H2 H3 prvkey H4 H5 cs b t E B A1 A2 A3 A4 A5) as (fee & _ & _ & F & _ & _ & Fr).
    destruct (calls_layout H1 H2 H3 prvkey H4 H5 cs) as (b' & E' & Lay). rewrite E in E'. injection E' as <-.
    destruct (Lay t B A6 A7) as (Sp & Nc & Np & _ & _ & ch & datas & Eo & Cd & Ch).
    exists ch, datas. split; [exact Eo|]. split; [exact Cd|].
    rewrite F, (Fr R), Eo. f_equal. f_equal. f_equal. rewrite <- (map_length (fun o => MkOut (o_value o) (script_to (o_addr o))) (said_payments prvkey cs)).
    rewrite firstn_app, firstn_all, Nat.sub_diag. cbn [firstn]. apply app_nil_r. }
  destruct (PL cs b t E B Sa ltac:(lia)) as (ch & datas & Eo & Cd & ->). destruct (PL cs' b' t' E' B' Sa' ltac:(lia)) as (ch' & datas' & Eo' & Cd' & ->). clear PL.
  set (pays := map _ (said_payments prvkey cs)) in *. set (pays' := map _ (said_payments prvkey cs')) in *.
  assert (Ep : exists mo, pays' = pays ++ mo) by (unfold pays', pays; rewrite Hm, map_app; eauto). destruct Ep as (mo & Ep). clearbody pays pays'.
  assert (Wl : len (wire_legacy t') <= len (Serialize t')).
  { rewrite serialize_witness by exact T'. destruct (HasWitness t'); [|lia]. unfold wire_legacy, wire_bip144. rewrite !len_app. pose proof (len_nonneg (concat (map wire_witness (tx_ins t')))). change (len [0; 1]) with 2. lia. }
  rewrite (wire_len t' T') in Wl.
  destruct T as (_ & _ & Mi & Mo & _ & _). pose proof (mem1_lt _ _ Mi ltac:(lia)) as Mi0. pose proof (mem1_lt _ _ Mo ltac:(lia)) as Mo0.
  destruct T' as (_ & _ & Mi' & Mo' & _ & _). pose proof (mem1_lt _ _ Mi' ltac:(lia)) as Mi1. pose proof (mem1_lt _ _ Mo' ltac:(lia)) as Mo1.
  assert (Mp : len pays <= len (tx_outs t)) by (rewrite Eo, len_app; pose proof (len_nonneg (ch ++ datas)); lia).
  assert (Mp' : len pays' <= len (tx_outs t')) by (rewrite Eo', len_app; pose proof (len_nonneg (ch' ++ datas')); lia).
  destruct (estimate_is (tx_ins t) pays Mi0 ltac:(lia)) as (Es & Ls & P0). destruct (estimate_is (tx_ins t') pays' Mi1 ltac:(lia)) as (Es' & Ls' & P0'). cbv zeta in *. destruct (estimate_upper (tx_ins t') pays' Mi1 ltac:(lia)) as (_ & Up). cbv zeta in Up.
  unfold plain_inputs in *. assert (Li : len (tx_ins t) <= len (tx_ins t')) by lia. pose proof (compact_mono _ _ Li) as C1.
  assert (Lo : len pays <= len pays') by (rewrite Ep, len_app; pose proof (len_nonneg mo); lia). pose proof (compact_mono _ _ Lo) as C2. pose proof (compact_mono _ _ Mp') as C3.
  assert (So : sumZ (map (fun o => 8 + len (to_script o)) pays) <= sumZ (map (fun o => 8 + len (to_script o)) pays')).
  { rewrite Ep, map_app, sum_app. pose proof (sumZ_nonneg (map (fun o => 8 + len (to_script o)) mo)) as P. rewrite Forall_map in P. specialize (P ltac:(apply Forall_forall; intros x _; pose proof (len_nonneg (to_script x)); lia)). lia. }
  assert (Le : EstimateSize (tx_ins t) pays <= EstimateSize (tx_ins t') pays').
  { rewrite Es, Es'. apply Z.div_le_mono; [lia|]. destruct (len (tx_ins t) - len (filter plain (tx_ins t)) =? 0) eqn:X; destruct (len (tx_ins t') - len (filter plain (tx_ins t')) =? 0) eqn:Y; lia. }
  pose proof (datas_fit _ _ Cd') as D.
  assert (Nd : 0 <= sumZ (map len (said_data prvkey cs))) by (apply sumZ_nonneg; rewrite Forall_map; apply Forall_forall; intros x _; apply len_nonneg).
  assert (Po : sumZ (map (fun o => 8 + len (to_script o)) pays') + sumZ (map (fun o => 8 + script_prefix o + len (to_script o)) datas') <= sumZ (map (fun o => 8 + script_prefix o + len (to_script o)) (tx_outs t'))).
  { rewrite Eo', !map_app, !sum_app. pose proof (sum_pointwise (fun o => 8 + len (to_script o)) (fun o => 8 + script_prefix o + len (to_script o)) pays') as Q. specialize (Q ltac:(apply Forall_forall; intros x _; unfold script_prefix; pose proof (compact_pos (len (to_script x))); lia)).
    pose proof (sumZ_nonneg (map (fun o => 8 + script_prefix o + len (to_script o)) ch')) as P. rewrite Forall_map in P. specialize (P ltac:(apply Forall_forall; intros x _; unfold script_prefix; pose proof (compact_pos (len (to_script x))); pose proof (len_nonneg (to_script x)); lia)). lia. }
  assert (I : 41 * len (tx_ins t') <= sumZ (map (fun i => 40 + len (compact (len (script_sig i))) + len (script_sig i)) (tx_ins t'))).
  { clear. induction (tx_ins t') as [|i l IH]; [vm_compute; congruence|]. cbn [map]. change (sumZ (?a :: ?r)) with (a + sumZ r). rewrite len_cons. pose proof (compact_pos (len (script_sig i))). pose proof (len_nonneg (script_sig i)). lia. }
  apply C162_fee_grows; [lia|lia|lia|].
  assert (EstimateSize (tx_ins t') pays' + sumZ (map len (said_data prvkey cs')) <= len (Serialize t') + 149 * len (tx_ins t')) by lia.
  set (sz := EstimateSize (tx_ins t') pays' + sumZ (map len (said_data prvkey cs'))) in *. nia.
Qed.
Print Assumptions C162_growing_pays_more.
Example C162_example :
  rated (rate_calls (p2pkh_script (toy160 (wide_pub 8 true))) []) (fun t => (Fees t, plain_inputs t, len (tx_ins t))) = Ok (192, 1, 1) /\
  rated (CAddCoin Z (ex_coin 4 5000 (p2wpkh_script (toy160 (wide_pub 8 true)))) :: CAddKeys Z (Some [8]) :: CThen Z :: rate_calls (p2pkh_script (toy160 (wide_pub 8 true))) [CPush Z [1; 2; 3]]) (fun t => (Fees t, plain_inputs t, len (tx_ins t))) = Ok (196, 1, 2) /\
  said_payments Z (CAddCoin Z (ex_coin 4 5000 []) :: CThen Z :: rate_calls [] []) = said_payments Z (rate_calls [] []) ++ [].
Proof. vm_compute. repeat split; reflexivity. Qed.
