(** Proofs about the transaction builder. *)
From Verif Require Import GoBase BaseLemmas BufferModel BufferSpec BufferProofs ScriptModel ScriptSpec ScriptProofs HexModel HexProofs AddressModel LockModel LockSpec LockProofs VmSpec VmProofs
  TxModel TxSpec TxSignSpec TxSign TxSign2 BuilderModel BuilderSpec.
From Coq Require Import ZifyBool ZifyNat ZifyN.

Lemma i64_mod x y : x mod 2 ^ 64 = y mod 2 ^ 64 -> i64 x = i64 y.
Proof. intros E. unfold i64. rewrite Z.add_mod, E, <- Z.add_mod by lia. reflexivity. Qed.
Lemma i64_cong x : (i64 x) mod 2 ^ 64 = x mod 2 ^ 64.
Proof. unfold i64. rewrite Zminus_mod_idemp_l. f_equal. lia. Qed.
Lemma i64_add x y : i64 (i64 x + i64 y) = i64 (x + y).
Proof. apply i64_mod. rewrite Z.add_mod, !i64_cong, <- Z.add_mod by lia. reflexivity. Qed.
Lemma i64_add_l x y : i64 (i64 x + y) = i64 (x + y).
Proof. apply i64_mod. rewrite Z.add_mod, !i64_cong, <- Z.add_mod by lia. reflexivity. Qed.
Lemma i64_sub_l x y : i64 (i64 x - y) = i64 (x - y).
Proof. apply i64_mod. rewrite Zminus_mod, !i64_cong, <- Zminus_mod by lia. reflexivity. Qed.
Lemma i64_sub x y : i64 (i64 x - i64 y) = i64 (x - y).
Proof. apply i64_mod. rewrite Zminus_mod, !i64_cong, <- Zminus_mod by lia. reflexivity. Qed.
Lemma i64_u64 x : i64 (u64 x) = i64 x.
Proof. apply i64_mod. unfold u64. now rewrite Z.mod_mod by lia. Qed.
Lemma sumZ_app a b : sumZ (a ++ b) = sumZ a + sumZ b.
Proof. unfold sumZ. induction a as [|x a IH]; cbn [app fold_right]; lia. Qed.
Lemma sumZ_nonneg l : Forall (fun x => 0 <= x) l -> 0 <= sumZ l.
Proof. unfold sumZ. induction 1; cbn [fold_right]; lia. Qed.

Section Proofs.
Variable Hash160 sha256 DS : bytes -> bytes.
Variable prvkey : Type.
Variable PubKeyBytes : prvkey -> bool -> bytes.
Variable EcdsaSign : prvkey -> bytes -> res bytes.
Notation builder := (TransactionBuilder prvkey).
Notation gather := (gather Hash160 prvkey).
Notation Build := (BuildTransaction Hash160 sha256 DS prvkey PubKeyBytes EcdsaSign).
Notation coins := (coins prvkey).
Notation payments := (payments prvkey).

(** ** Signing leaves the rest alone. *)
Lemma sign_index_core idx c ht ks t t' : SignIndex sha256 DS prvkey PubKeyBytes EcdsaSign idx c ht ks t = Ok t' -> core t' = core t.
Proof.
  unfold SignIndex. intros E. apply rbind_ok in E. destruct E as (i & Hi & E). destruct (_ && _); [discriminate|]. apply rbind_ok in E. destruct E as ((signs & t1) & El & E).
  destruct (sign_loop_spec Hash160 sha256 DS prvkey PubKeyBytes EcdsaSign (fun _ _ _ => Ok tt) idx c ht ks t i signs t1 Hi El) as ((C & _) & _). rewrite C.
  unfold EmbedIdxSignature in E. apply rbind_ok in E. destruct E as (j & Hj & E). destruct (_ && _); [discriminate|]. apply rbind_ok in E. destruct E as (s & _ & E).
  assert (P : forall f, (forall i, blank (f i) = blank i) -> core (set_in idx f t1) = core t1) by (intros f Hf; symmetry; apply (set_in_same DS 0 idx f t1 Hf)).
  destruct (GetRawUnlockingScriptBytes sha256 s signs _) as [u| |]; [|injection E as <-; now apply P|discriminate].
  apply rbind_ok in E. destruct E as (w & _ & E). injection E as <-. now apply P.
Qed.
Lemma sign_inputs_core : forall inputs i t t', sign_inputs sha256 DS prvkey PubKeyBytes EcdsaSign i inputs t = Ok t' -> core t' = core t.
Proof.
  induction inputs as [|x r IH]; intros i t t' E; cbn [sign_inputs] in E; [now injection E as <-|]. destruct (n_keys prvkey x) as [ks|]; [|discriminate].
  apply rbind_ok in E. destruct E as (t1 & E1 & E). rewrite (IH _ _ _ E). eapply sign_index_core; eauto.
Qed.

(** ** The loop over the groups. *)
Definition pay_out (o : output) : TxOut := MkOut (o_value o) (script_to (o_addr o)).
Definition coin_in (c : Coin) (i : TxIn) : Prop := exists script redeem, NewIDFromString (coin_txid c) = Ok (ti_hash i) /\ hex_decode (coin_script c) = Ok script /\
  NewTxIn Hash160 (ti_hash i) (coin_n c) (coin_value c) script redeem = Ok i.
Lemma gather_spec : forall gs a a', gather gs a = Ok a' ->
  (exists l, ga_txins prvkey a' = ga_txins prvkey a ++ l /\ Forall2 coin_in (flat_map (fun g => list_of (g_coin prvkey g)) gs) l) /\
  ga_txouts prvkey a' = ga_txouts prvkey a ++ map pay_out (flat_map (fun g => list_of (g_output prvkey g)) gs) /\
  (- 2 ^ 63 <= ga_in prvkey a < 2 ^ 63 -> ga_in prvkey a' = i64 (ga_in prvkey a + sumZ (map coin_value (flat_map (fun g => list_of (g_coin prvkey g)) gs)))) /\
  (- 2 ^ 63 <= ga_out prvkey a < 2 ^ 63 -> ga_out prvkey a' = i64 (ga_out prvkey a + sumZ (map o_value (flat_map (fun g => list_of (g_output prvkey g)) gs)))).
Proof.
  induction gs as [|g gs IH]; intros a a' E; cbn [BuilderModel.gather flat_map] in *.
  - injection E as <-. split; [exists []; rewrite app_nil_r; split; [reflexivity|constructor]|]. cbn [map]. rewrite app_nil_r. split; [reflexivity|]. change (sumZ []) with 0. split; intros R; rewrite Z.add_0_r, i64_id; auto.
  - apply rbind_ok in E. destruct E as (a1 & E1 & E). apply rbind_ok in E. destruct E as (a2 & E2 & E). destruct (IH a2 a' E) as ((l & L & F) & O & I & P). clear IH E.
    assert (A1 : (exists l1, ga_txins prvkey a1 = ga_txins prvkey a ++ l1 /\ Forall2 coin_in (list_of (g_coin prvkey g)) l1) /\ ga_txouts prvkey a1 = ga_txouts prvkey a /\ ga_out prvkey a1 = ga_out prvkey a /\
      (- 2 ^ 63 <= ga_in prvkey a < 2 ^ 63 -> ga_in prvkey a1 = i64 (ga_in prvkey a + sumZ (map coin_value (list_of (g_coin prvkey g)))))).
    { unfold gather_in in E1. destruct (g_coin prvkey g) as [c|]; cbn [list_of].
      - apply rbind_ok in E1. destruct E1 as (id & Eid & E1). apply rbind_ok in E1. destruct E1 as (sc & Esc & E1). apply rbind_ok in E1. destruct E1 as (i & Ei & E1). injection E1 as <-. cbn [ga_txins ga_txouts ga_in ga_out].
        split; [|split; [reflexivity|split; [reflexivity|]]].
        + exists [i]. split; [reflexivity|]. constructor; [|constructor]. assert (Hi : ti_hash i = id) by (unfold NewTxIn in Ei; apply rbind_ok in Ei; destruct Ei as (s & _ & Ei); injection Ei as <-; reflexivity).
          exists sc, (g_redeem prvkey g). rewrite Hi. auto.
        + intros R. cbn [map]. change (sumZ [coin_value c]) with (coin_value c + 0). rewrite Z.add_0_r. apply i64_mod. rewrite Z.add_mod, i64_cong, <- Z.add_mod by lia. reflexivity.
      - injection E1 as <-. split; [exists []; rewrite app_nil_r; split; [reflexivity|constructor]|]. split; [reflexivity|]. split; [reflexivity|]. intros R. cbn [map]. change (sumZ []) with 0. rewrite Z.add_0_r, i64_id; auto. }
    assert (A2 : ga_txins prvkey a2 = ga_txins prvkey a1 /\ ga_txouts prvkey a2 = ga_txouts prvkey a1 ++ map pay_out (list_of (g_output prvkey g)) /\ ga_in prvkey a2 = ga_in prvkey a1 /\
      (- 2 ^ 63 <= ga_out prvkey a1 < 2 ^ 63 -> ga_out prvkey a2 = i64 (ga_out prvkey a1 + sumZ (map o_value (list_of (g_output prvkey g)))))).
    { unfold gather_out in E2. destruct (g_output prvkey g) as [o|]; cbn [list_of]; injection E2 as <-; cbn [ga_txins ga_txouts ga_in ga_out map].
      - split; [reflexivity|]. split; [reflexivity|]. split; [reflexivity|]. intros R. change (sumZ [o_value o]) with (o_value o + 0). rewrite Z.add_0_r. apply i64_mod. rewrite Z.add_mod, i64_cong, <- Z.add_mod by lia. reflexivity.
      - rewrite app_nil_r. split; [reflexivity|]. split; [reflexivity|]. split; [reflexivity|]. intros R. change (sumZ []) with 0. rewrite Z.add_0_r, i64_id; auto. }
    destruct A1 as ((l1 & L1 & F1) & O1 & Q1 & I1). destruct A2 as (L2 & O2 & I2 & P2).
    split; [exists (l1 ++ l); rewrite L, L2, L1, app_assoc; split; [reflexivity|now apply Forall2_app]|].
    split; [rewrite O, O2, O1, map_app, app_assoc; reflexivity|]. rewrite !map_app, !sumZ_app. split; intros R.
    + rewrite I by (rewrite I2, I1 by exact R; apply i64_range). rewrite I2, I1, i64_add_l by exact R. f_equal. lia.
    + rewrite Q1 in P2. rewrite P by (rewrite P2 by exact R; apply i64_range). rewrite P2, i64_add_l by exact R. f_equal. lia.
Qed.

Lemma fold_in l : forall t, fold_left (fun t i => AddInput i t) l t = set_ins (tx_ins t ++ l) t.
Proof. induction l as [|i l IH]; intros t; cbn [fold_left]; [rewrite app_nil_r; now destruct t|]. rewrite IH. unfold AddInput, set_ins. cbn. rewrite <- app_assoc. reflexivity. Qed.
Lemma fold_out l : forall t, fold_left (fun t o => AddOutput o t) l t = set_outs (tx_outs t ++ l) t.
Proof. induction l as [|i l IH]; intros t; cbn [fold_left]; [rewrite app_nil_r; now destruct t|]. rewrite IH. unfold AddOutput, set_outs. cbn. rewrite <- app_assoc. reflexivity. Qed.
Lemma fold_push l : forall t, fold_left (fun t d => AddOutput (push_out d) t) l t = set_outs (tx_outs t ++ map push_out l) t.
Proof. induction l as [|i l IH]; intros t; cbn [fold_left map]; [rewrite app_nil_r; now destruct t|]. rewrite IH. unfold AddOutput, set_outs. cbn. rewrite <- app_assoc. reflexivity. Qed.
Lemma assemble_spec (b : builder) a ch : assemble prvkey b a ch =
  MkTx 1 (b_lockTime prvkey b) (ga_txins prvkey a) (ga_txouts prvkey a ++ list_of ch ++ map push_out (b_push prvkey b)) None None None.
Proof.
  unfold assemble. rewrite fold_in, fold_out, fold_push. destruct ch as [o|]; cbn; rewrite ?app_assoc; [|reflexivity]. now rewrite <- app_assoc.
Qed.

Lemma build_spec b t : Build b = Ok t -> exists a ch amt, gather (b_groups prvkey b) (MkG prvkey 0 0 [] [] []) = Ok a /\ core t = core (assemble prvkey b a ch) /\
  ga_txins prvkey a <> [] /\ ga_txouts prvkey a <> [] /\
  build_fees prvkey b a <= b_maxFees prvkey b /\ ga_out prvkey a <= ga_in prvkey a /\ amt = i64 (i64 (ga_in prvkey a - ga_out prvkey a) - build_fees prvkey b a) /\ 0 <= amt /\ change_out prvkey b amt = Ok ch.
Proof.
  unfold BuildTransaction. intros E. apply rbind_ok in E. destruct E as (a & Ea & E). destruct (len (ga_txins prvkey a) =? 0) eqn:C1; [discriminate|]. destruct (len (ga_txouts prvkey a) =? 0) eqn:C2; [discriminate|].
  destruct (b_maxFees prvkey b <? _) eqn:C3; [discriminate|]. destruct (ga_in prvkey a <? ga_out prvkey a) eqn:C4; [discriminate|]. destruct (i64 _ <? 0) eqn:C5; [discriminate|].
  apply rbind_ok in E. destruct E as (ch & Ec & E). exists a, ch. eexists. split; [exact Ea|]. split; [|split; [|split; [|split; [lia|split; [lia|split; [reflexivity|split; [lia|exact Ec]]]]]]].
  - destruct (b_sign prvkey b); [eapply sign_inputs_core; eauto|now injection E as <-].
  - intros X. rewrite X in C1. discriminate.
  - intros X. rewrite X in C2. discriminate.
Qed.

Lemma core_parts t u : core t = core u -> tx_version t = tx_version u /\ tx_locktime t = tx_locktime u /\ tx_outs t = tx_outs u /\ map blank (tx_ins t) = map blank (tx_ins u).
Proof. unfold core. intros E. injection E as -> -> I ->. auto. Qed.
Lemma coin_in_value l : forall cs, Forall2 coin_in cs l -> map ti_value l = map coin_value cs.
Proof.
  induction l as [|i l IH]; intros cs F; inversion F as [|c ? cs' ? (sc & rd & _ & _ & N) F']; subst; [reflexivity|]. cbn [map]. rewrite (IH cs' F'). f_equal.
  unfold NewTxIn in N. apply rbind_ok in N. destruct N as (s & _ & N). injection N as <-. reflexivity.
Qed.
Lemma blank_values l m : map blank l = map blank m -> map ti_value l = map ti_value m.
Proof. intros E. apply (f_equal (map ti_value)) in E. rewrite !map_map in E. exact E. Qed.

(** What an int64 fee comes to. *)
Definition fee_of (b : builder) (t : transaction) : Z := sumZ (map ti_value (tx_ins t)) - sumZ (map to_value (tx_outs t)).
Lemma push_zero l : sumZ (map to_value (map push_out l)) = 0.
Proof. induction l as [|d l IH]; [reflexivity|]. cbn [map]. change (sumZ (?x :: ?r)) with (x + sumZ r). rewrite IH. reflexivity. Qed.
Lemma change_value (b : builder) amt ch : 0 <= amt < 2 ^ 63 -> change_out prvkey b amt = Ok ch -> sumZ (map to_value (list_of ch)) = amt.
Proof.
  intros R. unfold change_out. destruct (0 <? amt) eqn:C; [|intros E; injection E as <-; change (sumZ (map to_value (list_of None))) with 0; lia].
  destruct (b_change prvkey b) as [[ad|]|]; try discriminate. intros E. injection E as <-. cbn [list_of map]. cbn [to_value]. change (sumZ [?x]) with (x + 0). unfold u64. rewrite Z.mod_small; lia.
Qed.

(** The fee the builder works with: the relay estimate, or the fee set. *)
Lemma int_of_range f : - 2 ^ 63 <= int_of f < 2 ^ 63.
Proof. destruct f as [s|s| |s m e]; cbn [int_of]; try lia. destruct (_ && _) eqn:C; [|lia]. apply andb_prop in C. lia. Qed.
Lemma estimate_fees_range s r : - 2 ^ 63 <= EstimateFees s r < 2 ^ 63.
Proof. unfold EstimateFees. destruct (0 <? r); [apply int_of_range|lia]. Qed.

(** Exactly, for every builder, modulo 2^64. *)
Lemma build_value b t : Build b = Ok t -> amounts_ok prvkey b ->
  exists fee, (b_relay prvkey b <= 0 -> fee = b_sendFees prvkey b) /\
    (0 < b_relay prvkey b -> fee = EstimateFees (EstimateSize (tx_ins t) (firstn (length (payments b)) (tx_outs t)) + sumZ (map len (b_push prvkey b))) (b_relay prvkey b)) /\
    fee <= b_maxFees prvkey b /\ - 2 ^ 63 <= fee < 2 ^ 63 /\
    map ti_value (tx_ins t) = map coin_value (coins b) /\
    exists amt, amt = i64 (total_coins prvkey b - total_paid prvkey b - fee) /\ 0 <= amt /\ i64 (total_paid prvkey b) <= i64 (total_coins prvkey b) /\
      sumZ (map to_value (tx_outs t)) = total_paid prvkey b + amt.
Proof.
  intros E A. destruct (build_spec b t E) as (a & ch & amt & Ga & C & _ & _ & Mx & Le & Ea & Pa & Ec).
  destruct (gather_spec _ _ _ Ga) as ((l & L & F) & O & I & P). cbn [ga_txins ga_txouts ga_in ga_out app] in L, O, I, P. rewrite Z.add_0_l in I, P. specialize (I ltac:(lia)). specialize (P ltac:(lia)).
  destruct (core_parts _ _ C) as (_ & _ & Co & Ci). rewrite assemble_spec in Co, Ci. cbn [tx_outs tx_ins] in Co, Ci.
  fold (coins b) in *. fold (payments b) in *.
  exists (build_fees prvkey b a).
  assert (Fr : - 2 ^ 63 <= build_fees prvkey b a < 2 ^ 63) by (unfold build_fees; destruct (0 <? b_relay prvkey b); [apply estimate_fees_range|apply A]).
  split; [intros R; unfold build_fees; replace (0 <? b_relay prvkey b) with false by lia; reflexivity|].
  split.
  { intros R. unfold build_fees. replace (0 <? b_relay prvkey b) with true by lia. f_equal. f_equal.
    assert (En : forall i j o, map blank i = map blank j -> EstimateSize i o = EstimateSize j o).
    { intros i j o X. unfold EstimateSize. assert (Y : map in_has_witness i = map in_has_witness j). { apply (f_equal (map in_has_witness)) in X. rewrite !map_map in X. exact X. }
      assert (Ln : len i = len j) by (unfold len; rewrite <- (map_length blank i), X, map_length; reflexivity).
      assert (Z1 : forall (f : bool -> Z) k, map (fun x => f (in_has_witness x)) k = map f (map in_has_witness k)) by (intros f k; now rewrite map_map).
      rewrite (Z1 (fun w => if w then 0 else 149) i), (Z1 (fun w => if w then 0 else 149) j).
      rewrite (Z1 (fun w => if w then VarIntSerializeSize 2 + VarIntSerializeSize 73 + VarIntSerializeSize 33 else VarIntSerializeSize 0) i), (Z1 (fun w => if w then VarIntSerializeSize 2 + VarIntSerializeSize 73 + VarIntSerializeSize 33 else VarIntSerializeSize 0) j).
      assert (Ex : existsb in_has_witness i = existsb in_has_witness j).
      { clear - Y. revert j Y. induction i as [|x i IH]; intros [|y j] Y; try discriminate; [reflexivity|]. cbn [map] in Y. injection Y as Y1 Y2. cbn [existsb]. rewrite Y1, (IH j Y2). reflexivity. }
      rewrite Y, Ln, Ex. reflexivity. }
    rewrite (En _ _ _ (eq_sym Ci)). f_equal. rewrite Co, O, firstn_app, map_length, Nat.sub_diag. cbn [firstn]. rewrite app_nil_r. rewrite <- (map_length pay_out), firstn_all. reflexivity. }
  split; [exact Mx|]. split; [exact Fr|]. split; [rewrite (blank_values _ _ Ci), L; now apply coin_in_value|].
  exists amt. unfold total_coins, total_paid. fold (coins b). fold (payments b). rewrite I, P in *. split; [rewrite Ea, i64_sub, i64_sub_l; reflexivity|].
  split; [exact Pa|]. split; [exact Le|]. rewrite Co, O, !map_app, !sumZ_app, push_zero.
  rewrite (change_value b amt ch); [|split; [exact Pa|rewrite Ea; apply i64_range]|exact Ec].
  replace (map to_value (map pay_out (payments b))) with (map o_value (payments b)) by (rewrite map_map; reflexivity). lia.
Qed.

(** C46. *)
Lemma conserves b t : Build b = Ok t -> amounts_ok prvkey b -> total_coins prvkey b < 2 ^ 63 -> total_paid prvkey b < 2 ^ 63 ->
  exists fee, sumZ (map coin_value (coins b)) = sumZ (map to_value (tx_outs t)) + fee /\ map ti_value (tx_ins t) = map coin_value (coins b) /\ Fees t = fee /\ fee <= b_maxFees prvkey b /\ (b_relay prvkey b <= 0 -> fee = b_sendFees prvkey b) /\ (0 < b_relay prvkey b -> fee = EstimateFees (EstimateSize (tx_ins t) (firstn (length (payments b)) (tx_outs t)) + sumZ (map len (b_push prvkey b))) (b_relay prvkey b)).
Proof.
  intros E A T1 T2. destruct (build_value b t E A) as (fee & F1 & F2 & Mx & R & V & amt & Ea & Pa & Le & So). exists fee. destruct A as (A1 & A2 & _).
  assert (P1 : 0 <= total_coins prvkey b). { apply sumZ_nonneg, Forall_map. eapply Forall_impl; [|exact A1]. cbn. lia. }
  assert (P2 : 0 <= total_paid prvkey b). { apply sumZ_nonneg, Forall_map. eapply Forall_impl; [|exact A2]. cbn. lia. }
  rewrite !i64_id in Le by lia.
  assert (Ex : amt = total_coins prvkey b - total_paid prvkey b - fee).
  { rewrite Ea. set (x := total_coins prvkey b - total_paid prvkey b - fee) in *. assert (- 2 ^ 63 <= x < 2 ^ 64) by lia. destruct (Z_lt_dec x (2 ^ 63)); [apply i64_id; lia|]. exfalso.
    assert (i64 x = x - 2 ^ 64). { unfold i64. replace (x + 2 ^ 63) with (x - 2 ^ 63 + 1 * 2 ^ 64) by lia. rewrite Z.mod_add, Z.mod_small by lia. lia. } lia. }
  fold (total_coins prvkey b). assert (Id : total_coins prvkey b = sumZ (map to_value (tx_outs t)) + fee) by lia.
  split; [exact Id|]. split; [exact V|]. split; [|auto]. unfold Fees. rewrite i64_u64. rewrite V. fold (total_coins prvkey b).
  transitivity (i64 fee); [|now apply i64_id]. apply i64_mod. unfold u64. rewrite <- Zminus_mod. f_equal. lia.
Qed.
Lemma never_overpays b t : Build b = Ok t -> amounts_ok prvkey b -> total_coins prvkey b < 2 ^ 63 -> total_paid prvkey b < 2 ^ 63 ->
  (sumZ (map to_value (tx_outs t)) <= sumZ (map ti_value (tx_ins t)) <-> 0 <= Fees t).
Proof. intros E A T1 T2. destruct (conserves b t E A T1 T2) as (fee & I & V & -> & _). rewrite V. lia. Qed.
End Proofs.
