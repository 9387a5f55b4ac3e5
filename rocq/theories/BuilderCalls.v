(** The builder's state after any sequence of calls, and the transaction it then builds. *)
From Verif Require Import GoBase BaseLemmas BufferModel BufferSpec BufferProofs ScriptModel ScriptSpec ScriptProofs HexModel HexProofs AddressModel LockModel LockSpec LockProofs VmSpec VmProofs
  TxModel TxSpec TxSignSpec TxSign TxSign2 BuilderModel BuilderSpec BuilderProofs.
From Coq Require Import ZifyBool ZifyNat ZifyN.

Lemma update_last {A} (f : A -> A) l x : update (length l) f (l ++ [x]) = l ++ [f x].
Proof. induction l as [|y l IH]; [reflexivity|]. cbn [length app update]. now rewrite IH. Qed.
Lemma index_last {A} (l : list A) x : index (l ++ [x]) (len l) = Ok x.
Proof. unfold index, len. replace (Z.of_nat (length l) <? 0) with false by lia. rewrite Nat2Z.id, nth_error_app2, Nat.sub_diag by lia. reflexivity. Qed.
Definition or_else {A} (o : option A) (d : A) : A := match o with Some x => x | None => d end.

Section Calls.
Variable Hash160 sha256 DS : bytes -> bytes.
Variable prvkey : Type.
Variable PubKeyBytes : prvkey -> bool -> bytes.
Variable EcdsaSign : prvkey -> bytes -> res bytes.
Notation builder := (TransactionBuilder prvkey).
Notation Build := (BuildTransaction Hash160 sha256 DS prvkey PubKeyBytes EcdsaSign).
Notation call := (call prvkey).
Notation gc := (fun g => list_of (g_coin prvkey g)).
Notation go := (fun g => list_of (g_output prvkey g)).
Definition coin_call (c : call) : option (option Coin) := match c with CAddCoin _ o => Some o | _ => None end.
Definition to_call (c : call) : option output := match c with CTo _ a v => Some (MkOutput a v) | _ => None end.
Definition hc (g : Group prvkey) (s : list call) : list Coin := list_of (or_else (last_some (map coin_call s)) (g_coin prvkey g)).
Definition ho (g : Group prvkey) (s : list call) : list output := list_of (match last_some (map to_call s) with Some o => Some o | None => g_output prvkey g end).
Lemma hc_said s : hc (empty_group prvkey) s = said_coin prvkey s.
Proof. unfold hc, said_coin. change (fun c => match c with CAddCoin _ o => Some o | _ => None end) with coin_call. destruct (last_some (map coin_call s)) as [[c|]|]; reflexivity. Qed.
Lemma ho_said s : ho (empty_group prvkey) s = said_payment prvkey s.
Proof. unfold ho, said_payment. change (fun c => match c with CTo _ a v => Some (MkOutput a v) | _ => None end) with to_call. destruct (last_some (map to_call s)); reflexivity. Qed.
Lemma stretches_ne (cs : list call) : exists s ss, stretches prvkey cs = s :: ss.
Proof. induction cs as [|c cs (s & ss & E)]; [exists [], []; reflexivity|]. destruct c; cbn [stretches]; try rewrite E; eauto. Qed.
Definition head_rest {B} (h : Group prvkey -> list call -> list B) (g : Group prvkey) (l : list (list call)) : list B :=
  match l with [] => [] | s :: ss => h g s ++ flat_map (h (empty_group prvkey)) ss end.

Lemma group_call (c : call) (b : builder) front g : b_groups prvkey b = front ++ [g] -> b_idx prvkey b = len front -> c <> CThen prvkey ->
  exists b' g', do_call prvkey c b = Ok b' /\ b_groups prvkey b' = front ++ [g'] /\ b_idx prvkey b' = len front /\
    g_coin prvkey g' = or_else (coin_call c) (g_coin prvkey g) /\ g_output prvkey g' = match to_call c with Some o => Some o | None => g_output prvkey g end.
Proof.
  intros G I N.
  assert (S : forall f, exists b', set_group prvkey f b = Ok b' /\ b_groups prvkey b' = front ++ [f g] /\ b_idx prvkey b' = len front).
  { intros f. unfold set_group. rewrite G, I, index_last. cbn [rbind]. eexists. split; [reflexivity|]. cbn [b_groups b_idx]. unfold len at 1. rewrite Nat2Z.id, update_last. auto. }
  destruct c; try congruence; cbn [do_call coin_call to_call or_else];
    try (match goal with |- context [?m _ b = Ok _] => idtac end);
    try (eexists; exists g; split; [reflexivity|]; cbn [b_groups b_idx SetChange SendFees SetRelayFeePerKb SetMaxFees SetBuilderLockTime AddPushData Sign]; auto; fail).
  - destruct (S (fun g => MkGroup prvkey c (g_keys prvkey g) (g_output prvkey g) true (g_redeem prvkey g) 1)) as (b' & E & Gb & Ib). exists b'. eexists. split; [exact E|]. split; [exact Gb|]. auto.
  - destruct (S (fun g => MkGroup prvkey (g_coin prvkey g) ks (g_output prvkey g) (g_compressed prvkey g) (g_redeem prvkey g) (g_sighash prvkey g))) as (b' & E & Gb & Ib). exists b'. eexists. split; [exact E|]. split; [exact Gb|]. auto.
  - destruct (S (fun g => MkGroup prvkey (g_coin prvkey g) (g_keys prvkey g) (Some (MkOutput a v)) (g_compressed prvkey g) (g_redeem prvkey g) (g_sighash prvkey g))) as (b' & E & Gb & Ib). exists b'. eexists. split; [exact E|]. split; [exact Gb|]. auto.
  - destruct (S (fun g => MkGroup prvkey (g_coin prvkey g) (g_keys prvkey g) (g_output prvkey g) (g_compressed prvkey g) r (g_sighash prvkey g))) as (b' & E & Gb & Ib). exists b'. eexists. split; [exact E|]. split; [exact Gb|]. auto.
  - destruct (S (fun g => MkGroup prvkey (g_coin prvkey g) (g_keys prvkey g) (g_output prvkey g) false (g_redeem prvkey g) (g_sighash prvkey g))) as (b' & E & Gb & Ib). exists b'. eexists. split; [exact E|]. split; [exact Gb|]. auto.
  - destruct (S (fun g => MkGroup prvkey (g_coin prvkey g) (g_keys prvkey g) (g_output prvkey g) (g_compressed prvkey g) (g_redeem prvkey g) ty)) as (b' & E & Gb & Ib). exists b'. eexists. split; [exact E|]. split; [exact Gb|]. auto.
Qed.

Lemma calls_groups : forall (cs : list call) (b : builder) front g, b_groups prvkey b = front ++ [g] -> b_idx prvkey b = len front -> exists b', do_calls prvkey cs b = Ok b' /\
  flat_map gc (b_groups prvkey b') = flat_map gc front ++ head_rest hc g (stretches prvkey cs) /\ flat_map go (b_groups prvkey b') = flat_map go front ++ head_rest ho g (stretches prvkey cs).
Proof.
  induction cs as [|c cs IH]; intros b front g G I; cbn [do_calls].
  - exists b. split; [reflexivity|]. rewrite G, !flat_map_app. cbn [flat_map stretches head_rest]. unfold hc, ho. cbn [map last_some or_else]. auto.
  - assert (D : c = CThen prvkey \/ c <> CThen prvkey) by (destruct c; [right; discriminate..|now left]). destruct D as [->|N].
    + cbn [do_call rbind]. destruct (IH (Then prvkey b) (front ++ [g]) (empty_group prvkey)) as (b' & E & C & O).
      { cbn [b_groups Then]. now rewrite G. } { cbn [b_idx Then]. rewrite I, len_app. reflexivity. }
      exists b'. split; [exact E|]. rewrite C, O, !flat_map_app. cbn [flat_map stretches head_rest]. destruct (stretches_ne cs) as (s & ss & ->). cbn [head_rest flat_map].
      unfold hc at 3, ho at 3. cbn [map last_some or_else]. rewrite !app_nil_r, <- !app_assoc. auto.
    + destruct (group_call c b front g G I N) as (b1 & g1 & E1 & G1 & I1 & Hc & Ho). rewrite E1. cbn [rbind]. destruct (IH b1 front g1 G1 I1) as (b' & E & C & O). exists b'. split; [exact E|]. rewrite C, O.
      destruct (stretches_ne cs) as (s & ss & Es). assert (Ec : stretches prvkey (c :: cs) = (c :: s) :: ss) by (destruct c; cbn [stretches]; rewrite ?Es; congruence). rewrite Ec, Es. cbn [head_rest].
      unfold hc at 1 3, ho at 1 3. cbn [map last_some]. rewrite Hc, Ho. unfold or_else. destruct (last_some (map coin_call s)), (last_some (map to_call s)), (coin_call c), (to_call c); auto.
Qed.

Lemma calls_fields : forall (cs : list call) (b b' : builder), do_calls prvkey cs b = Ok b' ->
  b_push prvkey b' = b_push prvkey b ++ said_data prvkey cs /\
  b_change prvkey b' = said prvkey (fun c => match c with CChange _ a => Some (Some a) | _ => None end) (b_change prvkey b) cs /\
  b_sendFees prvkey b' = said prvkey (fun c => match c with CFees _ f => Some (i64 f) | _ => None end) (b_sendFees prvkey b) cs /\
  b_relay prvkey b' = said prvkey (fun c => match c with CRelay _ f => Some f | _ => None end) (b_relay prvkey b) cs /\
  b_maxFees prvkey b' = said prvkey (fun c => match c with CMax _ f => Some f | _ => None end) (b_maxFees prvkey b) cs /\
  b_lockTime prvkey b' = said prvkey (fun c => match c with CLock _ f => Some f | _ => None end) (b_lockTime prvkey b) cs.
Proof.
  induction cs as [|c cs IH]; intros b b' E; cbn [do_calls] in E; [injection E as <-; unfold said, said_data; cbn [map last_some flat_map]; rewrite app_nil_r; auto 10|].
  apply rbind_ok in E. destruct E as (b1 & E1 & E). destruct (IH b1 b' E) as (A1 & A2 & A3 & A4 & A5 & A6). rewrite A1, A2, A3, A4, A5, A6. clear IH E A1 A2 A3 A4 A5 A6.
  unfold said, said_data. cbn [map last_some flat_map].
  destruct c; cbn [do_call] in E1;
    try (unfold AddCoin, AddKeys, To, SetRedeemScript, SetPubKeyUncompressed, SetSigHashType, set_group in E1; apply rbind_ok in E1; destruct E1 as (? & _ & E1)); injection E1 as <-;
    cbn [b_push b_change b_sendFees b_relay b_maxFees b_lockTime SetChange SendFees SetRelayFeePerKb SetMaxFees SetBuilderLockTime AddPushData Sign Then app]; rewrite <- ?app_assoc;
    repeat match goal with |- context [last_some ?l] => destruct (last_some l) end; auto 10.
Qed.

Lemma last_some_map {A B} (f : A -> option B) (h : B -> B) (l : list A) : last_some (map (fun x => option_map h (f x)) l) = option_map h (last_some (map f l)).
Proof. induction l as [|x l IH]; [reflexivity|]. cbn [map last_some]. rewrite IH. destruct (last_some (map f l)); reflexivity. Qed.

(** Every sequence of calls returns, and the state holds what was said. *)
Lemma state_said cs : exists b, do_calls prvkey cs (NewTransactionBuilder prvkey) = Ok b /\
  coins prvkey b = said_coins prvkey cs /\ payments prvkey b = said_payments prvkey cs /\ b_push prvkey b = said_data prvkey cs /\ b_change prvkey b = said_change prvkey cs /\
  b_sendFees prvkey b = i64 (said_fees prvkey cs) /\ b_relay prvkey b = said_relay prvkey cs /\ b_maxFees prvkey b = said_max prvkey cs /\ b_lockTime prvkey b = said_lock prvkey cs.
Proof.
  destruct (calls_groups cs (NewTransactionBuilder prvkey) [] (empty_group prvkey) eq_refl eq_refl) as (b & E & C & O). exists b. split; [exact E|].
  destruct (calls_fields cs _ b E) as (A1 & A2 & A3 & A4 & A5 & A6). cbn [flat_map app] in C, O. unfold coins, payments. rewrite C, O, A1, A2, A3, A4, A5, A6.
  destruct (stretches_ne cs) as (s & ss & Es). unfold said_coins, said_payments. rewrite Es. cbn [head_rest flat_map].
  rewrite <- (flat_map_ext _ _ hc_said ss), <- (flat_map_ext _ _ ho_said ss), hc_said, ho_said. repeat (split; [reflexivity|]). split; [|auto].
  unfold said_fees, said. cbn [b_sendFees NewTransactionBuilder].
  replace (map (fun c : call => match c with CFees _ f => Some (i64 f) | _ => None end) cs) with (map (fun c : call => option_map i64 (match c with CFees _ f => Some f | _ => None end)) cs) by (apply map_ext; now intros []).
  rewrite last_some_map. destruct (last_some _); reflexivity.
Qed.

(** The transaction, for any state. *)
Lemma hex_ok s b : hex_decode s = Ok b -> bytes_ok b /\ len b <= len s.
Proof.
  intros E. assert (D : forall c, is_hex c \/ ~ is_hex c) by (intros c; unfold is_hex; lia).
  assert (DF : Forall is_hex s \/ ~ Forall is_hex s).
  { clear E. induction s as [|c s [IH|IH]]; [left; constructor| |right; intros H; inversion H; auto]. destruct (D c); [left; now constructor|right; intros H'; inversion H'; auto]. }
  destruct (hex_decode_spec s) as [P N]. destruct DF as [F|F]; [|destruct N as (e & X); [tauto|congruence]].
  destruct (Nat.even (length s)) eqn:V; [|destruct N as (e & X); [intros [_ Q]; congruence|congruence]].
  destruct (P (conj F eq_refl)) as (d & Ed & O & _ & L). rewrite E in Ed. injection Ed as <-. split; [exact O|]. unfold len. lia.
Qed.
Lemma coin_spent c i : len (coin_script c) <= 2 ^ 48 -> coin_in Hash160 c i -> spends_coin c i.
Proof.
  intros L (sc & rd & Hid & Hsc & N). unfold NewTxIn in N. apply rbind_ok in N. destruct N as (s & Ps & N).
  destruct (hex_ok _ _ Hsc) as [O Ls]. apply parse_template in Ps; [|split; [exact O|lia]]. destruct Ps as [Lh Es].
  split; [exact Hid|]. injection N as <-. cbn [ti_index ti_value ti_rawlock]. split; [reflexivity|]. split; [reflexivity|]. rewrite raw_locking by exact Lh. now rewrite <- Es.
Qed.
Lemma push_out_carries d : pushable d -> carries d (push_out d).
Proof.
  intros P. destruct (add_item d (AddOp 0x6a NewScriptBuilder) P) as (i & e & E & _ & _ & En & Pu). split; [reflexivity|]. exists i, e. unfold push_out. cbn [to_script]. rewrite E. auto.
Qed.
Lemma spends_blank c i j : blank i = blank j -> spends_coin c i -> spends_coin c j.
Proof. unfold spends_coin. intros B. assert (ti_hash i = ti_hash j /\ ti_index i = ti_index j /\ ti_value i = ti_value j /\ ti_rawlock i = ti_rawlock j) as (-> & -> & -> & ->); [unfold blank in B; repeat split; congruence|auto]. Qed.

(** The change the builder hands back: whatever is left. *)
Definition left_over (b : builder) (t : transaction) : Z := sumZ (map to_value (tx_outs t)) - total_paid prvkey b.
Lemma build_layout b t : Build b = Ok t -> Forall (fun c => len (coin_script c) <= 2 ^ 48) (coins prvkey b) -> Forall pushable (b_push prvkey b) ->
  Forall2 spends_coin (coins prvkey b) (tx_ins t) /\ coins prvkey b <> [] /\ payments prvkey b <> [] /\ tx_version t = 1 /\ tx_locktime t = b_lockTime prvkey b /\
  exists ch datas, tx_outs t = map (fun o => MkOut (o_value o) (script_to (o_addr o))) (payments prvkey b) ++ ch ++ datas /\ Forall2 carries (b_push prvkey b) datas /\
    (ch = [] /\ left_over b t = 0 \/ exists a, b_change prvkey b = Some (Some a) /\ ch = [MkOut (left_over b t) (LockingScript a)] /\ 0 < left_over b t).
Proof.
  intros E Lc Lp. destruct (build_spec Hash160 sha256 DS prvkey PubKeyBytes EcdsaSign b t E) as (a & ch & amt & Ga & C & Ni & No & _ & _ & Ea & Pa & Ec).
  destruct (gather_spec Hash160 sha256 DS prvkey EcdsaSign _ _ _ Ga) as ((l & L & F) & O & _ & _). cbn [ga_txins ga_txouts app] in L, O.
  destruct (core_parts _ _ C) as (Cv & Cl & Co & Ci). rewrite assemble_spec in Cv, Cl, Co, Ci. cbn [tx_outs tx_ins tx_version tx_locktime] in Cv, Cl, Co, Ci.
  fold (coins prvkey b) in *. fold (payments prvkey b) in *. rewrite L in *. rewrite O in *.
  assert (Sp : Forall2 spends_coin (coins prvkey b) l).
  { revert Lc F. generalize (coins prvkey b). intros cs0 Lc F. clear - Lc F sha256 DS PubKeyBytes EcdsaSign. revert Lc. induction F as [|c i cs is H F IH]; intros Lc; [constructor|]. inversion Lc as [|? ? L1 L2]. constructor; [exact (coin_spent c i L1 H)|exact (IH L2)]. }
  split. { clear - Sp Ci. revert Ci. generalize (tx_ins t). induction Sp as [|c i cs is H Sp IH]; intros [|j js] Ci; try discriminate; constructor; cbn [map] in Ci; injection Ci as C1 C2; [|now apply IH].
    eapply spends_blank; [|exact H]. unfold blank. congruence. }
  split; [intros X; rewrite X in F; inversion F; subst; congruence|]. split; [intros X; rewrite X in *; now apply No|]. split; [exact Cv|]. split; [exact Cl|].
  exists (list_of ch), (map push_out (b_push prvkey b)). split; [exact Co|]. split. { revert Lp. generalize (b_push prvkey b). intros ds Lp. induction Lp; cbn [map]; constructor; auto. now apply push_out_carries. }
  assert (Lo : left_over b t = amt).
  { unfold left_over, total_paid. rewrite Co, !map_app, !sumZ_app, push_zero, (change_value prvkey b amt ch); [|split; [exact Pa|rewrite Ea; apply i64_range]|exact Ec]. fold (payments prvkey b). 
    rewrite map_map. unfold pay_out. cbn [to_value]. change (map (fun x : output => o_value x)) with (map o_value). lia. }
  rewrite Lo. unfold change_out in Ec. destruct (0 <? amt) eqn:Q; [|injection Ec as <-; left; split; [reflexivity|lia]]. right.
  destruct (b_change prvkey b) as [[ad|]|]; try discriminate. injection Ec as <-. exists ad. split; [reflexivity|]. split; [|lia]. cbn [list_of]. unfold u64. rewrite Z.mod_small; [reflexivity|]. pose proof (i64_range (i64 (ga_in prvkey a - ga_out prvkey a) - build_fees prvkey b a)). lia.
Qed.
(** In terms of the calls. *)
Lemma calls_layout cs : exists b, do_calls prvkey cs (NewTransactionBuilder prvkey) = Ok b /\ forall t, Build b = Ok t ->
  Forall (fun c => len (coin_script c) <= 2 ^ 48) (said_coins prvkey cs) -> Forall pushable (said_data prvkey cs) ->
  Forall2 spends_coin (said_coins prvkey cs) (tx_ins t) /\ said_coins prvkey cs <> [] /\ said_payments prvkey cs <> [] /\ tx_version t = 1 /\ tx_locktime t = said_lock prvkey cs /\
  exists ch datas, tx_outs t = map (fun o => MkOut (o_value o) (script_to (o_addr o))) (said_payments prvkey cs) ++ ch ++ datas /\ Forall2 carries (said_data prvkey cs) datas /\
    let left := sumZ (map to_value (tx_outs t)) - sumZ (map o_value (said_payments prvkey cs)) in
    (ch = [] /\ left = 0 \/ exists a, said_change prvkey cs = Some (Some a) /\ ch = [MkOut left (LockingScript a)] /\ 0 < left).
Proof.
  destruct (state_said cs) as (b & E & C & P & D & Ch & _ & _ & _ & Lt). exists b. split; [exact E|]. intros t Bt Lc Ld. rewrite <- C, <- P, <- D, <- Ch, <- Lt in *. exact (build_layout b t Bt Lc Ld).
Qed.
(** C46 in terms of the calls. *)
Lemma calls_conserve cs b t : do_calls prvkey cs (NewTransactionBuilder prvkey) = Ok b -> Build b = Ok t ->
  Forall (fun c => 0 <= coin_value c) (said_coins prvkey cs) -> Forall (fun o => 0 <= o_value o) (said_payments prvkey cs) -> 0 <= said_fees prvkey cs < 2 ^ 63 ->
  sumZ (map coin_value (said_coins prvkey cs)) < 2 ^ 63 -> sumZ (map o_value (said_payments prvkey cs)) < 2 ^ 63 ->
  exists fee, sumZ (map coin_value (said_coins prvkey cs)) = sumZ (map to_value (tx_outs t)) + fee /\ map ti_value (tx_ins t) = map coin_value (said_coins prvkey cs) /\ Fees t = fee /\ fee <= said_max prvkey cs /\
    (said_relay prvkey cs <= 0 -> fee = said_fees prvkey cs) /\
    (0 < said_relay prvkey cs -> fee = EstimateFees (EstimateSize (tx_ins t) (firstn (length (said_payments prvkey cs)) (tx_outs t)) + sumZ (map len (said_data prvkey cs))) (said_relay prvkey cs)).
Proof.
  intros E Bt Ac Ap Rf T1 T2. destruct (state_said cs) as (b' & E' & C & P & D & _ & Sf & Re & Mx & _). rewrite E in E'. injection E' as <-. rewrite i64_id in Sf by lia.
  assert (Bnd : forall (l : list Z), Forall (fun x => 0 <= x) l -> sumZ l < 2 ^ 63 -> Forall (fun x => 0 <= x < 2 ^ 64) l).
  { clear. intros l F. induction F as [|x l H F IH]; intros S; constructor; change (sumZ (x :: l)) with (x + sumZ l) in S; pose proof (sumZ_nonneg l F); [lia|apply IH; lia]. }
  destruct (conserves Hash160 sha256 DS prvkey PubKeyBytes EcdsaSign b t Bt) as (fee & I & V & Fe & M & F1 & F2).
  - split; [rewrite C; apply (proj1 (Forall_map coin_value (fun x => 0 <= x < 2 ^ 64) _)); apply Bnd; [now apply Forall_map|exact T1]|].
    split; [rewrite P; apply (proj1 (Forall_map o_value (fun x => 0 <= x < 2 ^ 64) _)); apply Bnd; [now apply Forall_map|exact T2]|lia].
  - unfold total_coins. now rewrite C.
  - unfold total_paid. now rewrite P.
  - exists fee. rewrite <- C, <- P, <- D, <- Re, <- Mx, <- Sf. auto 10.
Qed.
(** C48: the change is what the coins leave after the payments and the fee. *)
Lemma calls_change cs b t : do_calls prvkey cs (NewTransactionBuilder prvkey) = Ok b -> Build b = Ok t ->
  Forall (fun c => 0 <= coin_value c) (said_coins prvkey cs) -> Forall (fun o => 0 <= o_value o) (said_payments prvkey cs) -> 0 <= said_fees prvkey cs < 2 ^ 63 ->
  sumZ (map coin_value (said_coins prvkey cs)) < 2 ^ 63 -> sumZ (map o_value (said_payments prvkey cs)) < 2 ^ 63 ->
  Forall (fun c => len (coin_script c) <= 2 ^ 48) (said_coins prvkey cs) -> Forall pushable (said_data prvkey cs) ->
  exists fee datas, (said_relay prvkey cs <= 0 -> fee = said_fees prvkey cs) /\ Forall2 carries (said_data prvkey cs) datas /\
    let left := sumZ (map coin_value (said_coins prvkey cs)) - sumZ (map o_value (said_payments prvkey cs)) - fee in 0 <= left /\
    (0 < left -> exists a, said_change prvkey cs = Some (Some a) /\
       tx_outs t = map (fun o => MkOut (o_value o) (script_to (o_addr o))) (said_payments prvkey cs) ++ [MkOut left (LockingScript a)] ++ datas) /\
    (left = 0 -> tx_outs t = map (fun o => MkOut (o_value o) (script_to (o_addr o))) (said_payments prvkey cs) ++ datas).
Proof.
  intros E Bt Ac Ap Rf T1 T2 Lc Ld. destruct (calls_conserve cs b t E Bt Ac Ap Rf T1 T2) as (fee & I & _ & _ & _ & F1 & _).
  destruct (calls_layout cs) as (b' & E' & Ly). rewrite E in E'. injection E' as <-. destruct (Ly t Bt Lc Ld) as (_ & _ & _ & _ & _ & ch & datas & Eo & Fd & C). cbv zeta in C.
  exists fee, datas. split; [exact F1|]. split; [exact Fd|]. intros left. replace (sumZ (map to_value (tx_outs t)) - sumZ (map o_value (said_payments prvkey cs))) with left in C by (unfold left; lia). clearbody left.
  destruct C as [[-> C]|(a & Ca & -> & C)]; (split; [lia|]); (split; intros L; [|]).
  - lia.
  - rewrite Eo. reflexivity.
  - exists a. auto.
  - lia.
Qed.
End Calls.
