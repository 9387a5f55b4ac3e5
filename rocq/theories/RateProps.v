(** C161: whether a built transaction pays the rate it was told to pay. *)
From Verif Require Import GoBase BaseLemmas BufferModel ScriptModel ScriptSpec HexModel AddressModel LockModel LockSpec VmSpec TxModel TxSpec TxSignSpec TxSign TxSignProps
  BuilderModel BuilderSpec BuilderProofs BuilderCalls BuilderMore BuilderSign FeeProofs TxProofs TxSig BuilderProps.
From Coq Require Import ZifyBool ZifyNat ZifyN.

(** An input that spends no witness program, and how many a transaction has. *)
Definition plain (i : TxIn) : bool := match ti_code i with None => true | Some _ => false end.
Definition plain_inputs (t : transaction) : Z := len (filter plain (tx_ins t)).

Lemma push_fits i e d : encodes i e -> pushes i d -> len d <= len e.
Proof.
  intros E P. inversion P; subst; inversion E; subst; rewrite ?len_cons, ?len_app; change (len (@nil Z)) with 0;
    repeat match goal with |- context [len ?l] => lazymatch goal with H : 0 <= len l |- _ => fail | _ => pose proof (len_nonneg l) end end; try lia.
  all: repeat match goal with H : In _ plain_opcodes |- _ => revert H | H : [] = _ |- _ => revert H end; intros; subst; change (len (@nil Z)) with 0 in *; lia.
Qed.
Lemma datas_fit ds os : Forall2 carries ds os -> sumZ (map len ds) <= sumZ (map (fun o => 8 + script_prefix o + len (to_script o)) os).
Proof.
  induction 1 as [|d o ds os (_ & i & e & S & En & P) _ IH]; [reflexivity|]. cbn [map]. change (sumZ (?a :: ?r)) with (a + sumZ r).
  rewrite S, len_cons. pose proof (push_fits i e d En P). unfold script_prefix at 1. pose proof (compact_pos (len (to_script o))). lia.
Qed.
Lemma len_concat {A} (f : A -> bytes) l : len (concat (map f l)) = sumZ (map (fun x => len (f x)) l).
Proof. induction l as [|x l IH]; [reflexivity|]. cbn [map concat]. rewrite len_app, IH. reflexivity. Qed.
(** The length of the original format, field by field. *)
Lemma wire_len t : tx_ok t -> len (wire_legacy t) =
  8 + len (compact (len (tx_ins t))) + sumZ (map (fun i => 40 + len (compact (len (script_sig i))) + len (script_sig i)) (tx_ins t)) +
  len (compact (len (tx_outs t))) + sumZ (map (fun o => 8 + script_prefix o + len (to_script o)) (tx_outs t)).
Proof.
  intros (_ & _ & _ & _ & Fi & _). unfold wire_legacy, wire_body. rewrite !len_app, !le_len, !len_concat.
  rewrite (sum_eq (fun x => len (wire_in x)) (fun i => 40 + len (compact (len (script_sig i))) + len (script_sig i)) (tx_ins t)).
  2: { eapply Forall_impl; [|exact Fi]. intros i (H & _). unfold wire_in, prefixed. rewrite !len_app, !le_len, H. lia. }
  rewrite (sum_eq (fun x => len (wire_out x)) (fun o => 8 + script_prefix o + len (to_script o)) (tx_outs t)).
  2: { apply Forall_forall. intros o _. unfold wire_out, prefixed, script_prefix. rewrite !len_app, !le_len. lia. }
  lia.
Qed.
(** The estimate on some of the outputs. *)
Lemma estimate_upper ins outs : len ins < 2 ^ 64 -> len outs < 2 ^ 64 -> let L := len (filter plain ins) in
  0 < EstimateSize ins outs /\
  4 * EstimateSize ins outs <= 4 * (8 + len (compact (len ins)) + 149 * L + len (compact (len outs)) + sumZ (map (fun o => 8 + len (to_script o)) outs)) + 3 * (len ins - L) + L.
Proof.
  intros Mi Mo L. unfold EstimateSize. rewrite !compact_len.
  assert (Li : u64 (len ins) = len ins) by (unfold u64; rewrite Z.mod_small; [reflexivity|]; pose proof (len_nonneg ins); lia).
  assert (Lo : u64 (len outs) = len outs) by (unfold u64; rewrite Z.mod_small; [reflexivity|]; pose proof (len_nonneg outs); lia).
  rewrite Li, Lo.
  assert (I : sumZ (map (fun i => if in_has_witness i then 0 else 149) ins) = 149 * L /\ 0 <= L /\
    sumZ (map (fun i => if in_has_witness i then VarIntSerializeSize 2 + VarIntSerializeSize 73 + VarIntSerializeSize 33 else VarIntSerializeSize 0) ins) = 3 * (len ins - L) + L /\ L <= len ins).
  { unfold L. clear. induction ins as [|i l IH]; [repeat split; vm_compute; congruence|]. cbn [map filter]. change (sumZ (?a :: ?r)) with (a + sumZ r) in *.
    unfold in_has_witness, plain in *. destruct (ti_code i); rewrite ?len_cons; change (VarIntSerializeSize 2 + VarIntSerializeSize 73 + VarIntSerializeSize 33) with 3 in *; change (VarIntSerializeSize 0) with 1 in *; lia. }
  destruct I as (-> & L0 & -> & L1).
  pose proof (compact_pos (len ins)) as Q1. pose proof (compact_pos (len outs)) as Q2. rewrite compact_len in Q1, Q2.
  pose proof (sumZ_nonneg (map (fun o => 8 + len (to_script o)) outs)) as P. rewrite Forall_map in P. specialize (P ltac:(apply Forall_forall; intros x _; pose proof (len_nonneg (to_script x)); lia)).
  set (e := 4 + VarIntSerializeSize (len ins) + 149 * L + VarIntSerializeSize (len outs) + sumZ (map (fun o => 8 + len (to_script o)) outs) + 4).
  replace (8 + VarIntSerializeSize (len ins) + 149 * L + VarIntSerializeSize (len outs) + sumZ (map (fun o => 8 + len (to_script o)) outs)) with e by (unfold e; lia).
  assert (Pe : 10 <= e) by (unfold e; lia). clearbody e.
  set (w := if existsb in_has_witness ins then _ else 0). assert (W : 0 <= w <= 3 * (len ins - L) + L) by (unfold w; destruct (existsb in_has_witness ins); lia). clearbody w.
  rewrite Z.quot_div_nonneg by lia. pose proof (Z.div_mod (e * (4 - 1) + (e + w)) 4 ltac:(lia)). pose proof (Z.mod_pos_bound (e * (4 - 1) + (e + w)) 4 ltac:(lia)). lia.
Qed.
Lemma compact_mono a b : a <= b -> len (compact a) <= len (compact b).
Proof. intros H. rewrite !compact_len. unfold VarIntSerializeSize. repeat match goal with |- context [if ?c then _ else _] => destruct c eqn:?; try lia end. Qed.
Lemma sum_app (a b : list Z) : sumZ (a ++ b) = sumZ a + sumZ b.
Proof. induction a as [|x a IH]; [reflexivity|]. cbn [app]. change (sumZ (?x :: ?r)) with (x + sumZ r). lia. Qed.
Lemma ins_lower ins : Forall (fun i => ti_code i = None -> 107 <= len (ti_unlock i)) ins ->
  148 * len (filter plain ins) + 41 * (len ins - len (filter plain ins)) <= sumZ (map (fun i => 40 + len (compact (len (script_sig i))) + len (script_sig i)) ins).
Proof.
  induction 1 as [|i l H _ IH]; [vm_compute; congruence|]. cbn [map filter]. change (sumZ (?a :: ?r)) with (a + sumZ r).
  assert (X : plain i = true /\ 148 <= 40 + len (compact (len (script_sig i))) + len (script_sig i) \/ plain i = false /\ 41 <= 40 + len (compact (len (script_sig i))) + len (script_sig i)).
  { unfold plain, script_sig. destruct (ti_code i); [right|left]; split; try reflexivity.
    specialize (H eq_refl). pose proof (compact_pos (len (ti_unlock i))). lia. }
  destruct X as [[-> X]|[-> X]]; rewrite !len_cons; lia.
Qed.
Lemma fee_below size rate v : 0 < rate < 2 ^ 53 -> 0 < size < v -> rate * v < 1000 * 2 ^ 42 -> 1000 * EstimateFees size rate < rate * v.
Proof.
  intros R S B. assert (rate * size < rate * v) by nia. assert (size < 2 ^ 53) by nia. pose proof (Z.div_mod (rate * size) 1000 ltac:(lia)). pose proof (Z.mod_pos_bound (rate * size) 1000 ltac:(lia)).
  destruct (fee_exact size rate R ltac:(lia) ltac:(lia)) as [->|[_ ->]]; lia.
Qed.

Section Rate.
Variable Hash160 sha256 DS : bytes -> bytes.
Variable prvkey : Type.
Variable PubKeyBytes : prvkey -> bool -> bytes.
Variable EcdsaSign : prvkey -> bytes -> res bytes.
Notation Build := (BuildTransaction Hash160 sha256 DS prvkey PubKeyBytes EcdsaSign).
(** Calls whose amounts are in range and whose scripts fit in memory. *)
Definition sane (cs : list (call prvkey)) : Prop :=
  Forall (fun c => 0 <= coin_value c) (said_coins prvkey cs) /\ Forall (fun o => 0 <= o_value o) (said_payments prvkey cs) /\ 0 <= said_fees prvkey cs < 2 ^ 63 /\
  sumZ (map coin_value (said_coins prvkey cs)) < 2 ^ 63 /\ sumZ (map o_value (said_payments prvkey cs)) < 2 ^ 63 /\
  Forall (fun c => len (coin_script c) <= 2 ^ 48) (said_coins prvkey cs) /\ Forall pushable (said_data prvkey cs).

Lemma built_parts cs b t : do_calls prvkey cs (NewTransactionBuilder prvkey) = Ok b -> Build b = Ok t -> sane cs -> 0 < said_relay prvkey cs ->
  exists pays ch datas, tx_outs t = pays ++ ch ++ datas /\ length pays = length (said_payments prvkey cs) /\ pays <> [] /\ tx_ins t <> [] /\ Forall2 carries (said_data prvkey cs) datas /\
    (ch = [] \/ exists a v, said_change prvkey cs = Some (Some a) /\ ch = [MkOut v (LockingScript a)]) /\
    Fees t = EstimateFees (EstimateSize (tx_ins t) pays + sumZ (map len (said_data prvkey cs))) (said_relay prvkey cs).
Proof.
  intros E B (A1 & A2 & A3 & A4 & A5 & A6 & A7) R.
  destruct (calls_conserve Hash160 sha256 DS prvkey PubKeyBytes EcdsaSign cs b t E B A1 A2 A3 A4 A5) as (fee & _ & _ & F & _ & _ & Fr).
  destruct (calls_layout Hash160 sha256 DS prvkey PubKeyBytes EcdsaSign cs) as (b' & E' & Lay). rewrite E in E'. injection E' as <-.
  destruct (Lay t B A6 A7) as (Sp & Nc & Np & _ & _ & ch & datas & Eo & Cd & Ch). cbv zeta in Ch.
  exists (map (fun o => MkOut (o_value o) (script_to (o_addr o))) (said_payments prvkey cs)), ch, datas. split; [exact Eo|]. split; [apply map_length|].
  split. { destruct (said_payments prvkey cs); [congruence|discriminate]. }
  split. { destruct Sp; [congruence|discriminate]. }
  split; [exact Cd|]. split. { destruct Ch as [(-> & _)|(a & Hc & -> & _)]; [now left|]. right. eauto. }
  rewrite F, (Fr R), Eo. f_equal. f_equal. f_equal. rewrite <- (map_length (fun o => MkOut (o_value o) (script_to (o_addr o))) (said_payments prvkey cs)).
  rewrite firstn_app, firstn_all, Nat.sub_diag. cbn [firstn]. apply app_nil_r.
Qed.

Lemma below_rate cs b t : do_calls prvkey cs (NewTransactionBuilder prvkey) = Ok b -> Build b = Ok t -> sane cs -> tx_ok t ->
  0 < said_relay prvkey cs < 2 ^ 53 -> said_relay prvkey cs * len (wire_legacy t) < 1000 * 2 ^ 42 ->
  Forall (fun i => ti_code i = None -> 107 <= len (ti_unlock i)) (tx_ins t) ->
  plain_inputs t = 0 \/
  (plain_inputs t <= 24 /\ length (tx_outs t) = S (length (said_payments prvkey cs) + length (said_data prvkey cs)) /\ (forall a, said_change prvkey cs = Some (Some a) -> 22 <= len (LockingScript a))) ->
  1000 * Fees t < said_relay prvkey cs * len (wire_legacy t).
Proof.
  intros E B Sa T R Bd Fu Cs. destruct (built_parts cs b t E B Sa ltac:(lia)) as (pays & ch & datas & Eo & Lp & Np & Ni & Cd & Ch & ->).
  pose proof (wire_len t T) as W. destruct T as (_ & _ & Mi & Mo & _ & _). pose proof (mem1_lt _ _ Mi ltac:(lia)) as Mi'. pose proof (mem1_lt _ _ Mo ltac:(lia)) as Mo'.
  assert (Mp : len pays <= len (tx_outs t)) by (rewrite Eo, len_app; pose proof (len_nonneg (ch ++ datas)); lia).
  destruct (estimate_upper (tx_ins t) pays Mi' ltac:(lia)) as [E0 E1]. cbv zeta in E1.
  pose proof (ins_lower (tx_ins t) Fu) as I. pose proof (compact_mono _ _ Mp) as C. pose proof (datas_fit _ _ Cd) as D.
  assert (Nd : 0 <= sumZ (map len (said_data prvkey cs))) by (apply sumZ_nonneg; rewrite Forall_map; apply Forall_forall; intros x _; apply len_nonneg).
  assert (Po : sumZ (map (fun o => 8 + script_prefix o + len (to_script o)) (tx_outs t)) = sumZ (map (fun o => 8 + script_prefix o + len (to_script o)) pays) +
    sumZ (map (fun o => 8 + script_prefix o + len (to_script o)) ch) + sumZ (map (fun o => 8 + script_prefix o + len (to_script o)) datas)) by (rewrite Eo, !map_app, !sum_app; lia).
  assert (Pp : sumZ (map (fun o => 8 + len (to_script o)) pays) + 1 <= sumZ (map (fun o => 8 + script_prefix o + len (to_script o)) pays)).
  { clear - Np. destruct pays as [|o l]; [congruence|]. cbn [map]. change (sumZ (?a :: ?r)) with (a + sumZ r). unfold script_prefix at 1. pose proof (compact_pos (len (to_script o))).
    pose proof (sum_pointwise (fun o => 8 + len (to_script o)) (fun o => 8 + script_prefix o + len (to_script o)) l) as Q. specialize (Q ltac:(apply Forall_forall; intros x _; unfold script_prefix; pose proof (compact_pos (len (to_script x))); lia)). lia. }
  assert (Pc : 0 <= sumZ (map (fun o => 8 + script_prefix o + len (to_script o)) ch)) by (apply sumZ_nonneg; rewrite Forall_map; apply Forall_forall; intros x _; unfold script_prefix; pose proof (compact_pos (len (to_script x))); pose proof (len_nonneg (to_script x)); lia).
  assert (Ln : 1 <= len (tx_ins t)) by (destruct (tx_ins t); [congruence|]; rewrite len_cons; pose proof (len_nonneg l); lia).
  unfold plain_inputs in Cs. pose proof (len_nonneg (filter plain (tx_ins t))) as Lf.
  assert (Lw : len (filter plain (tx_ins t)) <= len (tx_ins t)) by (clear; induction (tx_ins t) as [|i l IH]; [reflexivity|]; cbn [filter]; destruct (plain i); rewrite ?len_cons; lia).
  apply fee_below; [exact R| |exact Bd]. split; [lia|].
  destruct Cs as [Z0|(Lm & Lo & Hc)]; [lia|].
  assert (Pc1 : 31 <= sumZ (map (fun o => 8 + script_prefix o + len (to_script o)) ch)).
  { destruct Ch as [->|(a & v & Ha & ->)].
    - exfalso. pose proof (f_equal (@length _) Eo) as X. rewrite !app_length in X. cbn [length] in X. assert (Lc : length (said_data prvkey cs) = length datas) by (clear - Cd; induction Cd; cbn; congruence). lia.
    - specialize (Hc a Ha). unfold script_prefix. cbn [map to_script]. change (sumZ [?a]) with (a + 0). pose proof (compact_pos (len (LockingScript a))). lia. }
  lia.
Qed.

Lemma above_rate cs b t : do_calls prvkey cs (NewTransactionBuilder prvkey) = Ok b -> Build b = Ok t -> sane cs -> tx_ok t ->
  0 < said_relay prvkey cs < 2 ^ 53 -> said_relay prvkey cs * (len (Serialize t) + 149 * len (tx_ins t)) < 1000 * 2 ^ 42 ->
  Forall (fun i => ti_code i = None /\ len (ti_unlock i) <= 108) (tx_ins t) ->
  exists pays others, tx_outs t = pays ++ others /\ length pays = length (said_payments prvkey cs) /\
  said_relay prvkey cs * (len (Serialize t) - sumZ (map script_prefix pays) - (sumZ (map (fun o => len (wire_out o)) others) - sumZ (map len (said_data prvkey cs))) -
    (len (compact (len (tx_outs t))) - len (compact (len pays)))) <= 1000 * (Fees t + 1).
Proof.
  intros E B Sa T R Bd Fu. destruct (built_parts cs b t E B Sa ltac:(lia)) as (pays & ch & datas & Eo & Lp & Np & Ni & Cd & Ch & ->).
  exists pays, (ch ++ datas). split; [exact Eo|]. split; [exact Lp|].
  assert (N : Forall (fun i => ti_code i = None) (tx_ins t)) by (eapply Forall_impl; [|exact Fu]; cbn; tauto).
  assert (W : len (Serialize t) = len (wire_legacy t)) by (rewrite serialize_witness by exact T; unfold HasWitness; now rewrite none_witness).
  rewrite W in *. pose proof (wire_len t T) as Wl. destruct T as (_ & _ & Mi & Mo & _ & _). pose proof (mem1_lt _ _ Mi ltac:(lia)) as Mi'. pose proof (mem1_lt _ _ Mo ltac:(lia)) as Mo'.
  assert (Mp : len pays <= len (tx_outs t)) by (rewrite Eo, len_app; pose proof (len_nonneg (ch ++ datas)); lia).
  destruct (estimate_upper (tx_ins t) pays Mi' ltac:(lia)) as [E0 _].
  assert (Es : EstimateSize (tx_ins t) pays = 8 + len (compact (len (tx_ins t))) + 149 * len (tx_ins t) + len (compact (len pays)) + sumZ (map (fun o => 8 + len (to_script o)) pays)).
  { unfold EstimateSize. rewrite (none_witness _ N), !compact_len.
    assert (Li : u64 (len (tx_ins t)) = len (tx_ins t)) by (unfold u64; rewrite Z.mod_small; [reflexivity|]; pose proof (len_nonneg (tx_ins t)); lia).
    assert (Lo : u64 (len pays) = len pays) by (unfold u64; rewrite Z.mod_small; [reflexivity|]; pose proof (len_nonneg pays); lia). rewrite Li, Lo.
    assert (I : sumZ (map (fun i => if in_has_witness i then 0 else 149) (tx_ins t)) = 149 * len (tx_ins t)).
    { clear - N. induction N as [|i l H _ IH]; [reflexivity|]. cbn [map]. change (sumZ (?a :: ?r)) with (a + sumZ r). rewrite IH, len_cons. unfold in_has_witness. rewrite H. lia. }
    rewrite I. match goal with |- Z.quot (?b * (4 - 1) + (?b + 0)) 4 = _ => replace (b * (4 - 1) + (b + 0)) with (b * 4) by lia end. rewrite Z.quot_mul by lia. lia. }
  assert (I : 41 * len (tx_ins t) <= sumZ (map (fun i => 40 + len (compact (len (script_sig i))) + len (script_sig i)) (tx_ins t)) <= 149 * len (tx_ins t)).
  { clear - Fu. induction Fu as [|i l [C U] _ IH]; [split; vm_compute; congruence|]. cbn [map]. change (sumZ (?a :: ?r)) with (a + sumZ r). unfold script_sig at 1 2 5 6. rewrite C, len_cons. pose proof (len_nonneg (ti_unlock i)). rewrite compact_small by lia. lia. }
  pose proof (compact_mono _ _ Mp) as Cm. pose proof (datas_fit _ _ Cd) as D.
  assert (Po : sumZ (map (fun o => 8 + script_prefix o + len (to_script o)) (tx_outs t)) = sumZ (map (fun o => 8 + script_prefix o + len (to_script o)) pays) + sumZ (map (fun o => len (wire_out o)) (ch ++ datas))).
  { rewrite Eo, map_app, sum_app. f_equal. apply sum_eq. apply Forall_forall. intros o _. unfold wire_out, prefixed, script_prefix. rewrite !len_app, le_len. lia. }
  assert (Pd : sumZ (map (fun o => 8 + script_prefix o + len (to_script o)) datas) <= sumZ (map (fun o => len (wire_out o)) (ch ++ datas))).
  { rewrite map_app, sum_app. rewrite (sum_eq (fun o => len (wire_out o)) (fun o => 8 + script_prefix o + len (to_script o)) datas) by (apply Forall_forall; intros o _; unfold wire_out, prefixed, script_prefix; rewrite !len_app, le_len; lia).
    pose proof (sumZ_nonneg (map (fun o => len (wire_out o)) ch)) as Q. rewrite Forall_map in Q. specialize (Q ltac:(apply Forall_forall; intros x _; apply len_nonneg)). lia. }
  assert (Pp : sumZ (map (fun o => 8 + script_prefix o + len (to_script o)) pays) = sumZ (map (fun o => 8 + len (to_script o)) pays) + sumZ (map script_prefix pays)).
  { rewrite <- sumZ_add. apply sum_eq. apply Forall_forall. intros; lia. }
  assert (Pq : 0 <= sumZ (map script_prefix pays)). { apply sumZ_nonneg. rewrite Forall_map. apply Forall_forall. intros x _. unfold script_prefix. pose proof (compact_pos (len (to_script x))). lia. }
  assert (Nd : 0 <= sumZ (map len (said_data prvkey cs))) by (apply sumZ_nonneg; rewrite Forall_map; apply Forall_forall; intros x _; apply len_nonneg).
  set (size := EstimateSize (tx_ins t) pays + sumZ (map len (said_data prvkey cs))) in *.
  set (q := len (wire_legacy t) - _ - _ - _). assert (Hq : q <= size) by (unfold q, size; lia).
  assert (Hs : size <= len (wire_legacy t) + 149 * len (tx_ins t)) by (unfold size; pose proof (len_nonneg (tx_ins t)); lia).
  assert (S0 : 0 < size) by (unfold size; lia). clearbody q size. set (r := said_relay prvkey cs) in *. clearbody r.
  assert (r * size < 1000 * 2 ^ 42) by nia. assert (size < 2 ^ 53) by nia. assert (r * q <= r * size) by nia.
  pose proof (Z.div_mod (r * size) 1000 ltac:(lia)). pose proof (Z.mod_pos_bound (r * size) 1000 ltac:(lia)).
  destruct (fee_exact size r R ltac:(lia) ltac:(lia)) as [->|[Hm ->]]; lia.
Qed.
End Rate.

(** Keys of 33 bytes and signatures of 71, as usual; the first coin is a pay-to-pubkey-hash one. *)
Definition wide_pub (k : Z) (c : bool) : bytes := 2 :: repeat (k mod 256) 32.
Definition wide_sign (k : Z) (h : bytes) : res bytes := Ok (repeat (k mod 256) 71).
Notation wide_build := (BuildTransaction toy160 toy256 toy256 Z wide_pub wide_sign).
Definition rate_calls (script : bytes) (data : list (call Z)) : list (call Z) :=
  [CAddCoin Z (ex_coin 3 10000 script); CAddKeys Z (Some [8]); CTo Z (ex_addr 1) 700; CChange Z (ex_addr 9); CRelay Z 1000] ++ data ++ [CSign Z].
Definition rated {A} (cs : list (call Z)) (view : transaction -> A) : res A := let! b := toy_calls cs in let! t := wide_build b in Ok (view t).
Lemma rated_ok {A} cs (view : transaction -> A) x : rated cs view = Ok x -> exists b t, toy_calls cs = Ok b /\ wide_build b = Ok t /\ view t = x.
Proof. unfold rated. destruct (toy_calls cs) as [b| |] eqn:E; cbn; [|discriminate|discriminate]. destruct (wide_build b) as [t| |] eqn:E2; cbn; [|discriminate|discriminate]. intros H. exists b, t. repeat split; auto. congruence. Qed.

(** C161 is false: with a rate set, a transaction with change and up to 24 ordinary inputs, or with witness inputs only,
    pays below that rate, even counting only the bytes outside witnesses. *)
Theorem C161_pays_rate_refuted :
  (exists cs b t, toy_calls cs = Ok b /\ wide_build b = Ok t /\ said_relay Z cs = 1000 /\ 1000 * Fees t < said_relay Z cs * len (Serialize t)) /\
  forall Hash160 sha256 DS prvkey PubKeyBytes EcdsaSign cs b t,
  do_calls prvkey cs (NewTransactionBuilder prvkey) = Ok b -> BuildTransaction Hash160 sha256 DS prvkey PubKeyBytes EcdsaSign b = Ok t -> sane prvkey cs -> tx_ok t ->
  0 < said_relay prvkey cs < 2 ^ 53 -> said_relay prvkey cs * len (wire_legacy t) < 1000 * 2 ^ 42 ->
  Forall (fun i => ti_code i = None -> 107 <= len (ti_unlock i)) (tx_ins t) ->
  plain_inputs t = 0 \/
  (plain_inputs t <= 24 /\ length (tx_outs t) = S (length (said_payments prvkey cs) + length (said_data prvkey cs)) /\ (forall a, said_change prvkey cs = Some (Some a) -> 22 <= len (LockingScript a))) ->
  1000 * Fees t < said_relay prvkey cs * len (wire_legacy t).
Proof.
  split; [|exact below_rate]. exists (rate_calls (p2pkh_script (toy160 (wide_pub 8 true))) []).
  assert (E : rated (rate_calls (p2pkh_script (toy160 (wide_pub 8 true))) []) (fun t => (Fees t, len (Serialize t))) = Ok (192, 226)) by (vm_compute; reflexivity).
  apply rated_ok in E. destruct E as (b & t & E1 & E2 & E3). exists b, t. split; [exact E1|]. split; [exact E2|]. split; [reflexivity|].
  assert (F : Fees t = 192) by congruence. assert (L : len (Serialize t) = 226) by congruence. rewrite F, L. reflexivity.
Qed.
Print Assumptions C161_pays_rate_refuted.
Example C161_example_below :
  rated (rate_calls (p2pkh_script (toy160 (wide_pub 8 true))) []) (fun t => (Fees t, len (wire_legacy t), plain_inputs t, length (tx_outs t), map (fun i => len (ti_unlock i)) (tx_ins t))) = Ok (192, 226, 1, 2%nat, [107]) /\
  rated (rate_calls (p2wpkh_script (toy160 (wide_pub 8 true))) []) (fun t => (Fees t, len (wire_legacy t), plain_inputs t)) = Ok (43, 119, 0) /\
  sane Z (rate_calls (p2pkh_script (toy160 (wide_pub 8 true))) []) /\ said_change Z (rate_calls [] []) = Some (ex_addr 9) /\ len (LockingScript (PayToPubKeyHashAddress (repeat 9 20))) = 25.
Proof. split; [vm_compute; reflexivity|]. split; [vm_compute; reflexivity|]. split; [|vm_compute; repeat split; reflexivity]. unfold sane. repeat (split || constructor); vm_compute; congruence. Qed.

(** C161, what holds: without witness inputs the fee pays the rate, less one satoshi, for every byte except the length
    prefixes of the requested outputs' scripts, the change output, and the data outputs beyond their data. *)
Theorem C161_pays_rate_partial : forall Hash160 sha256 DS prvkey PubKeyBytes EcdsaSign cs b t,
  do_calls prvkey cs (NewTransactionBuilder prvkey) = Ok b -> BuildTransaction Hash160 sha256 DS prvkey PubKeyBytes EcdsaSign b = Ok t -> sane prvkey cs -> tx_ok t ->
  0 < said_relay prvkey cs < 2 ^ 53 -> said_relay prvkey cs * (len (Serialize t) + 149 * len (tx_ins t)) < 1000 * 2 ^ 42 ->
  Forall (fun i => ti_code i = None /\ len (ti_unlock i) <= 108) (tx_ins t) ->
  exists pays others, tx_outs t = pays ++ others /\ length pays = length (said_payments prvkey cs) /\
  said_relay prvkey cs * (len (Serialize t) - sumZ (map (fun o => len (compact (len (to_script o)))) pays) - (sumZ (map (fun o => len (wire_out o)) others) - sumZ (map len (said_data prvkey cs))) -
    (len (compact (len (tx_outs t))) - len (compact (len pays)))) <= 1000 * (Fees t + 1).
Proof. exact above_rate. Qed.
Print Assumptions C161_pays_rate_partial.
Example C161_example_parts :
  rated (rate_calls (p2pkh_script (toy160 (wide_pub 8 true))) [CPush Z [1; 2; 3]]) (fun t => (Fees t, len (Serialize t), map (fun o => len (wire_out o)) (tx_outs t))) = Ok (195, 240, [34; 34; 14]) /\ 240 - 1 - (34 + 14 - 3) - 0 <= 195 + 1.
Proof. split; [vm_compute; reflexivity|]. vm_compute. congruence. Qed.
Example C161_example_fields : exists t, rated (rate_calls (p2pkh_script (toy160 (wide_pub 8 true))) [CPush Z [1; 2; 3]]) (fun t => t) = Ok t /\ tx_ok t /\ Forall (fun i => ti_code i = None /\ len (ti_unlock i) <= 108) (tx_ins t).
Proof.
  eexists. split; [vm_compute; reflexivity|]. split; [|repeat constructor; vm_compute; congruence].
  unfold tx_ok, in_ok, out_ok, fits_memory. cbn [tx_ins tx_outs tx_version tx_locktime]. repeat (split || apply Forall_cons || apply Forall_nil); vm_compute; congruence.
Qed.
