(** The groups of a builder after any sequence of calls. *)
From Verif Require Import GoBase BaseLemmas BufferModel BufferSpec BufferProofs ScriptModel ScriptSpec ScriptProofs HexModel AddressModel LockModel LockSpec LockProofs VmSpec VmProofs TxModel TxSpec TxSignSpec TxSign TxSign2 BuilderModel BuilderSpec BuilderProofs BuilderCalls OptionSpec.
From Coq Require Import ZifyBool ZifyNat ZifyN.

Section Options.
Variable Hash160 sha256 DS : bytes -> bytes.
Variable prvkey : Type.
Variable PubKeyBytes : prvkey -> bool -> bytes.
Variable EcdsaSign : prvkey -> bytes -> res bytes.
Notation builder := (TransactionBuilder prvkey).
Notation Build := (BuildTransaction Hash160 sha256 DS prvkey PubKeyBytes EcdsaSign).
Notation call := (call prvkey).
Notation group := (Group prvkey).
Notation none := (empty_group prvkey).

(** What a call does to the current group, and to the rest of the builder. *)
Definition upd (c : call) (g : group) : group :=
  match c with
  | CAddCoin _ c => MkGroup prvkey c (g_keys prvkey g) (g_output prvkey g) true (g_redeem prvkey g) 1
  | CAddKeys _ ks => MkGroup prvkey (g_coin prvkey g) ks (g_output prvkey g) (g_compressed prvkey g) (g_redeem prvkey g) (g_sighash prvkey g)
  | CTo _ a v => MkGroup prvkey (g_coin prvkey g) (g_keys prvkey g) (Some (MkOutput a v)) (g_compressed prvkey g) (g_redeem prvkey g) (g_sighash prvkey g)
  | CRedeem _ r => MkGroup prvkey (g_coin prvkey g) (g_keys prvkey g) (g_output prvkey g) (g_compressed prvkey g) r (g_sighash prvkey g)
  | CUncompressed _ => MkGroup prvkey (g_coin prvkey g) (g_keys prvkey g) (g_output prvkey g) false (g_redeem prvkey g) (g_sighash prvkey g)
  | CSigHash _ ty => MkGroup prvkey (g_coin prvkey g) (g_keys prvkey g) (g_output prvkey g) (g_compressed prvkey g) (g_redeem prvkey g) ty
  | _ => g
  end.
Definition other (b : builder) (c : call) : builder :=
  match c with
  | CChange _ a => SetChange prvkey a b
  | CFees _ f => SendFees prvkey f b
  | CRelay _ f => SetRelayFeePerKb prvkey f b
  | CMax _ f => SetMaxFees prvkey f b
  | CLock _ l => SetBuilderLockTime prvkey l b
  | CPush _ d => AddPushData prvkey d b
  | CSign _ => Sign prvkey b
  | CThen _ => MkBuilder prvkey (b_idx prvkey b + 1) (b_sign prvkey b) (b_maxFees prvkey b) (b_sendFees prvkey b) (b_relay prvkey b) (b_lockTime prvkey b) (b_change prvkey b) (b_groups prvkey b) (b_push prvkey b)
  | _ => b
  end.
Definition with_groups (l : list group) (b : builder) : builder :=
  MkBuilder prvkey (b_idx prvkey b) (b_sign prvkey b) (b_maxFees prvkey b) (b_sendFees prvkey b) (b_relay prvkey b) (b_lockTime prvkey b) (b_change prvkey b) l (b_push prvkey b).
Fixpoint gf (g : group) (cs : list call) : list group :=
  match cs with
  | [] => [g]
  | CThen _ :: r => g :: gf none r
  | c :: r => gf (upd c g) r
  end.
Lemma then_dec (c : call) : c = CThen prvkey \/ c <> CThen prvkey.
Proof. destruct c; [right; discriminate..|now left]. Qed.
Lemma gf_cons c r g : c <> CThen prvkey -> gf g (c :: r) = gf (upd c g) r.
Proof. intros N. destruct c; try reflexivity. congruence. Qed.

Lemma call_state c (b : builder) front g : b_groups prvkey b = front ++ [g] -> b_idx prvkey b = len front -> c <> CThen prvkey ->
  do_call prvkey c b = Ok (with_groups (front ++ [upd c g]) (other b c)) /\ b_idx prvkey (other b c) = len front.
Proof.
  intros G I N.
  assert (S : forall f, set_group prvkey f b = Ok (with_groups (front ++ [f g]) b)).
  { intros f. unfold set_group, with_groups. rewrite G, I, index_last. cbn [rbind]. unfold len at 2. rewrite Nat2Z.id, update_last. reflexivity. }
  destruct c; try congruence; cbn [do_call other upd]; (split; [|exact I]);
    try (unfold AddCoin, AddKeys, To, SetRedeemScript, SetPubKeyUncompressed, SetSigHashType; exact (S _)); unfold with_groups; rewrite <- G; reflexivity.
Qed.
Lemma other_groups l b cs : fold_left other cs (with_groups l b) = with_groups l (fold_left other cs b).
Proof. revert b. induction cs as [|c cs IH]; intros b; [reflexivity|]. cbn [fold_left]. rewrite <- IH. destruct c; reflexivity. Qed.
Lemma with_twice l m b : with_groups l (with_groups m b) = with_groups l b.
Proof. reflexivity. Qed.
(** Every sequence of calls gives this state. *)
Lemma calls_state : forall cs (b : builder) front g, b_groups prvkey b = front ++ [g] -> b_idx prvkey b = len front ->
  do_calls prvkey cs b = Ok (with_groups (front ++ gf g cs) (fold_left other cs b)).
Proof.
  induction cs as [|c cs IH]; intros b front g G I; cbn [do_calls].
  - cbn [fold_left gf]. unfold with_groups. rewrite <- G. destruct b; reflexivity.
  - destruct (then_dec c) as [->|N].
    + cbn [do_call rbind]. rewrite (IH (Then prvkey b) (front ++ [g]) none).
      * cbn [fold_left gf]. rewrite <- app_assoc. cbn [app]. f_equal. change (Then prvkey b) with (with_groups (b_groups prvkey b ++ [none]) (other b (CThen prvkey))). now rewrite other_groups, with_twice.
      * cbn [b_groups Then]. now rewrite G.
      * cbn [b_idx Then]. rewrite I, len_app. reflexivity.
    + destruct (call_state c b front g G I N) as [E I']. rewrite E. cbn [rbind]. rewrite (IH _ front (upd c g)); [|reflexivity|exact I']. now rewrite other_groups, with_twice, gf_cons.
Qed.
Lemma new_state cs : do_calls prvkey cs (NewTransactionBuilder prvkey) = Ok (with_groups (gf none cs) (fold_left other cs (NewTransactionBuilder prvkey))).
Proof. exact (calls_state cs (NewTransactionBuilder prvkey) [] none eq_refl eq_refl). Qed.

(** ** Calls that a later one undoes. *)
Lemma silent_base o k g : silences prvkey o k -> upd k (upd o g) = upd k g.
Proof. intros S. destruct S as [| o c Ho | | |]; try reflexivity. destruct o; try contradiction; reflexivity. Qed.
Lemma silent_step k x g g' : upd k g = upd k g' -> upd k (upd x g) = upd k (upd x g').
Proof. intros E. destruct g, g', k, x; cbn in *; congruence. Qed.
Lemma silent_gf k d : k <> CThen prvkey -> forall b g g', ~ In (CThen prvkey) b -> upd k g = upd k g' -> gf g (b ++ k :: d) = gf g' (b ++ k :: d).
Proof.
  intros K. induction b as [|x b IH]; intros g g' N E; cbn [app].
  - rewrite !gf_cons by exact K. now rewrite E.
  - rewrite !gf_cons by (intros ->; apply N; left; reflexivity). apply IH; [intros H; apply N; now right|now apply silent_step].
Qed.
Lemma silences_group o k : silences prvkey o k -> o <> CThen prvkey /\ k <> CThen prvkey /\ forall b, other b o = b.
Proof. intros S. destruct S as [| o c Ho | | |]; try (repeat split; discriminate). destruct o; try contradiction; repeat split; discriminate. Qed.
Lemma lost o k a b d : silences prvkey o k -> ~ In (CThen prvkey) b ->
  do_calls prvkey (a ++ o :: b ++ k :: d) (NewTransactionBuilder prvkey) = do_calls prvkey (a ++ b ++ k :: d) (NewTransactionBuilder prvkey).
Proof.
  intros S N. rewrite !new_state. destruct (silences_group o k S) as (No & Nk & Ot). f_equal. f_equal.
  - generalize none. induction a as [|x a IH]; intros g; cbn [app].
    + rewrite gf_cons by exact No. apply silent_gf; [exact Nk|exact N|now apply silent_base].
    + destruct (then_dec x) as [->|Nx]; [cbn [gf]; f_equal; apply IH|]. rewrite !gf_cons by exact Nx. apply IH.
  - rewrite !fold_left_app. cbn [fold_left]. rewrite Ot, ?fold_left_app. reflexivity.
Qed.

(** ** The options of each coin. *)
Lemma gf_stretches : forall cs g, gf g cs = match stretches prvkey cs with s :: ss => fold_left (fun g c => upd c g) s g :: map (fun s => fold_left (fun g c => upd c g) s none) ss | [] => [] end.
Proof.
  induction cs as [|c cs IH]; intros g; [reflexivity|]. destruct (then_dec c) as [->|N].
  - cbn [gf stretches]. cbn [fold_left map]. rewrite IH. destruct (stretches_ne prvkey cs) as (s & ss & ->). reflexivity.
  - rewrite gf_cons by exact N. rewrite IH. destruct (stretches_ne prvkey cs) as (s & ss & E). assert (Ec : stretches prvkey (c :: cs) = (c :: s) :: ss) by (destruct c; cbn [stretches]; rewrite ?E; congruence). now rewrite Ec, E.
Qed.
Definition made (s : list call) : group := fold_left (fun g c => upd c g) s none.
Lemma gf_made cs : gf none cs = map made (stretches prvkey cs).
Proof. rewrite gf_stretches. destruct (stretches_ne prvkey cs) as (s & ss & ->). reflexivity. Qed.

Lemma made_from s : forall g, let h := fold_left (fun g c => upd c g) s g in
  g_coin prvkey h = said prvkey (fun c => match c with CAddCoin _ o => Some o | _ => None end) (g_coin prvkey g) s /\
  g_keys prvkey h = said prvkey (fun c => match c with CAddKeys _ k => Some k | _ => None end) (g_keys prvkey g) s /\
  g_redeem prvkey h = said prvkey (fun c => match c with CRedeem _ r => Some r | _ => None end) (g_redeem prvkey g) s.
Proof.
  induction s as [|c s IH]; intros g; cbn [fold_left]; [unfold said; cbn [map last_some]; auto|]. destruct (IH (upd c g)) as (A & B & C). rewrite A, B, C. unfold said. cbn [map last_some].
  destruct c; cbn [upd g_coin g_keys g_redeem]; repeat match goal with |- context [last_some ?l] => destruct (last_some l) end; auto.
Qed.
Lemma made_coin s : list_of (g_coin prvkey (made s)) = said_coin prvkey s.
Proof. unfold made. rewrite (proj1 (made_from s none)). unfold said, said_coin. destruct (last_some _) as [[c|]|]; reflexivity. Qed.
(** Options after the coin. *)
Lemma options_from s : forall g, (forall c, ~ In (CAddCoin prvkey c) s) -> let h := fold_left (fun g c => upd c g) s g in
  g_sighash prvkey h = said prvkey (fun c => match c with CSigHash _ ty => Some ty | _ => None end) (g_sighash prvkey g) s /\
  g_compressed prvkey h = said prvkey (fun c => match c with CUncompressed _ => Some false | _ => None end) (g_compressed prvkey g) s.
Proof.
  induction s as [|c s IH]; intros g N; cbn [fold_left]; [unfold said; cbn [map last_some]; auto|]. destruct (IH (upd c g)) as (A & B); [intros o H; apply (N o); now right|]. rewrite A, B. unfold said. cbn [map last_some].
  destruct c; try (exfalso; apply (N c); left; reflexivity); cbn [upd g_sighash g_compressed]; repeat match goal with |- context [last_some ?l] => destruct (last_some l) end; auto.
Qed.
Lemma last_coin (s : list call) : (forall c, ~ In (CAddCoin prvkey c) s) \/ exists x c y, s = x ++ CAddCoin prvkey c :: y /\ forall c, ~ In (CAddCoin prvkey c) y.
Proof.
  induction s as [|a s [IH|(x & c & y & -> & N)]].
  - left. intros c [].
  - assert (D : (exists c, a = CAddCoin prvkey c) \/ forall c, a <> CAddCoin prvkey c) by (destruct a; [left; eauto|right; discriminate..]). destruct D as [(c & ->)|D].
    + right. exists [], c, s. auto.
    + left. intros c [H|H]; [exact (D c H)|exact (IH c H)].
  - right. exists (a :: x), c, y. auto.
Qed.
Lemma last_some_app {A} (l m : list (option A)) : last_some (l ++ m) = match last_some m with Some y => Some y | None => last_some l end.
Proof. induction l as [|x l IH]; cbn [app last_some]; [destruct (last_some m); reflexivity|]. rewrite IH. destruct (last_some m); reflexivity. Qed.
Lemma said_skip {A} (f : call -> option A) d x y : Forall (fun c => f c = None) x -> said prvkey f d (x ++ y) = said prvkey f d y.
Proof.
  intros F. unfold said. rewrite map_app, last_some_app. replace (last_some (map f x)) with (@None A); [destruct (last_some (map f y)); reflexivity|]. induction F as [|c x E F IH]; [reflexivity|]. cbn [map last_some]. now rewrite <- IH, E.
Qed.
Lemma made_options s : coin_first prvkey s -> said_coin prvkey s <> [] -> g_sighash prvkey (made s) = said_type prvkey s /\ g_compressed prvkey (made s) = said_compressed prvkey s.
Proof.
  intros F N. destruct (last_coin s) as [No|(x & c & y & -> & Ny)].
  - exfalso. apply N. rewrite <- made_coin. unfold made. rewrite (proj1 (made_from s none)). unfold said. replace (last_some _) with (@None (option Coin)); [reflexivity|].
    clear F N. induction s as [|a s IH]; [reflexivity|]. cbn [map last_some]. rewrite <- IH by (intros c H; apply (No c); now right). destruct a; try reflexivity. exfalso. apply (No c). now left.
  - specialize (F x c y eq_refl). unfold made. rewrite fold_left_app. cbn [fold_left]. set (g := fold_left _ x _).
    destruct (options_from y (upd (CAddCoin prvkey c) g) Ny) as (A & B). rewrite A, B. cbn [upd g_sighash g_compressed]. unfold said_type, said_compressed.
    rewrite !said_skip; [| |]; try (eapply Forall_impl; [|exact F]; intros [] H; try reflexivity; exfalso; apply H; exact I).
    unfold said. cbn [map last_some]. split; destruct (last_some _); reflexivity.
Qed.

(** ** What the builder signs with. *)
Lemma gather_inputs : forall gs a a', gather Hash160 prvkey gs a = Ok a' ->
  ga_inputs prvkey a' = ga_inputs prvkey a ++ flat_map (fun g => match g_coin prvkey g with Some _ => [MkInput prvkey (g_compressed prvkey g) (g_sighash prvkey g) (g_keys prvkey g)] | None => [] end) gs /\
  map ti_redeem (ga_txins prvkey a') = map ti_redeem (ga_txins prvkey a) ++ flat_map (fun g => match g_coin prvkey g with Some _ => [g_redeem prvkey g] | None => [] end) gs.
Proof.
  induction gs as [|g gs IH]; intros a a' E; cbn [gather] in E; [injection E as <-; cbn [flat_map]; now rewrite !app_nil_r|].
  apply rbind_ok in E. destruct E as (a1 & E1 & E). apply rbind_ok in E. destruct E as (a2 & E2 & E). destruct (IH a2 a' E) as [A B]. rewrite A, B. cbn [flat_map].
  assert (X : ga_inputs prvkey a2 = ga_inputs prvkey a1 /\ ga_txins prvkey a2 = ga_txins prvkey a1) by (unfold gather_out in E2; destruct (g_output prvkey g); injection E2 as <-; auto). destruct X as [-> ->].
  unfold gather_in in E1. destruct (g_coin prvkey g) as [c|]; [|injection E1 as <-; auto].
  apply rbind_ok in E1. destruct E1 as (id & _ & E1). apply rbind_ok in E1. destruct E1 as (sc & _ & E1). apply rbind_ok in E1. destruct E1 as (i & Ni & E1). injection E1 as <-. cbn [ga_inputs ga_txins].
  unfold NewTxIn in Ni. apply rbind_ok in Ni. destruct Ni as (ls & _ & Ni). injection Ni as <-. rewrite map_app. cbn [map ti_redeem]. rewrite <- !app_assoc. auto.
Qed.
Lemma sign_inputs_as : forall xs n t t', sign_inputs sha256 DS prvkey PubKeyBytes EcdsaSign n xs t = Ok t' ->
  signed_as sha256 DS prvkey PubKeyBytes EcdsaSign n (map (fun x => (n_compressed prvkey x, n_sighash prvkey x, n_keys prvkey x)) xs) t t'.
Proof.
  induction xs as [|x xs IH]; intros n t t' E; cbn [sign_inputs] in E; [injection E as <-; constructor|]. cbn [map]. destruct (n_keys prvkey x) as [ks|]; [|discriminate].
  apply rbind_ok in E. destruct E as (t1 & E1 & E). econstructor; [exact E1|now apply IH].
Qed.
Definition quiet (b : builder) : builder :=
  MkBuilder prvkey (b_idx prvkey b) false (b_maxFees prvkey b) (b_sendFees prvkey b) (b_relay prvkey b) (b_lockTime prvkey b) (b_change prvkey b) (b_groups prvkey b) (b_push prvkey b).
Lemma build_signed b t : b_sign prvkey b = true -> Build b = Ok t -> exists t0 a, Build (quiet b) = Ok t0 /\ gather Hash160 prvkey (b_groups prvkey b) (MkG prvkey 0 0 [] [] []) = Ok a /\ tx_ins t0 = ga_txins prvkey a /\
  sign_inputs sha256 DS prvkey PubKeyBytes EcdsaSign 0 (ga_inputs prvkey a) t0 = Ok t.
Proof.
  intros Sg E. unfold BuildTransaction in *. apply rbind_ok in E. destruct E as (a & Ea & E). cbn [quiet b_groups b_maxFees b_sign]. rewrite Ea. cbn [rbind].
  change (build_fees prvkey (quiet b) a) with (build_fees prvkey b a).
  destruct (len (ga_txins prvkey a) =? 0); [discriminate|]. destruct (len (ga_txouts prvkey a) =? 0); [discriminate|]. destruct (b_maxFees prvkey b <? _); [discriminate|].
  destruct (ga_in prvkey a <? _); [discriminate|]. destruct (i64 _ <? 0); [discriminate|]. apply rbind_ok in E. destruct E as (ch & Ec & E). rewrite Sg in E.
  match type of Ec with ?x = _ => match goal with |- context [rbind ?y _] => change y with x end end. rewrite Ec. cbn [rbind].
  exists (assemble prvkey b a ch), a. split; [reflexivity|]. split; [reflexivity|]. split; [now rewrite assemble_spec|exact E].
Qed.
Lemma quiet_groups l b : quiet (with_groups l b) = with_groups l (quiet b).
Proof. reflexivity. Qed.
Lemma quiet_other cs : forall b, quiet (fold_left other cs b) = fold_left other (filter (not_sign prvkey) cs) (quiet b).
Proof. induction cs as [|c cs IH]; intros b; [reflexivity|]. cbn [fold_left filter]. rewrite IH. destruct c; reflexivity. Qed.
Lemma gf_quiet cs : forall g, gf g (filter (not_sign prvkey) cs) = gf g cs.
Proof. induction cs as [|c cs IH]; intros g; [reflexivity|]. destruct c; cbn [filter not_sign gf upd]; rewrite ?IH; reflexivity. Qed.
Lemma said_sign cs : forall b, b_sign prvkey (fold_left other cs b) = true <-> b_sign prvkey b = true \/ In (CSign prvkey) cs.
Proof.
  clear Hash160 sha256 DS PubKeyBytes EcdsaSign. induction cs as [|c cs IH]; intros b; cbn [fold_left In]; [tauto|]. rewrite IH. destruct c; cbn [other b_sign SetChange SendFees SetRelayFeePerKb SetMaxFees SetBuilderLockTime AddPushData Sign]; intuition discriminate.
Qed.

Lemma flat_map_map {A B C} (f : B -> list C) (h : A -> B) l : flat_map f (map h l) = flat_map (fun x => f (h x)) l.
Proof. induction l as [|x l IH]; [reflexivity|]. cbn [map flat_map]. now rewrite IH. Qed.
Lemma map_flat_map {A B C} (f : B -> C) (h : A -> list B) l : map f (flat_map h l) = flat_map (fun x => map f (h x)) l.
Proof. induction l as [|x l IH]; [reflexivity|]. cbn [flat_map]. now rewrite map_app, IH. Qed.
Lemma flat_map_in {A B} (f h : A -> list B) l : Forall (fun x => f x = h x) l -> flat_map f l = flat_map h l.
Proof. induction 1 as [|x l E F IH]; [reflexivity|]. cbn [flat_map]. now rewrite E, IH. Qed.
Lemma options_signed cs : Forall (coin_first prvkey) (stretches prvkey cs) -> In (CSign prvkey) cs -> exists b b0, do_calls prvkey cs (NewTransactionBuilder prvkey) = Ok b /\
  do_calls prvkey (filter (not_sign prvkey) cs) (NewTransactionBuilder prvkey) = Ok b0 /\
  forall t, Build b = Ok t -> exists t0, Build b0 = Ok t0 /\ map ti_redeem (tx_ins t0) = per_coin prvkey (said_redeem prvkey) cs /\
    signed_as sha256 DS prvkey PubKeyBytes EcdsaSign 0 (per_coin prvkey (how_signed prvkey) cs) t0 t.
Proof.
  intros F I. rewrite !new_state. eexists _, _. split; [reflexivity|]. split; [reflexivity|]. intros t Bt.
  destruct (build_signed (with_groups (gf none cs) (fold_left other cs (NewTransactionBuilder prvkey))) t (proj2 (said_sign cs (NewTransactionBuilder prvkey)) (or_intror I)) Bt) as (t0 & a & B0 & Ga & Ti & Sg). rewrite quiet_groups, quiet_other in B0. rewrite gf_quiet. exists t0. split; [exact B0|].
  cbn [with_groups b_groups] in Ga. destruct (gather_inputs _ _ _ Ga) as [A B]. cbn [ga_inputs ga_txins map app] in A, B. rewrite gf_made in A, B. rewrite flat_map_map in A. rewrite flat_map_map in B. apply sign_inputs_as in Sg. rewrite A, map_flat_map in Sg. rewrite Ti, B.
  assert (C : forall s, match g_coin prvkey (made s) with Some _ => said_coin prvkey s <> [] | None => said_coin prvkey s = [] end) by (intros s; rewrite <- made_coin; destruct (g_coin prvkey (made s)); cbn [list_of]; [discriminate|reflexivity]).
  split.
  - unfold per_coin. apply flat_map_in. apply Forall_forall. intros s _. specialize (C s). destruct (g_coin prvkey (made s)); [|now rewrite C]. destruct (said_coin prvkey s); [congruence|]. unfold made. now rewrite (proj2 (proj2 (made_from s none))).
  - assert (Q : forall l m, l = m -> signed_as sha256 DS prvkey PubKeyBytes EcdsaSign 0 l t0 t -> signed_as sha256 DS prvkey PubKeyBytes EcdsaSign 0 m t0 t) by (now intros ? ? ->). refine (Q _ _ _ Sg).
    unfold per_coin. apply flat_map_in. eapply Forall_impl; [|exact F]. intros s Fs. cbv beta. specialize (C s). destruct (g_coin prvkey (made s)); [|now rewrite C]. pose proof (made_options s Fs C) as [E1 E2].
    destruct (said_coin prvkey s) eqn:Es; [congruence|]. cbn [map n_compressed n_sighash n_keys]. unfold how_signed. rewrite E1, E2. unfold made. now rewrite (proj1 (proj2 (made_from s none))).
Qed.
End Options.
