(** A builder told to sign makes transactions that verify. *)
From Verif Require Import GoBase BaseLemmas BufferModel BufferSpec BufferProofs ScriptModel ScriptSpec ScriptProofs HexModel LockModel LockSpec LockProofs VmModel VmSpec VmProofs TxModel TxSpec TxSignSpec TxSign TxSign2 TxSign3
  BuilderModel BuilderSpec BuilderProofs.
From Coq Require Import ZifyBool ZifyNat ZifyN.

Section Sign.
Variable Hash160 sha256 DS : bytes -> bytes.
Variable prvkey : Type.
Variable PubKeyBytes : prvkey -> bool -> bytes.
Variable EcdsaSign : prvkey -> bytes -> res bytes.
Variable EcdsaVerify : bytes -> bytes -> bytes -> res unit.
Notation Build := (BuildTransaction Hash160 sha256 DS prvkey PubKeyBytes EcdsaSign).
Notation scheme_ok := (scheme_ok prvkey PubKeyBytes EcdsaSign EcdsaVerify).
Notation hashes_ok := (hashes_ok Hash160 sha256).
Notation signers := (signers Hash160 sha256 prvkey PubKeyBytes).
Notation same := (same DS).
Notation accepted := (accepted Hash160 DS EcdsaVerify).
Notation group := (Group prvkey).

(** [can_spend c ks script redeem]: the keys open an output with this script. *)
Inductive can_spend (c : bool) : list prvkey -> bytes -> obytes -> Prop :=
| cs_p2pkh k rd : can_spend c [k] (p2pkh_script (Hash160 (PubKeyBytes k c))) rd
| cs_p2wpkh k rd : can_spend c [k] (p2wpkh_script (Hash160 (PubKeyBytes k c))) rd
| cs_p2sh ks pubs r : multisig_for prvkey PubKeyBytes c ks pubs r -> can_spend c ks (p2sh_script (Hash160 r)) (Some r)
| cs_p2wsh ks pubs r : multisig_for prvkey PubKeyBytes c ks pubs r -> can_spend c ks (p2wsh_script (sha256 r)) (Some r).
(** The group has no coin, or the keys for it. *)
Definition group_signs (ht : Z) (g : group) : Prop :=
  match g_coin prvkey g with
  | None => True
  | Some c => g_sighash prvkey g = ht /\ exists ks script, g_keys prvkey g = Some ks /\ hex_decode (coin_script c) = Ok script /\ can_spend (g_compressed prvkey g) ks script (g_redeem prvkey g)
  end.

Lemma can_signers c ks script rd hash n v i : hashes_ok -> can_spend c ks script rd -> NewTxIn Hash160 hash n v script rd = Ok i -> signers c ks i.
Proof.
  intros Hs C N. destruct C as [k rd|k rd|ks pubs r M|ks pubs r M].
  - apply can_p2pkh. apply (proj1 (new_spends Hash160 sha256 hash n v rd (Hash160 (PubKeyBytes k c)) [] i Hs)); [apply Hs|apply Hs|exact N].
  - apply can_p2wpkh. apply (proj1 (proj2 (new_spends Hash160 sha256 hash n v rd (Hash160 (PubKeyBytes k c)) [] i Hs))); [apply Hs|apply Hs|exact N].
  - eapply can_p2sh; [exact M|]. exact (proj1 (proj2 (proj2 (new_spends Hash160 sha256 hash n v None [] r i Hs))) N).
  - eapply can_p2wsh; [exact M|]. exact (proj2 (proj2 (proj2 (new_spends Hash160 sha256 hash n v None [] r i Hs))) N).
Qed.
Definition ready (ht : Z) (x : input prvkey) (i : TxIn) : Prop := n_sighash prvkey x = ht /\ exists ks, n_keys prvkey x = Some ks /\ signers (n_compressed prvkey x) ks i.
Lemma gather_ready ht : hashes_ok -> forall gs a a', Forall (group_signs ht) gs -> gather Hash160 prvkey gs a = Ok a' -> Forall2 (ready ht) (ga_inputs prvkey a) (ga_txins prvkey a) -> Forall2 (ready ht) (ga_inputs prvkey a') (ga_txins prvkey a').
Proof.
  intros Hs. induction gs as [|g gs IH]; intros a a' F E R; cbn [gather] in E; [now injection E as <-|]. inversion F as [|? ? Sg F']. subst. apply rbind_ok in E. destruct E as (a1 & E1 & E). apply rbind_ok in E. destruct E as (a2 & E2 & E).
  apply (IH a2 a' F' E). assert (X : ga_inputs prvkey a2 = ga_inputs prvkey a1 /\ ga_txins prvkey a2 = ga_txins prvkey a1) by (unfold gather_out in E2; destruct (g_output prvkey g); injection E2 as <-; auto). destruct X as [-> ->].
  unfold gather_in in E1. unfold group_signs in Sg. destruct (g_coin prvkey g) as [c|]; [|now injection E1 as <-]. destruct Sg as (Sh & ks & script & Hk & Hx & C).
  apply rbind_ok in E1. destruct E1 as (id & Hid & E1). rewrite Hx in E1. cbn [rbind] in E1. apply rbind_ok in E1. destruct E1 as (i & Ni & E1). injection E1 as <-. cbn [ga_inputs ga_txins].
  apply Forall2_app; [exact R|]. constructor; [|constructor]. split; [exact Sh|]. exists ks. split; [exact Hk|]. eapply can_signers; eauto.
Qed.
Lemma sign_inputs_spec ht : scheme_ok -> hashes_ok -> 0 <= ht < 256 -> forall xs idx t t', 0 <= idx ->
  (forall n x, nth_error xs n = Some x -> exists i, index (tx_ins t) (idx + Z.of_nat n) = Ok i /\ ready ht x i) ->
  (forall n, 0 <= n < idx -> exists i, index (tx_ins t) n = Ok i /\ accepted ht n i t) ->
  sign_inputs sha256 DS prvkey PubKeyBytes EcdsaSign idx xs t = Ok t' ->
  same ht t t' /\ forall n, 0 <= n < idx + len xs -> exists i, index (tx_ins t') n = Ok i /\ accepted ht n i t'.
Proof.
  intros Sc Hs R. induction xs as [|x xs IH]; intros idx t t' P Sg Ac E; cbn [sign_inputs] in E.
  - injection E as <-. split; [apply same_refl|]. intros n Hn. apply Ac. change (len []) with 0 in Hn. lia.
  - destruct (Sg 0%nat x eq_refl) as (i & Hi & Sh & ks & Ek & Sk). rewrite Ek, Sh in E. apply rbind_ok in E. destruct E as (t1 & E1 & E). rewrite Z.add_0_r in Hi.
    destruct (sign_any Hash160 sha256 DS prvkey PubKeyBytes EcdsaSign EcdsaVerify idx (n_compressed prvkey x) ht ks t i t1 Sc Hs R Hi Sk E1) as (Sm & Oth & i' & Hi' & A).
    destruct (IH (idx + 1) t1 t' ltac:(lia)) as [Sm2 Ac2]; [| |exact E|].
    + intros n x' Hn. destruct (Sg (S n) x' Hn) as (j & Hj & Sj). exists j. split; [|exact Sj]. rewrite <- Hj, Oth by lia. f_equal. lia.
    + intros n Hn. destruct (Z.eq_dec n idx) as [->|Nn]; [exists i'; auto|]. destruct (Ac n ltac:(lia)) as (j & Hj & Aj). exists j. split; [rewrite Oth by exact Nn; exact Hj|].
      eapply accepted_same; eauto.
    + split; [eapply same_trans; eauto|]. intros n Hn. apply Ac2. rewrite len_cons in Hn. lia.
Qed.
Lemma sign_inputs_ok ht : scheme_ok -> hashes_ok -> 0 <= ht < 256 -> (forall k h, exists s, EcdsaSign k h = Ok s) -> forall xs idx t, 0 <= idx ->
  (forall n x, nth_error xs n = Some x -> exists i, index (tx_ins t) (idx + Z.of_nat n) = Ok i /\ ready ht x i) ->
  exists t', sign_inputs sha256 DS prvkey PubKeyBytes EcdsaSign idx xs t = Ok t'.
Proof.
  intros Sc Hs R Tot. induction xs as [|x xs IH]; intros idx t P Sg; cbn [sign_inputs]; [eauto|]. destruct (Sg 0%nat x eq_refl) as (i & Hi & Sh & ks & Ek & Sk). rewrite Z.add_0_r in Hi. rewrite Ek, Sh.
  destruct (sign_succeeds Hash160 sha256 DS prvkey PubKeyBytes EcdsaSign EcdsaVerify idx (n_compressed prvkey x) ht ks t i Sc Hs R Tot Hi Sk) as (t1 & E1). rewrite E1. cbn [rbind].
  destruct (sign_any Hash160 sha256 DS prvkey PubKeyBytes EcdsaSign EcdsaVerify idx (n_compressed prvkey x) ht ks t i t1 Sc Hs R Hi Sk E1) as (_ & Oth & _).
  apply IH; [lia|]. intros n x' Hn. destruct (Sg (S n) x' Hn) as (j & Hj & Sj). exists j. split; [|exact Sj]. rewrite <- Hj, Oth by lia. f_equal. lia.
Qed.
Lemma ready_nth ht xs is : Forall2 (ready ht) xs is -> forall n x, nth_error xs n = Some x -> exists i, index is (Z.of_nat n) = Ok i /\ ready ht x i.
Proof.
  intros F n x Hn. assert (X : forall n x, nth_error xs n = Some x -> exists i, nth_error is n = Some i /\ ready ht x i).
  { clear n x Hn. induction F as [|k0 i0 kss ins S0 F IH]; intros [|n] ks' Hn; try discriminate; [injection Hn as <-; exists i0; auto|]. now apply IH. }
  destruct (X n x Hn) as (i & Ni & Si). exists i. unfold index. replace (Z.of_nat n <? 0) with false by lia. rewrite Nat2Z.id, Ni. auto.
Qed.

Lemma built_verifies ht b t : scheme_ok -> hashes_ok -> 0 <= ht < 256 -> b_sign prvkey b = true -> Forall (group_signs ht) (b_groups prvkey b) -> Build b = Ok t -> Verify Hash160 DS EcdsaVerify t = Ok tt.
Proof.
  intros Sc Hs R Sg F E. unfold BuildTransaction in E. apply rbind_ok in E. destruct E as (a & Ea & E). destruct (len (ga_txins prvkey a) =? 0); [discriminate|]. destruct (len (ga_txouts prvkey a) =? 0); [discriminate|].
  destruct (b_maxFees prvkey b <? _); [discriminate|]. destruct (ga_in prvkey a <? _); [discriminate|]. destruct (i64 _ <? 0); [discriminate|]. apply rbind_ok in E. destruct E as (ch & _ & E). rewrite Sg in E.
  assert (G := gather_ready ht Hs _ _ _ F Ea ltac:(constructor)).
  destruct (sign_inputs_spec ht Sc Hs R (ga_inputs prvkey a) 0 (assemble prvkey b a ch) t ltac:(lia)) as [Sm Ac]; [| |exact E|].
  - intros n x Hn. rewrite assemble_spec. cbn [tx_ins]. rewrite Z.add_0_l. now apply (ready_nth ht _ _ G).
  - intros n Hn. lia.
  - unfold Verify. apply (verify_accepted Hash160 DS EcdsaVerify ht _ 0 t t); [apply same_refl|]. intros n i Hn. rewrite ?Z.add_0_l. destruct (Ac (Z.of_nat n)) as (j & Hj & Aj).
    { assert (Q : nth_error (tx_ins t) n <> None) by congruence. apply nth_error_Some in Q. pose proof (len_core _ _ (proj1 Sm)) as L. rewrite assemble_spec in L. cbn [tx_ins] in L. unfold len in *. pose proof (Forall2_len _ _ _ G). lia. }
    unfold index in Hj. replace (Z.of_nat n <? 0) with false in Hj by lia. rewrite Nat2Z.id, Hn in Hj. injection Hj as <-. exact Aj.
Qed.
(** Signing is no new reason to fail. *)
Definition unsigned (b : TransactionBuilder prvkey) : TransactionBuilder prvkey :=
  MkBuilder prvkey (b_idx prvkey b) false (b_maxFees prvkey b) (b_sendFees prvkey b) (b_relay prvkey b) (b_lockTime prvkey b) (b_change prvkey b) (b_groups prvkey b) (b_push prvkey b).
Lemma built_succeeds ht b t : scheme_ok -> hashes_ok -> 0 <= ht < 256 -> (forall k h, exists s, EcdsaSign k h = Ok s) -> Forall (group_signs ht) (b_groups prvkey b) ->
  Build (unsigned b) = Ok t -> exists t', Build b = Ok t' /\ core t' = core t.
Proof.
  intros Sc Hs R Tot F E. unfold BuildTransaction in *. cbn [unsigned b_groups b_maxFees b_sign] in E. apply rbind_ok in E. destruct E as (a & Ea & E). rewrite Ea. cbn [rbind].
  replace (build_fees prvkey (unsigned b) a) with (build_fees prvkey b a) in E by reflexivity.
  destruct (len (ga_txins prvkey a) =? 0); [discriminate|]. destruct (len (ga_txouts prvkey a) =? 0); [discriminate|].
  destruct (b_maxFees prvkey b <? _); [discriminate|]. destruct (ga_in prvkey a <? _); [discriminate|]. destruct (i64 _ <? 0); [discriminate|]. apply rbind_ok in E. destruct E as (ch & Ec & E).
  match type of Ec with ?x = _ => match goal with |- context [rbind ?y _] => change y with x end end. rewrite Ec. cbn [rbind]. injection E as <-.
  assert (G := gather_ready ht Hs _ _ _ F Ea ltac:(constructor)). change (assemble prvkey (unsigned b) a ch) with (assemble prvkey b a ch). destruct (b_sign prvkey b); [|eauto].
  destruct (sign_inputs_ok ht Sc Hs R Tot (ga_inputs prvkey a) 0 (assemble prvkey b a ch) ltac:(lia)) as (t' & Et).
  - intros n x Hn. rewrite assemble_spec. cbn [tx_ins]. rewrite Z.add_0_l. now apply (ready_nth ht _ _ G).
  - exists t'. split; [exact Et|]. eapply (sign_inputs_core Hash160); eauto.
Qed.
End Sign.
