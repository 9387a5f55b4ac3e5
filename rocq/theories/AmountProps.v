(** C137, C138: lock times, and the amounts noted with inputs. *)
From Verif Require Import GoBase BaseLemmas ScriptModel ScriptSpec LockModel LockSpec LockProofs VmSpec TxModel TxSpec TxSig TxSignSpec TxSign TxSign2 TxSign3 TxSignProps HexModel AddressModel EcdsaSpec
  BuilderModel BuilderSpec BuilderProofs BuilderSign BuilderProps WholeModel WholeProofs WholeProps.
From Verif Require Import AmountSpec AmountProofs.
From Coq Require Import ZifyBool ZifyNat ZifyN.

(** C137 is false: whatever the lock time, every transaction the builder builds can go into every block, as the inputs get the
    sequence number that switches the lock time off. *)
Theorem C137_never_held_back_refuted : forall Hash160 sha256 DS prvkey PubKeyBytes EcdsaSign b t, BuildTransaction Hash160 sha256 DS prvkey PubKeyBytes EcdsaSign b = Ok t ->
  tx_locktime t = b_lockTime prvkey b /\ forall height time, final_at t height time.
Proof. intros Hash160 sha256 DS prvkey PubKeyBytes EcdsaSign b t E. destruct (built_sequences _ _ _ _ _ _ _ _ E) as (S & _ & K). split; [exact K|]. intros. do 3 right. exact S. Qed.
Print Assumptions C137_never_held_back_refuted.
Theorem C137_lock_time_refuted : exists cs b t, do_calls Z cs (NewTransactionBuilder Z) = Ok b /\ toy_build b = Ok t /\ said_lock Z cs = 600000 /\ tx_locktime t = 600000 /\ final_at t 1 1.
Proof.
  exists (ex_calls ++ [CLock Z 600000]). assert (E : built (ex_calls ++ [CLock Z 600000]) tx_locktime = Ok 600000) by (vm_compute; reflexivity). apply built_ok in E. destruct E as (b & t & E1 & E2 & E3). exists b, t.
  split; [exact E1|]. split; [exact E2|]. split; [reflexivity|]. split; [exact E3|]. apply (C137_never_held_back_refuted _ _ _ _ _ _ _ _ E2).
Qed.
Print Assumptions C137_lock_time_refuted.
(** C137: with another sequence number put into any one input before signing, the transaction is held back exactly until its lock
    time, and still verifies. *)
Theorem C137_lock_time_partial : forall Hash160 sha256 DS prvkey PubKeyBytes EcdsaSign EcdsaVerify c ht kss n s t i t2,
  scheme_ok prvkey PubKeyBytes EcdsaSign EcdsaVerify -> hashes_ok Hash160 sha256 -> 0 <= ht < 256 -> Forall2 (signers Hash160 sha256 prvkey PubKeyBytes c) kss (tx_ins t) ->
  nth_error (tx_ins t) n = Some i -> s <> 0xffffffff -> tx_locktime t <> 0 ->
  sign_each sha256 prvkey PubKeyBytes EcdsaSign DS c ht 0 kss (resequenced n s t) = Ok t2 ->
  Verify Hash160 DS EcdsaVerify t2 = Ok tt /\ forall height time, final_at t2 height time <-> if tx_locktime t <? 500000000 then tx_locktime t < height else tx_locktime t < time.
Proof.
  intros Hash160 sha256 DS prvkey PubKeyBytes EcdsaSign EcdsaVerify c ht kss n s t i t2 Sc Hs R F Hi Ns Nl E. split.
  - exact (signed_verifies _ _ _ _ _ _ _ c ht kss _ t2 Sc Hs R (resequenced_signers _ _ _ _ c kss n s t F) E).
  - intros height time. rewrite <- (resequenced_held n s t height time i Hi Ns Nl). pose proof (each_core Hash160 _ _ _ _ _ c ht kss 0 _ _ E) as C. split; apply core_final; [exact C|now symmetry].
Qed.
Print Assumptions C137_lock_time_partial.
Definition locked_tx : transaction := MkTx 2 600000 toy_ins [MkOut 3000 [0x51]] None None None.
Example C137_example : (exists t2, toy_sign_each true 1 0 [[8]; [3]; [5; 6]; [5; 7]] (resequenced 1 0xfffffffe locked_tx) = Ok t2 /\ toy_check t2 = Ok tt /\ map ti_seq (tx_ins t2) = [0xffffffff; 0xfffffffe; 0xffffffff; 0xffffffff]) /\
  Forall2 (signers toy160 toy256 Z toy_pub true) [[8]; [3]; [5; 6]; [5; 7]] (tx_ins locked_tx).
Proof. split; [|exact toy_signers]. eexists. split; [vm_compute; reflexivity|]. split; vm_compute; reflexivity. Qed.

(** C138 is false for inputs without witness: the verdict does not depend on the amount noted, so neither does acceptance fix
    the fee. *)
Theorem C138_amount_free_refuted : forall Hash160 DS EcdsaVerify n v t i s,
  nth_error (tx_ins t) n = Some i -> ParseLockingScript (ti_rawlock i) = Ok s -> witness_version s = false -> Verify Hash160 DS EcdsaVerify (revalued n v t) = Verify Hash160 DS EcdsaVerify t.
Proof. exact amount_free. Qed.
Print Assumptions C138_amount_free_refuted.
Theorem C138_fee_refuted : exists sha256 t t', hash32 sha256 /\ WVerify sha256 t = Ok tt /\ WVerify sha256 t' = Ok tt /\ Serialize t = Serialize t' /\ Fees t = 3100 /\ Fees t' = 2100000000003100.
Proof.
  exists ex_sha, ex_signed, (revalued 1 2100000000001000 ex_signed). destruct C97_example as (Hs & F & S & _). split; [exact Hs|].
  pose proof (C97_signed_verifies ex_sha ex_hmac 1 true 1 _ _ _ Hs ltac:(lia) F S) as V. split; [exact V|].
  split; [|split; [vm_compute; reflexivity|split; vm_compute; reflexivity]].
  assert (P : exists i, nth_error (tx_ins ex_signed) 1 = Some i /\ ParseLockingScript (ti_rawlock i) = Ok (P2SH ex_rh)) by (eexists; split; [reflexivity|vm_compute; reflexivity]). destruct P as (i & Hi & Ps).
  revert V Hi. clear - Ps. generalize ex_signed. intros t V Hi. unfold WVerify in *. rewrite (C138_amount_free_refuted _ _ _ 1 2100000000001000 t i (P2SH ex_rh) Hi Ps eq_refl). exact V.
Qed.
Print Assumptions C138_fee_refuted.
(** C138: acceptance of two different amounts for a witness key hash input (the first witness input) means that one signature is
    valid for the digests of two different strings. *)
Theorem C138_amount_signed_partial : forall sha256 t n v i h ds,
  WVerify sha256 t = Ok tt -> WVerify sha256 (revalued n v t) = Ok tt -> nth_error (tx_ins t) n = Some i -> 0 <= v < 2 ^ 64 -> 0 <= ti_value i < 2 ^ 64 -> v <> ti_value i ->
  spends_p2wpkh h i -> bytes_ok h -> len h = 20 -> in_memory (ti_unlock i ++ ti_finallock i) -> script_pushing (ti_unlock i) ds -> uncached t ->
  (forall m j, m < Z.of_nat n -> index (tx_ins t) m = Ok j -> exists s, ParseLockingScript (ti_rawlock j) = Ok s /\ witness_version s = false) ->
  exists key der x y, x <> y /\ Hash160 sha256 key = h /\ signed_by_key key der (message_int (sha256 (sha256 x))) /\ signed_by_key key der (message_int (sha256 (sha256 y))).
Proof.
  intros sha256 t n v i h ds V1 V2 Hi Rv Ri Nv S O L M P U N. assert (I : index (tx_ins t) (Z.of_nat n) = Ok i) by (unfold index; replace (Z.of_nat n <? 0) with false by lia; now rewrite Nat2Z.id, Hi).
  pose proof (revalued_index n v t i Hi) as J.
  destruct (C98_p2wpkh_spend_partial sha256 t (Z.of_nat n) i h ds V1 I S O L M P U N) as (items & der & ht & key & dg & Ed & Hk & (t1 & W) & Sg & _).
  destruct (C98_p2wpkh_spend_partial sha256 (revalued n v t) (Z.of_nat n) (new_value v i) h ds V2 J S O L M P U) as (items' & der' & ht' & key' & dg' & Ed' & Hk' & (t1' & W') & Sg' & _).
  { intros m j Hm Hj. rewrite <- (index_rel n m t _ (revalued_rel n v t)) in Hj by lia. exact (N m j Hm Hj). }
  assert (Q : der = der' /\ ht = ht' /\ key = key').
  { rewrite Ed in Ed'. change [der ++ [ht]; key] with ([der ++ [ht]] ++ [key]) in Ed'. change [der' ++ [ht']; key'] with ([der' ++ [ht']] ++ [key']) in Ed'. rewrite !app_assoc in Ed'. apply app_inj_tail in Ed'. destruct Ed' as [E1 E2].
    apply app_inj_tail in E1. destruct E1 as [_ E3]. apply app_inj_tail in E3. tauto. }
  destruct Q as (<- & <- & <-). destruct (witness_digest_amount (Hash160 sha256) _ sigVerifyFn n v t i ht dg dg' t1 t1' Hi Rv Ri Nv W W') as (x & y & Nx & -> & ->). exists key, der, x, y. auto.
Qed.
Print Assumptions C138_amount_signed_partial.
(** The hypotheses hold for the third input of the transaction of C97, under the example hash, for which the two strings collide. *)
Example C138_example : exists i s key, WVerify ex_sha ex_signed = Ok tt /\ WVerify ex_sha (revalued 2 2001 ex_signed) = Ok tt /\ nth_error (tx_ins ex_signed) 2 = Some i /\ ti_value i = 2000 /\ spends_p2wpkh ex_h i /\
  AllInstructions (ti_unlock i) = Ok [Instr 71 s; Instr 33 key] /\ uncached ex_unsigned.
Proof.
  destruct C97_example as (Hs & F & S & _). pose proof (C97_signed_verifies ex_sha ex_hmac 1 true 1 _ _ _ Hs ltac:(lia) F S) as V.
  assert (F2 : Forall2 (signers (Hash160 ex_sha) ex_sha prvkey PubKeyBytes true) [[ex_key]; [ex_key]; [ex_key]] (tx_ins (revalued 2 2001 ex_unsigned))).
  { inversion F as [|? ? ? ? F1 Fr]; subst. inversion Fr as [|? ? ? ? Fb Fs]; subst. inversion Fs as [|? ? ? ? Fc Fn]; subst. constructor; [exact F1|]. constructor; [exact Fb|]. constructor; [|constructor]. assert (E1 : Hash160 ex_sha (PubKeyBytes ex_key true) = ex_h) by (vm_compute; reflexivity). apply can_p2wpkh. rewrite E1. repeat split. }
  assert (S2 : sign_each ex_sha prvkey PubKeyBytes (SignHash ex_hmac 1) (DoubleSha256 ex_sha) true 1 0 [[ex_key]; [ex_key]; [ex_key]] (revalued 2 2001 ex_unsigned) = Ok (revalued 2 2001 ex_signed)) by (vm_compute; reflexivity).
  pose proof (C97_signed_verifies ex_sha ex_hmac 1 true 1 _ _ _ Hs ltac:(lia) F2 S2) as V2.
  do 3 eexists. split; [exact V|]. split; [exact V2|]. split; [reflexivity|]. split; [reflexivity|]. split; [repeat split|]. split; [vm_compute; reflexivity|]. repeat split.
Qed.
