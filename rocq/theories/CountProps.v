(** C49, C48: the size estimated from counts alone, and the list of coins to spend. *)
From Verif Require Import GoBase BaseLemmas BufferModel BufferProofs Codec LockModel TxModel TxSpec TxProofs TxSig BuilderModel BuilderMore TxProps BuilderProps.
From Coq Require Import ZifyBool ZifyNat ZifyN.

(** C49: for key-hash outputs the estimate from the counts is the estimate from the transaction, and the real size
    differs from it by one byte more for each output and by what each unlocking script and its length differ from 109. *)
Theorem C49_counts_exact_partial : forall t, tx_ok t -> Forall (fun i => ti_code i = None) (tx_ins t) -> Forall (fun o => len (to_script o) = 25) (tx_outs t) ->
  EstimateNormalSize (len (tx_ins t)) (len (tx_outs t)) = EstimateSize (tx_ins t) (tx_outs t) /\
  len (Serialize t) = EstimateNormalSize (len (tx_ins t)) (len (tx_outs t)) + len (tx_outs t) + sumZ (map over (tx_ins t)).
Proof.
  intros t T Fi Fo.
  assert (S1 : sumZ (map (fun i => if in_has_witness i then 0 else 149) (tx_ins t)) = 149 * len (tx_ins t)).
  { clear - Fi. induction Fi as [|i l H _ IH]; [reflexivity|]. cbn [map]. change (sumZ (?a :: ?r)) with (a + sumZ r). rewrite IH. unfold in_has_witness. rewrite H. unfold len. cbn [length]. lia. }
  assert (S2 : sumZ (map (fun o => 8 + len (to_script o)) (tx_outs t)) = 33 * len (tx_outs t)).
  { clear - Fo. induction Fo as [|i l H _ IH]; [reflexivity|]. cbn [map]. change (sumZ (?a :: ?r)) with (a + sumZ r). rewrite IH, H. unfold len. cbn [length]. lia. }
  assert (S3 : sumZ (map script_prefix (tx_outs t)) = len (tx_outs t)).
  { clear - Fo. induction Fo as [|i l H _ IH]; [reflexivity|]. cbn [map]. change (sumZ (?a :: ?r)) with (a + sumZ r). rewrite IH. unfold script_prefix. rewrite H. change (len (compact 25)) with 1. unfold len. cbn [length]. lia. }
  assert (S4 : existsb in_has_witness (tx_ins t) = false).
  { clear - Fi. induction Fi as [|i l H _ IH]; [reflexivity|]. cbn [existsb]. rewrite IH. unfold in_has_witness. rewrite H. reflexivity. }
  assert (Q : EstimateNormalSize (len (tx_ins t)) (len (tx_outs t)) = EstimateSize (tx_ins t) (tx_outs t)).
  { unfold EstimateNormalSize, EstimateSize. rewrite S1, S2, S4. cbv zeta.
    pose proof T as (_ & _ & Mi & Mo & _ & _). unfold fits_memory in Mi, Mo.
    assert (V : forall x, 0 <= VarIntSerializeSize x <= 9) by (intro x; unfold VarIntSerializeSize; repeat match goal with |- context [if ?c then _ else _] => destruct c end; lia).
    pose proof (V (u64 (len (tx_ins t)))). pose proof (V (u64 (len (tx_outs t)))).
    assert (0 <= len (tx_ins t)) by (unfold len; lia). assert (0 <= len (tx_outs t)) by (unfold len; lia).
    match goal with |- i64 ?a = Z.quot (?b * (4 - 1) + (?b + 0)) 4 => replace (b * (4 - 1) + (b + 0)) with (b * 4) by lia; rewrite Z.quot_mul by lia; replace a with b by lia end.
    apply i64_id. lia. }
  split; [exact Q|]. rewrite Q, (C49_size_estimate_exact_partial t T Fi), S3. reflexivity.
Qed.
Print Assumptions C49_counts_exact_partial.
(** So with the usual unlocking script of 107 bytes (a signature of 72 with its type, a key of 33) the size is what was estimated
    plus the outputs less the inputs: the estimate is short exactly when there are more outputs than inputs. *)
Theorem C49_counts_refuted : (exists t, tx_ok t /\ EstimateNormalSize (len (tx_ins t)) (len (tx_outs t)) < len (Serialize t)) /\
  forall t, tx_ok t -> Forall (fun i => ti_code i = None /\ len (ti_unlock i) = 107) (tx_ins t) -> Forall (fun o => len (to_script o) = 25) (tx_outs t) ->
  len (Serialize t) = EstimateNormalSize (len (tx_ins t)) (len (tx_outs t)) + len (tx_outs t) - len (tx_ins t).
Proof.
  assert (G : forall t, tx_ok t -> Forall (fun i => ti_code i = None /\ len (ti_unlock i) = 107) (tx_ins t) -> Forall (fun o => len (to_script o) = 25) (tx_outs t) ->
    len (Serialize t) = EstimateNormalSize (len (tx_ins t)) (len (tx_outs t)) + len (tx_outs t) - len (tx_ins t)).
  { intros t T Fi Fo. destruct (C49_counts_exact_partial t T) as [_ E]; [eapply Forall_impl; [|exact Fi]; cbn; tauto|exact Fo|].
    assert (S : sumZ (map over (tx_ins t)) = - len (tx_ins t)).
    { clear - Fi. induction Fi as [|i l [_ H] _ IH]; [reflexivity|]. cbn [map]. change (sumZ (?a :: ?r)) with (a + sumZ r). rewrite IH. unfold over. rewrite H. change (len (compact 107)) with 1. unfold len. cbn [length]. lia. }
    lia. }
  split; [|exact G].
  exists (MkTx 1 0 [MkIn (repeat 7 32) 0 5 0 [] None [] None [] [] (repeat 1 107)] [MkOut 1 (repeat 2 25); MkOut 2 (repeat 3 25)] None None None).
  split; [tx_ok_tac|vm_compute; reflexivity].
Qed.
Print Assumptions C49_counts_refuted.
Example C49_counts_example : let t := MkTx 1 0 [MkIn (repeat 7 32) 0 5 0 [] None [] None [] [] (repeat 1 107)] [MkOut 1 (repeat 2 25); MkOut 2 (repeat 3 25)] None None None in
  tx_ok t /\ len (Serialize t) = 226 /\ EstimateNormalSize 1 2 = 225.
Proof. split; [tx_ok_tac|vm_compute; repeat split]. Qed.

(** C48: the coins of a coin list are those added, in the order of the calls, whatever was added before. *)
Theorem C48_coins : forall calls b, let add b (c : bytes * Z * Z * bytes) := let '(id, n, v, s) := c in AddCoinOutput id n v s b in
  ToCoins (fold_left add calls b) = ToCoins b ++ map (fun c => let '(id, n, v, s) := c in MkCoin id n v s) calls /\
  forall k id n v s, nth_error calls k = Some (id, n, v, s) -> nth_error (ToCoins (fold_left add calls NewCoinBuilder)) k = Some (MkCoin id n v s).
Proof.
  assert (G : forall calls b, ToCoins (fold_left (fun b (c : bytes * Z * Z * bytes) => let '(id, n, v, s) := c in AddCoinOutput id n v s b) calls b) =
    ToCoins b ++ map (fun c : bytes * Z * Z * bytes => let '(id, n, v, s) := c in MkCoin id n v s) calls).
  { induction calls as [|[[[id n] v] s] calls IH]; intro b; cbn [fold_left map]; [symmetry; apply app_nil_r|]. rewrite IH. unfold ToCoins, AddCoinOutput. rewrite <- app_assoc. reflexivity. }
  intros calls b. cbv zeta. split; [apply G|]. intros k id n v s E. rewrite G. change (ToCoins NewCoinBuilder) with (@nil Coin). cbn [app]. rewrite nth_error_map, E. reflexivity.
Qed.
Print Assumptions C48_coins.
Example C48_coins_example : ToCoins (AddCoinOutput [2] 1 9 [5] (AddCoinOutput [1] 0 7 [4] NewCoinBuilder)) = [MkCoin [1] 0 7 [4]; MkCoin [2] 1 9 [5]].
Proof. reflexivity. Qed.
