(** C130: what a relay can change in a signed transaction. *)
From Verif Require Import GoBase BaseLemmas SecpSpec EcdsaModel EcdsaSpec EcdsaProps PubKeyModel DerModel DerSpec DerProps BufferModel ScriptModel ScriptSpec ScriptProofs LockModel LockSpec LockProofs VmModel VmSpec VmMore
  TxModel TxSpec TxProofs TxProps TxSignSpec TxSign TxSign2 TxSign3 TxSignProps WholeModel WholeProofs WholeProps MallSpec MallProofs.
From Coq Require Import ZifyBool ZifyNat ZifyN.
Local Open Scope Z_scope.

(** C130: if every input spends a witness output, the identifier does not depend on signatures, unlocking scripts and
    witnesses at all. *)
Theorem C130_witness_ids_partial : forall t t', core t = core t' -> Forall is_witness (tx_ins t) -> SerializeNoWitness t' = SerializeNoWitness t.
Proof.
  intros t t' C W. unfold core in C. injection C as V K I O. unfold SerializeNoWitness. rewrite V, K, O.
  assert (L : len (tx_ins t') = len (tx_ins t)) by (apply (f_equal (@length _)) in I; rewrite !map_length in I; unfold len; lia). rewrite L.
  assert (F : forall ins ins' b, map blank ins = map blank ins' -> Forall is_witness ins -> fold_left write_in ins' b = fold_left write_in ins b).
  { clear. induction ins as [|i ins IH]; intros [|j js] b E F; try discriminate; [reflexivity|]. cbn [map] in E. inversion F as [|? ? Wi Wl]; subst. cbn [fold_left].
    assert (B : blank i = blank j) by congruence. assert (Es : map blank ins = map blank js) by congruence. rewrite (IH js _ Es Wl). f_equal.
    unfold is_witness in Wi. unfold write_in, in_has_witness. assert (C : ti_code i = ti_code j) by (unfold blank in B; congruence). rewrite <- C. destruct (ti_code i); [|congruence].
    unfold blank in B. assert (ti_hash i = ti_hash j) as -> by congruence. assert (ti_index i = ti_index j) as -> by congruence. assert (ti_seq i = ti_seq j) as -> by congruence. reflexivity. }
  rewrite (F (tx_ins t) (tx_ins t')) by assumption. reflexivity.
Qed.
Print Assumptions C130_witness_ids_partial.
Example C130_witness_example : Forall is_witness (skipn 2 (tx_ins ex_signed)) /\ map ti_unlock (skipn 2 (tx_ins ex_signed)) <> map ti_unlock (skipn 2 ex_ins) /\
  map blank (skipn 2 (tx_ins ex_signed)) = map blank (skipn 2 ex_ins).
Proof. split; [repeat constructor; discriminate|]. split; [discriminate|reflexivity]. Qed.

(** It is false of key hash outputs without witness, for every transaction that spends one.  One more push in front of
    the signature is accepted. *)
Theorem C130_extra_push_refuted : forall (Hash160 DS : bytes -> bytes) EcdsaVerify t n i h der ht key x,
  tx_ok t -> len (SerializeNoWitness t) <= 2 ^ 48 -> TxModel.Verify Hash160 DS EcdsaVerify t = Ok tt ->
  nth_error (tx_ins t) n = Some i -> spends_p2pkh h i -> bytes_ok h -> len h = 20 -> bytes_ok (ti_unlock i) -> len (ti_unlock i) <= 2 ^ 20 -> script_pushing (ti_unlock i) [der ++ [ht]; key] ->
  bytes_ok x -> 1 <= len x <= 75 -> let t' := rewritten n (len x :: x ++ ti_unlock i) t in
  TxModel.Verify Hash160 DS EcdsaVerify t' = Ok tt /\ SerializeNoWitness t' <> SerializeNoWitness t.
Proof.
  intros Hash160 DS EcdsaVerify t n i h der ht key x T L V Hn S O Lh Ou Lu P Ox Lx t'. destruct (template_mem (P2PKH h) O Lh) as [Ot Lt]. cbn [template] in Ot, Lt.
  assert (Lq : len (p2pkh_script h) = 25) by (unfold p2pkh_script; rewrite !len_app, Lh; reflexivity).
  assert (Oe : bytes_ok (len x :: x ++ ti_unlock i)) by (constructor; [unfold is_byte; lia|]; apply bytes_ok_app; auto).
  assert (Le : len (len x :: x ++ ti_unlock i) = 1 + len x + len (ti_unlock i)) by (rewrite len_cons, len_app; lia).
  assert (M : in_memory (ti_unlock i ++ p2pkh_script h)) by (split; [apply bytes_ok_app; auto|rewrite len_app, Lq; lia]).
  assert (M' : in_memory ((len x :: x ++ ti_unlock i) ++ p2pkh_script h)) by (split; [apply bytes_ok_app; auto|rewrite len_app, Le, Lq; lia]).
  assert (P' : script_pushing (len x :: x ++ ti_unlock i) ([x] ++ [der ++ [ht]; key])).
  { destruct P as (is & So & Pu). exists (Instr (len x) x :: is). split; [apply (so_cons (Instr (len x) x) (len x :: x) is (ti_unlock i)); [constructor; lia|exact So]|]. constructor; [constructor; lia|exact Pu]. }
  split.
  - apply (verify_rewritten Hash160 DS EcdsaVerify n _ t i Hn); [|exact V]. apply (p2pkh_stands Hash160 DS EcdsaVerify i h _ der der ht key [x] S O Lh M M' P P'); [reflexivity|auto].
  - apply (other_id n _ t i T L Hn); [apply S|unfold fits_memory; rewrite Le; lia|]. intros E. apply (f_equal len) in E. rewrite Le in E. lia.
Qed.
Print Assumptions C130_extra_push_refuted.

(** And with the program's own signatures, the signature [(r, s)] can be replaced by [(r, N - s)] (C91). *)
Lemma negated_accepted h der der' key r s : SigDeserialize der = Ok (r, s) -> SigDeserialize der' = Ok (r, order_n - s) -> bytes_ok der' ->
  sigVerifyFn h der key = Ok tt -> sigVerifyFn h der' key = Ok tt.
Proof.
  intros D D' O V. destruct (verifier_inv _ _ _ V) as (Oh & Od & Ok_ & x & y & r0 & s0 & Pk & G & _ & _). unfold sigVerifyFn in *.
  rewrite (proj2 (is_bytes_ok h) Oh), (proj2 (is_bytes_ok der') O), (proj2 (is_bytes_ok key) Ok_) in *. rewrite (proj2 (is_bytes_ok der) Od) in V. cbn [andb] in *. rewrite Pk in *. cbn [rbind fst snd] in *.
  unfold DerModel.EcdsaVerify in *. rewrite D in V. rewrite D'. cbn [rbind] in *. pose proof (C91_malleable (Some (x, y)) h r s G Oh) as X. cbn [px py] in X. rewrite X. exact V.
Qed.
Theorem C130_negated_refuted : forall sha256 t n i h der ht key r s,
  tx_ok t -> len (SerializeNoWitness t) <= 2 ^ 48 -> WVerify sha256 t = Ok tt ->
  nth_error (tx_ins t) n = Some i -> spends_p2pkh h i -> bytes_ok h -> len h = 20 -> bytes_ok (ti_unlock i) -> len (ti_unlock i) <= 2 ^ 20 -> script_pushing (ti_unlock i) [der ++ [ht]; key] ->
  is_byte ht -> SigDeserialize der = Ok (r, s) ->
  exists der' u, der_sig der' r (order_n - s) /\ script_pushing u [der' ++ [ht]; key] /\ WVerify sha256 (rewritten n u t) = Ok tt /\ SerializeNoWitness (rewritten n u t) <> SerializeNoWitness t.
Proof.
  intros sha256 t n i h der ht key r s T L V Hn S O Lh Ou Lu P Ht D. destruct (template_mem (P2PKH h) O Lh) as [Ot Lt]. cbn [template] in Ot, Lt.
  assert (Lq : len (p2pkh_script h) = 25) by (unfold p2pkh_script; rewrite !len_app, Lh; reflexivity).
  assert (M : in_memory (ti_unlock i ++ p2pkh_script h)) by (split; [apply bytes_ok_app; auto|rewrite len_app, Lq; lia]).
  assert (Hi : index (tx_ins t) (Z.of_nat n) = Ok i) by (unfold index; replace (Z.of_nat n <? 0) with false by lia; now rewrite Nat2Z.id, Hn).
  destruct (verify_nth (Hash160 sha256) (DoubleSha256 sha256) sigVerifyFn t (Z.of_nat n) i V Hi) as (t1 & _ & Vi & _).
  assert (Ps : ParseLockingScript (ti_rawlock i) = Ok (P2PKH h)) by (destruct S as (-> & _ & _); exact (parse_of (P2PKH h) O Lh)).
  destruct (verified_pkh (Hash160 sha256) (DoubleSha256 sha256) sigVerifyFn _ i t1 h _ _ Ps (proj1 (proj2 S)) Lh M P Vi) as (items & d & ht' & k & dg & Ei & Hk & Dg & Vd).
  assert (X : d = der /\ k = key).
  { destruct items as [|x [|y [|z items]]]; cbn [app] in Ei.
    - assert (E1 : der ++ [ht] = d ++ [ht']) by congruence. apply app_inj_tail in E1. destruct E1 as [-> _]. split; [reflexivity|congruence].
    - discriminate.
    - discriminate.
    - apply (f_equal (@length _)) in Ei. cbn [length] in Ei. rewrite app_length in Ei. cbn [length] in Ei. lia. }
  destruct X as (-> & ->). clear Hk Dg Ei. destruct (verifier_inv _ _ _ Vd) as (_ & _ & _ & x & y & r0 & s0 & _ & _ & D0 & Br & Bs & _).
  assert (r0 = r) as -> by congruence. assert (s0 = s) as -> by congruence.
  assert (Hr : - 256 ^ 32 <= r < 256 ^ 32) by (unfold order_n in Br; clear -Br; lia). assert (Hs : - 256 ^ 32 <= order_n - s < 256 ^ 32) by (unfold order_n in Bs |- *; clear -Bs; lia).
  destruct (C71_der_encode r (order_n - s) 32 ltac:(lia) Hr Hs) as (der' & Es & Od & Ds & _). pose proof (C71_der_roundtrip r (order_n - s) 32 der' ltac:(lia) Hr Hs Es) as D'.
  pose proof (der_sig_len _ _ _ Ds Od Hr Hs) as Ld.
  assert (Pd : pushable (der' ++ [ht])).
  { assert (Ll : len (der' ++ [ht]) = len der' + 1) by (rewrite len_app; reflexivity). split; [apply bytes_ok_app; split; [exact Od|constructor; [exact Ht|constructor]]|]. split; [lia|].
    split; intros E; rewrite E in Ll; unfold len at 1 in Ll; cbn [length] in Ll; lia. }
  destruct (add_item _ NewScriptBuilder Pd) as (j & e & _ & Oe & Le & En & Pj). destruct P as (is & So & Pu). inversion Pu as [|i1 ? l1 ? P1 Pu1]; subst. inversion Pu1 as [|i2 ? l2 ? P2 Pu2]; subst. inversion Pu2; subst.
  inversion So as [|? e1 ? d1 En1 So1]; subst. assert (Ed : e1 ++ d1 = ti_unlock i) by congruence.
  assert (Ou1 : bytes_ok d1 /\ len d1 <= 2 ^ 20) by (rewrite <- Ed in Ou, Lu; apply bytes_ok_app in Ou; rewrite len_app in Lu; pose proof (len_nonneg e1); split; [tauto|lia]). destruct Ou1 as [Ou1 Lu1].
  assert (P' : script_pushing (e ++ d1) ([] ++ [der' ++ [ht]; key])) by (exists [j; i2]; split; [now apply so_cons|repeat constructor; assumption]).
  assert (Lll : len (der' ++ [ht]) = len der' + 1) by (rewrite len_app; reflexivity).
  assert (M' : in_memory ((e ++ d1) ++ p2pkh_script h)) by (split; [rewrite !bytes_ok_app; auto|rewrite !len_app, Lq; lia]).
  assert (P0 : script_pushing (ti_unlock i) [der ++ [ht]; key]) by (exists [i1; i2]; split; [exact So|exact Pu]).
  exists der', (e ++ d1). split; [exact Ds|]. split; [exact P'|]. split.
  - unfold WVerify in *. apply (verify_rewritten _ _ sigVerifyFn n _ t i Hn); [|exact V].
    apply (p2pkh_stands _ _ sigVerifyFn i h _ der der' ht key [] S O Lh M M' P0 P'); [unfold len; cbn [length]; lia|]. intros g. now apply (negated_accepted g der der' key r s).
  - apply (other_id n _ t i T L Hn); [apply S|unfold fits_memory; rewrite len_app; lia|]. intros E.
    assert (Mu : in_memory (ti_unlock i)) by (split; [exact Ou|lia]). rewrite E in P'. pose proof (pushing_unique (fun x => x) sigVerifyFn _ _ _ Mu P0 P') as Q. cbn [app] in Q.
    assert (Q1 : der ++ [ht] = der' ++ [ht]) by congruence. apply app_inj_tail in Q1. destruct Q1 as [Q1 _]. rewrite Q1, D' in D. assert (order_n - s = s) by congruence.
    assert (Odd : order_n = 2 * s) by lia. unfold order_n in Odd. clear -Odd. lia.
Qed.
Print Assumptions C130_negated_refuted.
(** The signed transaction of C97. *)
Example C130_example : exists i der key r s, tx_ok ex_signed /\ len (SerializeNoWitness ex_signed) <= 2 ^ 48 /\ WVerify ex_sha ex_signed = Ok tt /\ nth_error (tx_ins ex_signed) 0 = Some i /\ spends_p2pkh ex_h i /\
  bytes_ok ex_h /\ len ex_h = 20 /\ bytes_ok (ti_unlock i) /\ len (ti_unlock i) <= 2 ^ 20 /\ script_pushing (ti_unlock i) [der ++ [1]; key] /\ SigDeserialize der = Ok (r, s) /\ ~ is_witness i.
Proof.
  destruct C97_example as (Hs & Sg & E & _). eexists _, (firstn 70 (skipn 1 (ti_unlock (hd ex_in (tx_ins ex_signed))))), (skipn 73 (ti_unlock (hd ex_in (tx_ins ex_signed)))), _, _. split; [tx_ok_tac|].
  split; [vm_compute; discriminate|]. split; [exact (C97_signed_verifies ex_sha ex_hmac 1 true 1 _ ex_unsigned ex_signed Hs ltac:(lia) Sg E)|]. split; [reflexivity|]. split; [repeat split|].
  split; [bytes_ok_tac|]. split; [reflexivity|]. split; [bytes_ok_tac|]. split; [vm_compute; discriminate|]. split.
  - exists [Instr 71 (firstn 71 (skipn 1 (ti_unlock (hd ex_in (tx_ins ex_signed))))); Instr 33 (skipn 73 (ti_unlock (hd ex_in (tx_ins ex_signed))))]. split.
    + apply (so_cons (Instr 71 _) (firstn 72 (ti_unlock (hd ex_in (tx_ins ex_signed)))) [Instr 33 _] (skipn 72 (ti_unlock (hd ex_in (tx_ins ex_signed))))); [apply enc_direct; [lia|reflexivity]|].
      apply (so_cons (Instr 33 _) (skipn 72 (ti_unlock (hd ex_in (tx_ins ex_signed)))) [] []); [apply enc_direct; [lia|reflexivity]|constructor].
    + apply Forall2_cons; [apply (push_data 71); lia|]. apply Forall2_cons; [apply (push_data 33); lia|constructor].
  - split; [vm_compute; reflexivity|]. intros H. apply H. reflexivity.
Qed.
