(** Transactions signed elsewhere and the rules of the network. *)
From Verif Require Import GoBase BaseLemmas BufferModel Codec SecpModel SecpSpec EcdsaModel EcdsaSpec PubKeyModel DerModel DerSpec ScriptNumModel
  ScriptModel LockModel LockSpec LockProofs VmSpec VmProofs TxModel TxSpec TxProofs TxSig TxSignSpec TxSign TxSign2 TxSign3 WholeModel WholeProofs EmbedProofs.
From Verif Require PubKeySpec.
From Verif Require Import NetSpec NetProofs.
From Coq Require Import ZifyBool ZifyNat ZifyN.

Section Joint.
Variable sha256 : bytes -> bytes.
Hypothesis Hs : hash32 sha256.
Notation DS := (DoubleSha256 sha256).
Notation h160 := (Hash160 sha256).
Notation digest := (sigHashFn DS).
Notation spends := (net_spends sha256 h160).
Notation done := (done sha256).

(** A key, and a signature of the hash of input [idx] of [t], that the network takes as such. *)
Definition joint_input (t : transaction) (idx : Z) (i : TxIn) (key der : bytes) : Prop :=
  exists w h, (if w : bool then spends_p2wpkh (h160 key) i else spends_p2pkh (h160 key) i /\ ti_redeem i = None) /\
    to_sign DS t idx 1 w h /\ net_sig true h key (der ++ [1]) /\ 1 <= len der <= 100 /\ len key = 33.

Lemma weak_sig dg key sig : net_sig true dg key sig -> net_sig false dg key sig.
Proof. intros [S R]. split; [|exact R]. destruct S as [S|[S _]]; [now left|discriminate]. Qed.

Lemma push_len d : len (shortest_push d) <= len d + 3.
Proof. unfold shortest_push. rewrite len_app. destruct (len d <=? 75); [change (len [len d]) with 1; lia|]. destruct (len d <=? 255); [change (len [76; len d]) with 2; lia|]. rewrite len_cons, le_eq. unfold len at 1. rewrite ?le_length, ?bytes_le_length, ?length_le. cbn. lia. Qed.
Lemma embed_net n key der t0 t i : uncached t0 -> tx_ok t0 -> same DS 1 t0 t -> nth_error (tx_ins t) n = Some i -> joint_input t0 (Z.of_nat n) i key der ->
  exists t', EmbedIdxEcdsaSignature sha256 (Z.of_nat n) key der 1 t = Ok t' /\ same DS 1 t t' /\
    (forall m, m <> n -> nth_error (tx_ins t') m = nth_error (tx_ins t) m) /\ exists i', nth_error (tx_ins t') n = Some i' /\ done t0 n i' /\ (in_ok i -> in_ok i').
Proof.
  intros U0 T0 S0 Hn (w & dg & Sp & Ts & Sg & Ld & Lk). apply to_sign_digest in Ts. destruct (hashes sha256 Hs) as [H1 _]. pose proof (H1 key) as [Oh Lh]. set (h := h160 key) in *.
  assert (Hi : index (tx_ins t) (Z.of_nat n) = Ok i) by (unfold index; replace (Z.of_nat n <? 0) with false by lia; now rewrite Nat2Z.id, Hn).
  destruct (core_index t t0 _ i (eq_sym (proj1 S0)) Hi) as (i0 & Hi0 & B0). destruct (index_nth _ _ _ Hi0) as (m0 & Em & Hn0). assert (m0 = n) by lia. subst m0. clear Em.
  assert (Q : ti_code i0 = ti_code i /\ ti_value i0 = ti_value i /\ ti_redeem i0 = ti_redeem i /\ ti_finallock i0 = ti_finallock i /\ ti_hash i0 = ti_hash i /\ ti_index i0 = ti_index i /\ ti_seq i0 = ti_seq i) by (unfold blank in B0; repeat split; congruence). destruct Q as (Q1 & Q2 & Q3 & Q4 & Q5 & Q6 & Q7).
  set (s := if w then P2WPKH h else P2PKH h).
  assert (Raw : ti_rawlock i = template s) by (destruct w; apply Sp). assert (Fin : ti_finallock i = p2pkh_script h) by (destruct w; apply Sp).
  assert (Os : bytes_ok (obj_hash s) /\ len (obj_hash s) = obj_len s) by (destruct w; auto). destruct Os as (Os & Ls).
  set (sig := der ++ [1]) in *. assert (Lsg : 2 <= len sig <= 101) by (unfold sig; rewrite len_app; change (len [1]) with 1; lia).
  set (u := shortest_push sig ++ shortest_push key).
  assert (Eu : Script (AddData key (AddData sig NewScriptBuilder)) = u) by (rewrite !push_exact by lia; reflexivity).
  set (ws := if w then [sig; key] else []).
  assert (Em : EmbedIdxEcdsaSignature sha256 (Z.of_nat n) key der 1 t = Ok (set_in (Z.of_nat n) (fun i => with_witness ws (with_unlock u i)) t)).
  { unfold EmbedIdxEcdsaSignature. change (u8 1) with 1. apply (embed_spec sha256 (Z.of_nat n) [PKS key sig] t i s u ws Hi Raw Os Ls); [reflexivity| |]; destruct w; try reflexivity; cbn [s GetRawUnlockingScriptBytes]; rewrite <- Eu; reflexivity. }
  eexists. split; [exact Em|]. split; [apply set_in_same; reflexivity|]. split.
  { intros m Nm. pose proof (index_set_other (Z.of_nat n) (Z.of_nat m) (fun i => with_witness ws (with_unlock u i)) t ltac:(lia) ltac:(lia)) as X. unfold index in X. replace (Z.of_nat m <? 0) with false in X by lia. rewrite Nat2Z.id in X. destruct (nth_error (tx_ins t) m), (nth_error (tx_ins (set_in _ _ t)) m); congruence. }
  pose proof (index_set_in (Z.of_nat n) (fun i => with_witness ws (with_unlock u i)) t i Hi) as Hi'. destruct (index_nth _ _ _ Hi') as (m0 & Em0 & Hn'). assert (m0 = n) by lia. subst m0.
  assert (Lu : len u <= 150) by (unfold u; rewrite len_app; pose proof (push_len sig); pose proof (push_len key); lia).
  eexists. split; [exact Hn'|]. split.
  2: { intros (I1 & I2 & I3 & I4 & _). unfold in_ok, with_witness, with_unlock, fits_memory. cbn [ti_hash ti_index ti_seq ti_unlock ti_witness ti_value]. repeat (split; [first [assumption|lia]|]). destruct w; subst ws.
    - split; [vm_compute; discriminate|]. repeat constructor; lia.
    - split; [vm_compute; discriminate|]. constructor. }
  unfold done, sent_in, with_witness, with_unlock, script_sig. cbn [ti_hash ti_index ti_seq ti_unlock ti_witness ti_code ti_value ti_rawlock].
  pose proof (template_mem (P2PKH h) Oh Lh) as [Bm Lm]. cbn [template] in Bm, Lm.
  destruct w; cbn [s template] in Raw; subst ws.
  - destruct Sp as (_ & _ & Cd). rewrite Cd. split; [|split; discriminate]. rewrite (new_is sha256 t0 n i0 Hn0) in Ts; [| |apply T0|exact U0].
    2: { unfold v0_code_ok, fits_memory. rewrite Q1, Cd. cbn [nilb]. lia. }
    apply (net_p2wpkh _ _ _ _ _ _ _ sig key); [exact Raw|reflexivity|reflexivity|]. assert (Ed : dg = new_digest sha256 (sent_in i0) (nilb (ti_code i0)) (ti_value i0) (sent t0)) by congruence. rewrite Ed in Sg. rewrite Q1, Cd, Q2 in Sg. cbn [nilb] in Sg.
    unfold new_digest, outpoint, sent_in in *. cbn [n_prev n_index n_seq] in *. rewrite Q5, Q6, Q7 in Sg. exact Sg.
  - destruct Sp as ((_ & _ & Cd) & Rn). rewrite Cd. split; [|tauto]. rewrite (old_is sha256 t0 n i0 T0 Hn0) in Ts.
    2: { unfold code_ok, script_code. rewrite Q3, Rn, Q4, Fin. split; assumption. }
    apply (net_p2pkh _ _ _ _ _ _ _ sig key); [exact Raw|reflexivity|reflexivity|]. apply weak_sig. assert (Ed : dg = old_digest sha256 n (script_code i0) (sent t0)) by congruence. rewrite Ed in Sg. unfold script_code in Sg. rewrite Q3, Rn, Q4, Fin in Sg. rewrite Raw. exact Sg.
Qed.

Lemma embed_each_net t0 : uncached t0 -> tx_ok t0 -> forall l n t, same DS 1 t0 t ->
  (forall m key der, nth_error l m = Some (key, der) -> exists i, nth_error (tx_ins t) (n + m) = Some i /\ joint_input t0 (Z.of_nat (n + m)) i key der /\ in_ok i) ->
  (forall m, (m < n)%nat -> exists i, nth_error (tx_ins t) m = Some i /\ done t0 m i /\ in_ok i) ->
  exists t', embed_each sha256 1 (Z.of_nat n) l t = Ok t' /\ same DS 1 t0 t' /\ forall m, (m < n + length l)%nat -> exists i, nth_error (tx_ins t') m = Some i /\ done t0 m i /\ in_ok i.
Proof.
  intros U0 T0. induction l as [|[key der] l IH]; intros n t S0 F A; cbn [embed_each].
  - exists t. split; [reflexivity|]. split; [exact S0|]. intros m Hm. apply A. cbn [length] in Hm. lia.
  - destruct (F 0%nat key der eq_refl) as (i & Hi & Fi & Ki). rewrite Nat.add_0_r in Hi, Fi.
    destruct (embed_net n key der t0 t i U0 T0 S0 Hi Fi) as (t1 & E1 & S1 & O1 & i1 & Hi1 & A1 & K1). rewrite E1. cbn [rbind].
    destruct (IH (S n) t1) as (t' & E & S' & A'); [eapply same_trans; eauto| | |].
    + intros m k d Hm. destruct (F (S m) k d Hm) as (j & Hj & Fj & Kj). replace (n + S m)%nat with (S n + m)%nat in Hj, Fj by lia. exists j. split; [|now split]. rewrite O1 by lia. exact Hj.
    + intros m Hm. destruct (Nat.eq_dec m n) as [->|Nm]; [exists i1; auto|]. destruct (A m ltac:(lia)) as (j & Hj & Aj). exists j. rewrite O1 by exact Nm. auto.
    + exists t'. replace (Z.of_nat n + 1) with (Z.of_nat (S n)) by lia. split; [exact E|]. split; [exact S'|]. intros m Hm. apply A'. cbn [length] in Hm. lia.
Qed.

Lemma joint_taken l t t' : uncached t -> tx_ok t -> tx_ins t <> [] -> asked DS 1 t t' -> length l = length (tx_ins t) ->
  (forall n i key der, nth_error (tx_ins t) n = Some i -> nth_error l n = Some (key, der) -> exists tn, asked DS 1 t tn /\ joint_input tn (Z.of_nat n) i key der) ->
  exists t2, embed_each sha256 1 0 l t' = Ok t2 /\ core t2 = core t /\ net_accepts sha256 h160 (sent t2) (spent_outputs t) /\ Serialize t2 = net_bytes (sent t2).
Proof.
  intros U T Ne Ask L F. destruct (asked_same DS 1 t t' Ask) as [S0 I0]. set (t0 := blanked t). pose proof (blanked_same sha256 t U) as Sm. fold t0 in Sm.
  assert (T0 : tx_ok t0) by (apply (blanked_ok t t); [reflexivity|exact T]).
  destruct (embed_each_net t0 ltac:(repeat split) T0 l 0%nat t') as (t2 & E & S2 & Al); [eapply same_trans; eauto| |intros; lia|].
  { intros m key der Hm. cbn [Nat.add]. rewrite I0. destruct (nth_error (tx_ins t) m) as [i|] eqn:Ni; [|exfalso; apply nth_error_None in Ni; assert (Q : nth_error l m <> None) by congruence; apply nth_error_Some in Q; lia].
    exists i. split; [reflexivity|]. destruct (F m i key der Ni Hm) as (tn & An & (w & h & Sp & Ts & Rest)). split; [|destruct T as (_ & _ & _ & _ & Ti & _); rewrite Forall_forall in Ti; apply Ti; eapply nth_error_In; eauto]. exists w, h. split; [exact Sp|]. split; [|exact Rest].
    apply to_sign_digest in Ts. assert (Sn : same DS 1 t0 tn) by (eapply same_trans; [exact Sm|exact (proj1 (asked_same _ _ _ _ An))]). rewrite <- (same_digest DS 1 _ w t0 tn Sn) in Ts. unfold sigHashFn in Ts.
    destruct w; [|now constructor]. apply rbind_ok in Ts. destruct Ts as ((h' & t1) & E1 & E2). injection E2 as ->. econstructor. exact E1. }
  assert (Ct : core t0 = core t2) by apply S2. assert (Co : core t = core t2) by (unfold t0 in Ct; rewrite blanked_core in Ct; exact Ct).
  pose proof (len_core _ _ Co) as Lc. assert (Ll : length (tx_ins t2) = length (tx_ins t)) by (unfold len in Lc; lia). cbn [Nat.add] in Al. rewrite L, <- Ll in Al.
  assert (At : forall m i, nth_error (tx_ins t2) m = Some i -> done t0 m i). { intros m i Hm. destruct (Al m) as (j & Hj & Dj & _); [apply nth_error_Some; congruence|]. congruence. }
  assert (Ai : Forall in_ok (tx_ins t2)). { apply Forall_forall. intros i Hi. destruct (In_nth_error _ _ Hi) as (m & Hm). destruct (Al m) as (j & Hj & _ & Kj); [apply nth_error_Some; congruence|]. congruence. }
  assert (T2 : tx_ok t2). { destruct T as (V & K & Fi & Fo & _ & Ou). unfold core in Co. injection Co as Cv Ck _ Cc. unfold tx_ok, fits_memory, len in *. rewrite <- Cv, <- Ck, <- Cc, Ll. repeat (split; [assumption|]). exact Ou. }
  exists t2. split; [exact E|]. split; [now symmetry|]. split.
  2: { apply wire_is; [exact T2|]. apply Forall_forall. intros i Hi. destruct (In_nth_error _ _ Hi) as (m & Hm). apply (At m i Hm). }
  split; [|split]; unfold sent at 1, spent_outputs; cbn [n_ins].
  - destruct (tx_ins t2); [|discriminate]. destruct (tx_ins t); [congruence|discriminate].
  - now rewrite !map_length.
  - intros idx i amount lock Hi Hl. rewrite nth_error_map in Hi. destruct (nth_error (tx_ins t2) idx) as [i'|] eqn:Hi'; [|discriminate]. injection Hi as <-. rewrite nth_error_map in Hl. destruct (nth_error (tx_ins t) idx) as [i0|] eqn:Hi0; [|discriminate]. injection Hl as <- <-.
    assert (J0 : index (tx_ins t) (Z.of_nat idx) = Ok i0) by (unfold index; replace (Z.of_nat idx <? 0) with false by lia; now rewrite Nat2Z.id, Hi0). destruct (core_index t t2 _ i0 Co J0) as (j & Hj & Bj). destruct (index_nth _ _ _ Hj) as (m & Em & Hm). assert (m = idx) by lia. subst m. assert (j = i') by congruence. subst j.
    assert (ti_value i0 = ti_value i' /\ ti_rawlock i0 = ti_rawlock i') as [-> ->] by (unfold blank in Bj; split; congruence). eapply net_spends_core; [exact Ct|]. apply (At idx i' Hi').
Qed.
End Joint.
