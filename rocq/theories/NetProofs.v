(** What the program signs against the rules of the network. *)
From Verif Require Import GoBase BaseLemmas BufferModel Codec SecpModel SecpSpec EcdsaModel EcdsaSpec EcdsaProps PubKeyModel PubKeyProps DerModel DerSpec DerProps ScriptNumModel
  ScriptModel LockModel LockSpec LockProofs VmSpec VmProofs TxModel TxSpec TxProofs TxSig TxSignSpec TxSign TxSign2 TxSign3 WholeModel WholeProofs HexModel BuilderModel BuilderProofs.
From Verif Require PubKeySpec.
From Verif Require Import NetSpec.
From Coq Require Import ZifyBool ZifyNat ZifyN.

(** The fields that travel, and the outputs spent. *)
Definition sent_in (i : TxIn) : net_in := NIn (ti_hash i) (ti_index i) (script_sig i) (ti_seq i) (ti_witness i).
Definition sent (t : transaction) : net_tx := NTx (tx_version t) (map sent_in (tx_ins t)) (map (fun o => (to_value o, to_script o)) (tx_outs t)) (tx_locktime t).
Definition spent_outputs (t : transaction) : list (Z * bytes) := map (fun i => (ti_value i, ti_rawlock i)) (tx_ins t).

(** Scripts, byte for byte. *)
Lemma push_exact d b : 2 <= len d <= 65535 -> Script (AddData d b) = Script b ++ shortest_push d.
Proof.
  intros L. unfold Script, Bytes, AddData, shortest_push. destruct d as [|x [|y d]]; [unfold len in L; cbn [length] in L; lia..|]. set (e := x :: y :: d) in *.
  rewrite data_bytes. destruct (len e <=? 75) eqn:C1.
  - replace (len e <? 0x4c) with true by lia. rewrite data_U8, Z.add_0_l, u8_id, <- app_assoc by lia. reflexivity.
  - replace (len e <? 0x4c) with false by lia. destruct (len e <=? 255) eqn:C2.
    + replace (len e <=? 0xff) with true by lia. rewrite !data_U8, u8_id, <- !app_assoc by lia. reflexivity.
    + replace (len e <=? 0xff) with false by lia. replace (len e <=? 0xffff) with true by lia. rewrite data_U16, data_U8, <- !app_assoc. cbn [app]. do 2 f_equal.
      rewrite le_eq. unfold u32. rewrite Z.mod_small by lia. reflexivity.
Qed.
Lemma pushes_exact ds : Forall (fun d => 2 <= len d <= 65535) ds -> forall b, Script (fold_left (fun b d => AddData d b) ds b) = Script b ++ concat (map shortest_push ds).
Proof.
  induction 1 as [|d ds L F IH]; intros b; cbn [fold_left map concat]; [now rewrite app_nil_r|]. rewrite IH, push_exact by exact L. now rewrite <- app_assoc.
Qed.
Lemma number_exact n b : 0 <= n <= 20 -> exists b', AddInt64 n b = Ok b' /\ Script b' = Script b ++ small_number n.
Proof.
  intros R. unfold AddInt64, small_number. destruct (n =? 0) eqn:Z0; [eexists; split; [reflexivity|]; unfold Script, Bytes; rewrite data_U8; reflexivity|].
  destruct (n <=? 16) eqn:L.
  - replace ((n =? -1) || (1 <=? n) && true) with true by lia. eexists. split; [reflexivity|]. unfold Script, Bytes. rewrite data_U8, u8_id by lia. do 2 f_equal. lia.
  - replace ((n =? -1) || (1 <=? n) && false) with false by lia.
    assert (E : num_bytes n = Ok [n]). { assert (n = 17 \/ n = 18 \/ n = 19 \/ n = 20) as [->|[->|[->| ->]]] by lia; vm_compute; reflexivity. }
    rewrite E. cbn [rbind]. eexists. split; [reflexivity|]. unfold Script, Bytes, AddData. rewrite Z0. cbv iota. rewrite L. replace (n =? 129) with false by lia. rewrite data_bytes, data_U8, <- app_assoc. reflexivity.
Qed.
Lemma multisig_exact m pubs r : GenMultiSigScript m pubs = Ok r -> 0 <= m -> Forall (fun p => bytes_ok p /\ 2 <= len p <= 100) pubs -> len pubs <= 20 -> m <= len pubs /\ r = m_of_n m pubs.
Proof.
  unfold GenMultiSigScript. intros E Hm F L. destruct (len pubs <? m) eqn:C; [discriminate|]. pose proof (len_nonneg pubs). split; [lia|].
  destruct (number_exact m NewScriptBuilder ltac:(lia)) as (b1 & E1 & S1). rewrite E1 in E. cbn [rbind] in E.
  destruct (number_exact (len pubs) (fold_left (fun b k => AddData k b) pubs b1) ltac:(lia)) as (b2 & E2 & S2). rewrite E2 in E. cbn [rbind] in E. assert (r = Script (AddOp 0xae b2)) as -> by congruence.
  unfold AddOp, Script at 1, Bytes. rewrite data_U8. change (bdata b2) with (Script b2). rewrite S2, pushes_exact, S1.
  - change (Script NewScriptBuilder) with (@nil Z). cbn [app]. unfold m_of_n. now rewrite <- !app_assoc.
  - apply (Forall_impl _ (P := fun p => bytes_ok p /\ 2 <= len p <= 100)); [|exact F]. intros p [_ Lp]. lia.
Qed.

(** Digests. *)
Lemma blank_sent i j : blank i = blank j -> outpoint (sent_in i) = outpoint (sent_in j) /\ n_seq (sent_in i) = n_seq (sent_in j).
Proof. unfold blank, outpoint, sent_in. cbn [n_prev n_index n_seq]. intros E. injection E as -> -> _ -> _ _ _ _. auto. Qed.
Lemma old_digest_core sha256 idx code t t' : core t = core t' -> old_digest sha256 idx code (sent t) = old_digest sha256 idx code (sent t').
Proof.
  unfold core. intros E. injection E as V K I O. unfold old_digest, sent. cbn [n_version n_ins n_outs n_lock]. rewrite V, K, O.
  assert (L : len (map sent_in (tx_ins t)) = len (map sent_in (tx_ins t'))) by (apply (f_equal len) in I; unfold len in *; rewrite !map_length in *; exact I). rewrite L.
  assert (C : only_code idx code (map sent_in (tx_ins t)) = only_code idx code (map sent_in (tx_ins t'))).
  { clear - I. revert idx I. generalize (tx_ins t'). induction (tx_ins t) as [|i l IH]; intros [|j l'] idx I; try discriminate; [reflexivity|]. assert (B : blank i = blank j) by (cbn [map] in I; congruence). assert (Il : map blank l = map blank l') by (cbn [map] in I; congruence).
    destruct (blank_sent i j B) as [Eo Es]. cbn [map only_code]. rewrite Eo, Es. do 3 f_equal. destruct idx as [|k]; [|now apply IH].
    clear - Il. revert l' Il. induction l as [|x l IH]; intros [|y l'] I; try discriminate; [reflexivity|]. assert (B : blank x = blank y) by (cbn [map] in I; congruence). assert (Il : map blank l = map blank l') by (cbn [map] in I; congruence).
    destruct (blank_sent x y B) as [Eo Es]. cbn [map concat]. rewrite Eo, Es. f_equal. now apply IH. }
  now rewrite C.
Qed.
Lemma new_digest_core sha256 i code amount t t' : core t = core t' -> new_digest sha256 i code amount (sent t) = new_digest sha256 i code amount (sent t').
Proof.
  unfold core. intros E. injection E as V K I O. unfold new_digest, sent. cbn [n_version n_ins n_outs n_lock]. rewrite V, K, O.
  assert (P : concat (map outpoint (map sent_in (tx_ins t))) = concat (map outpoint (map sent_in (tx_ins t'))) /\ concat (map (fun i => le 4 (n_seq i)) (map sent_in (tx_ins t))) = concat (map (fun i => le 4 (n_seq i)) (map sent_in (tx_ins t')))).
  { clear - I. revert I. generalize (tx_ins t'). induction (tx_ins t) as [|x l IH]; intros [|y l'] I; try discriminate; [auto|]. assert (B : blank x = blank y) by (cbn [map] in I; congruence). assert (Il : map blank l = map blank l') by (cbn [map] in I; congruence).
    destruct (IH _ Il) as [P1 P2]. destruct (blank_sent x y B) as [Eo Es]. cbn [map concat]. rewrite P1, P2, Eo, Es. auto. }
  destruct P as [-> ->]. reflexivity.
Qed.
Lemma net_spends_core sha256 h160 idx i a l t t' : core t = core t' -> net_spends sha256 h160 (sent t) idx i a l -> net_spends sha256 h160 (sent t') idx i a l.
Proof.
  intros C S. destruct S as [sig key A1 A2 A3 A4|sigs script A1 A2 A3 A4 A5|sig key A1 A2 A3 A4|sigs script A1 A2 A3 A4 A5].
  - apply (net_p2pkh _ _ _ _ _ _ _ sig key); auto. now rewrite <- (old_digest_core sha256 idx l t t' C).
  - apply (net_p2sh _ _ _ _ _ _ _ sigs script); auto. now rewrite <- (old_digest_core sha256 idx script t t' C).
  - apply (net_p2wpkh _ _ _ _ _ _ _ sig key); auto. now rewrite <- (new_digest_core sha256 i _ a t t' C).
  - apply (net_p2wsh _ _ _ _ _ _ _ sigs script); auto. now rewrite <- (new_digest_core sha256 i _ a t t' C).
Qed.
Lemma outs_sent t : concat (map wire_out (tx_outs t)) = concat (map net_output (n_outs (sent t))).
Proof. unfold sent. cbn [n_outs]. rewrite map_map. reflexivity. Qed.
Lemma old_ins ins : forall n k i, nth_error ins n = Some i -> all_ins (k + Z.of_nat n) k ins = only_code n (script_code i) (map sent_in ins).
Proof.
  assert (R : forall ins k idx, idx < k -> all_ins idx k ins = concat (map (fun i => outpoint i ++ prefixed [] ++ le 4 (n_seq i)) (map sent_in ins))).
  { induction ins0 as [|i ins0 IH]; intros k idx H; [reflexivity|]. cbn [all_ins map concat]. replace (k =? idx) with false by lia. rewrite (IH (k + 1) idx ltac:(lia)). unfold outpoint, sent_in. cbn [n_prev n_index n_seq]. now rewrite <- !app_assoc. }
  induction ins as [|i ins IH]; intros [|n] k j Hn; try discriminate; cbn [nth_error] in Hn; cbn [all_ins map only_code].
  - injection Hn as ->. rewrite Z.add_0_r, Z.eqb_refl, (R ins (k + 1) k ltac:(lia)). change (outpoint (sent_in j)) with (ti_hash j ++ le 4 (ti_index j)). change (n_seq (sent_in j)) with (ti_seq j). now rewrite <- !app_assoc.
  - replace (k =? k + Z.of_nat (S n)) with false by lia. replace (k + Z.of_nat (S n)) with (k + 1 + Z.of_nat n) by lia. rewrite (IH n (k + 1) j Hn). change (outpoint (sent_in i)) with (ti_hash i ++ le 4 (ti_index i)). change (n_seq (sent_in i)) with (ti_seq i). now rewrite <- !app_assoc.
Qed.
Lemma index_nth {A} (l : list A) k x : index l k = Ok x -> exists n, k = Z.of_nat n /\ nth_error l n = Some x.
Proof. intros E. pose proof (index_nonneg _ _ _ E) as R. exists (Z.to_nat k). split; [lia|]. unfold index in E. replace (k <? 0) with false in E by lia. destruct (nth_error l (Z.to_nat k)); congruence. Qed.

Section Net.
Variable sha256 : bytes -> bytes.
Variable hmac : bytes -> bytes -> bytes.
Variable fuel : nat.
Notation DS := (DoubleSha256 sha256).
Notation h160 := (Hash160 sha256).
Notation digest := (sigHashFn DS).
Notation Sign := (TxModel.SignIndex sha256 DS prvkey PubKeyBytes (SignHash hmac fuel)).
Notation spends := (net_spends sha256 h160).

Lemma old_is t n i : tx_ok t -> nth_error (tx_ins t) n = Some i -> code_ok i -> digest (Z.of_nat n) false t 1 = Ok (old_digest sha256 n (script_code i) (sent t)).
Proof.
  intros T Hn C. assert (S : signed_ok (Z.of_nat n) t). { intros j Hj. destruct (index_nth _ _ _ Hj) as (m & Em & Hm). assert (m = n) by lia. subst m. congruence. }
  unfold sigHashFn. rewrite (legacy_digest DS (Z.of_nat n) t T S). f_equal. unfold old_digest, twice, DoubleSha256, legacy_preimage. pose proof (old_ins (tx_ins t) n 0 i Hn) as Q. rewrite Z.add_0_l in Q. rewrite outs_sent, Q. unfold sent. cbn [n_version n_ins n_outs n_lock]. unfold len. rewrite !map_length. reflexivity.
Qed.
Lemma new_is t n i : nth_error (tx_ins t) n = Some i -> v0_code_ok i -> Forall out_ok (tx_outs t) -> uncached t -> digest (Z.of_nat n) true t 1 = Ok (new_digest sha256 (sent_in i) (nilb (ti_code i)) (ti_value i) (sent t)).
Proof.
  intros Hn C F U. assert (I : index (tx_ins t) (Z.of_nat n) = Ok i) by (unfold index; replace (Z.of_nat n <? 0) with false by lia; now rewrite Nat2Z.id, Hn).
  destruct (fresh_digest DS (Z.of_nat n) 1 i t I C F U ltac:(discriminate) ltac:(discriminate)) as (t' & E). unfold sigHashFn. rewrite E. cbn [rbind]. f_equal.
  unfold bip143_preimage, new_digest. change (anyone 1) with false. change (single 1) with false. change (none 1) with false. cbn [negb andb orb]. cbv iota. unfold twice, DoubleSha256, outputs_bytes. rewrite outs_sent.
  unfold prevouts_bytes, sequences_bytes, sent, outpoint, sent_in. cbn [n_version n_ins n_outs n_lock]. rewrite !map_map. cbn [n_prev n_index n_seq]. rewrite <- !app_assoc. reflexivity.
Qed.

(** Signatures. *)
Lemma signature_ok co (k : prvkey) c h der : SignHash hmac fuel k h = Ok der -> (co = true -> c = true) -> net_sig co h (PubKeyBytes k c) (der ++ [1]).
Proof.
  intros E Cc. destruct (pub_bytes k c) as (x & y & P & G & Kb & _). pose proof (PubKeySpec.parity y) as par0. assert (Py : 0 <= y mod 2 < 2) by (apply Z.mod_pos_bound; lia). destruct (pub_bytes_ok k c) as [_ Lk]. split.
  { unfold sec_form. rewrite Lk. rewrite Kb. destruct c; [left|right]; cbn [hd]; [unfold PubKeySpec.parity; split; [reflexivity|lia]|]. destruct co; [now discriminate Cc|]. auto. }
  destruct (sign_hash_inv hmac fuel k h der E) as (Hh & b & Hb & K & S). destruct (made_good _ (proj2_sig k)) as (HD & _ & MQ). rewrite P in MQ.
  unfold DerModel.EcdsaSign in S. destruct (EcdsaModel.Sign hmac fuel (fst (proj1_sig k)) h) as [[[r0 s0]| |]|] eqn:ES; try discriminate S. cbn [rbind] in S. assert (S' : SigSerialize r0 s0 = Ok der) by congruence.
  destruct (C64_sign hmac fuel _ h r0 s0 _ Hh HD ES MQ) as (V & Br & Bs). destruct (sig_bounds r0 s0 Br Bs) as [R1 R2]. destruct (C71_der_encode r0 s0 32 ltac:(lia) R1 R2) as (b' & EB & Ob & Db & _). assert (b' = der) by congruence. subst b'.
  exists x, y, r0, s0, der. split; [rewrite Kb; destruct c; constructor|]. split; [exact G|]. split; [reflexivity|]. split; [exact Db|]. split; [apply Bs|exact V].
Qed.
Lemma matched_weaken {A B} (P Q : A -> B -> Prop) l m : (forall a b, P a b -> Q a b) -> matched P l m -> matched Q l m.
Proof. intros H. induction 1; [constructor|apply m_take; auto|now apply m_skip]. Qed.

Lemma small_number_ok z : 0 <= z <= 20 -> bytes_ok (small_number z) /\ 1 <= len (small_number z) <= 2.
Proof. intros R. unfold small_number. destruct (z =? 0); [split; [repeat constructor; unfold is_byte; lia|vm_compute; split; discriminate]|]. destruct (z <=? 16) eqn:Q; (split; [repeat constructor; unfold is_byte; lia|]); split; unfold len; cbn [length]; lia. Qed.
Lemma m_of_n_ok m pubs : 0 <= m <= len pubs -> len pubs <= 20 -> Forall (fun p => bytes_ok p /\ 2 <= len p <= 100) pubs -> bytes_ok (m_of_n m pubs) /\ 3 <= len (m_of_n m pubs) <= 2100.
Proof.
  intros Rm Rp F. pose proof (small_number_ok m ltac:(lia)) as [B1 L1]. pose proof (small_number_ok (len pubs) ltac:(pose proof (len_nonneg pubs); lia)) as [B2 L2].
  assert (B : bytes_ok (concat (map shortest_push pubs)) /\ 0 <= len (concat (map shortest_push pubs)) <= 102 * len pubs).
  { clear -F. induction F as [|p ps [Bp Lp] F [IHb IHl]]; [split; [constructor|vm_compute; split; discriminate]|]. cbn [map concat]. rewrite len_app, len_cons. assert (Q : bytes_ok (shortest_push p) /\ 0 <= len (shortest_push p) <= 102).
    { unfold shortest_push. rewrite len_app. replace (len p <=? 255) with true by lia. destruct (len p <=? 75) eqn:Q; (split; [apply Forall_app; split; [repeat constructor; unfold is_byte; lia|exact Bp]|]); unfold len in *; cbn [length]; lia. }
    destruct Q as [Qb Ql]. split; [apply Forall_app; split; assumption|lia]. }
  destruct B as [B L]. unfold m_of_n. rewrite !len_app. change (len [174]) with 1. split; [|lia]. repeat (apply Forall_app; split); auto. repeat constructor; unfold is_byte; lia.
Qed.
(** Keys that spend an input within the limits of the network. *)
Inductive net_signers (c : bool) : list prvkey -> TxIn -> Prop :=
| ns_p2pkh k i : spends_p2pkh (h160 (PubKeyBytes k c)) i -> ti_redeem i = None -> net_signers c [k] i
| ns_p2wpkh k i : spends_p2wpkh (h160 (PubKeyBytes k c)) i -> c = true -> net_signers c [k] i
| ns_p2sh ks pubs r i : multisig_for prvkey PubKeyBytes c ks pubs r -> spends_p2sh h160 r i -> len pubs <= 20 -> Forall (sec_form false) pubs -> len r <= 520 -> net_signers c ks i
| ns_p2wsh ks pubs r i : multisig_for prvkey PubKeyBytes c ks pubs r -> spends_p2wsh h160 sha256 r i -> len pubs <= 20 -> Forall (sec_form true) pubs -> net_signers c ks i.
Lemma net_signers_ok c ks i : net_signers c ks i -> signers h160 sha256 prvkey PubKeyBytes c ks i.
Proof. intros [k j S _|k j S _|ks' pubs r j M S _ _ _|ks' pubs r j M S _ _]; [now apply can_p2pkh|now apply can_p2wpkh|now apply (can_p2sh _ _ _ _ _ _ pubs r)|now apply (can_p2wsh _ _ _ _ _ _ pubs r)]. Qed.
Lemma compressed_only c ks pubs r : multisig_for prvkey PubKeyBytes c ks pubs r -> Forall (sec_form true) pubs -> c = true.
Proof.
  intros (_ & Nk & M & _) F. destruct c; [reflexivity|exfalso]. revert Nk. induction M as [|k ks p ps E M IH|ks p ps M IH]; intros Nk; [congruence| |inversion F; auto].
  inversion F as [|? ? S _]; subst. destruct (pub_bytes_ok k false) as [_ L]. destruct S as [[S _]|[S _]]; [|discriminate]. lia.
Qed.
Lemma sig_len der k h : SignHash hmac fuel k h = Ok der -> 2 <= len (der ++ [1]) <= 73.
Proof. intros E. destruct (sign_hash_sizes hmac fuel k h der E) as [_ L]. rewrite len_app. change (len [1]) with 1. lia. Qed.
Lemma key_len k c : 2 <= len (PubKeyBytes k c) <= 65535.
Proof. destruct (pub_bytes_ok k c) as [_ ->]. destruct c; lia. Qed.
Lemma matched_sigs co c h ks signs pubs : Forall2 (signed_by prvkey PubKeyBytes (SignHash hmac fuel) c 1 h) ks signs -> (co = true -> c = true) ->
  matched (fun k p => p = PubKeyBytes k c) ks pubs -> matched (fun sig key => net_sig co h key sig) (map pks_sig signs) pubs.
Proof.
  intros F Cc M. revert signs F. induction M as [|k ks p ps E M IH|ks p ps M IH]; intros signs F.
  - inversion F; subst. constructor.
  - inversion F as [|? x ? signs' (_ & der & Es & Ex) F']; subst. cbn [map]. apply m_take; [|now apply IH]. rewrite Ex. change (u8 1) with 1. now apply signature_ok.
  - apply m_skip. now apply IH.
Qed.

(** One input. *)
Lemma sign_net n c ks t i t' : hash32 sha256 -> nth_error (tx_ins t) n = Some i -> net_signers c ks i -> Sign (Z.of_nat n) c 1 ks t = Ok t' ->
  forall h, digest (Z.of_nat n) (in_has_witness i) t 1 = Ok h ->
  forall t0, (in_has_witness i = false -> h = old_digest sha256 n (script_code i) (sent t0)) -> (in_has_witness i = true -> h = new_digest sha256 (sent_in i) (nilb (ti_code i)) (ti_value i) (sent t0)) ->
  exists i', index (tx_ins t') (Z.of_nat n) = Ok i' /\ blank i' = blank i /\ spends (sent t0) n (sent_in i') (ti_value i') (ti_rawlock i') /\ (ti_witness i' = [] <-> ti_code i' = None).
Proof.
  intros Hs Hn Sg E h Dh t0 Old New. assert (Hi : index (tx_ins t) (Z.of_nat n) = Ok i) by (unfold index; replace (Z.of_nat n <? 0) with false by lia; now rewrite Nat2Z.id, Hn).
  destruct (hashes sha256 Hs) as [H1 H2]. unfold TxModel.SignIndex in E. rewrite Hi in E. cbn [rbind] in E. destruct ((1 <? len ks) && _); [discriminate|].
  apply rbind_ok in E. destruct E as ((signs & t1) & El & E).
  destruct (sign_loop_spec h160 sha256 DS prvkey PubKeyBytes (SignHash hmac fuel) sigVerifyFn _ c 1 ks t i signs t1 Hi El) as (S1 & (i1 & Hi1) & _ & Sg1 & Lsg).
  assert (F : Forall2 (signed_by prvkey PubKeyBytes (SignHash hmac fuel) c 1 h) ks signs).
  { destruct Sg1 as [->|(h' & Dh' & F)]; [destruct signs; [constructor|discriminate]|]. congruence. }
  destruct (core_index t t1 _ i (proj1 S1) Hi) as (i1' & Hi1' & Bl). rewrite Hi1 in Hi1'. injection Hi1' as <-.
  assert (ti_rawlock i1 = ti_rawlock i /\ ti_redeem i1 = ti_redeem i /\ ti_finallock i1 = ti_finallock i /\ ti_code i1 = ti_code i /\ ti_value i1 = ti_value i) as (Ra & Re & Fi & Co & Va) by (unfold blank in Bl; repeat split; congruence).
  assert (Tr : ti_hash i1 = ti_hash i /\ ti_index i1 = ti_index i /\ ti_seq i1 = ti_seq i) by (unfold blank in Bl; repeat split; congruence). destruct Tr as (Th & Tx & Ts).
  unfold EmbedIdxSignature in E. rewrite Hi1 in E. cbn [rbind] in E. destruct ((1 <? len signs) && _); [discriminate|]. rewrite Ra, Re in E.
  assert (Fin : forall u w, index (tx_ins (set_in (Z.of_nat n) (fun i => with_witness w (with_unlock u i)) t1)) (Z.of_nat n) = Ok (with_witness w (with_unlock u i1))) by (intros; now apply (index_set_in _ (fun i => with_witness w (with_unlock u i)))).
  assert (Bf : forall u w, blank (with_witness w (with_unlock u i1)) = blank i) by (intros; exact Bl).
  assert (Fl : forall ks0 signs0, Forall2 (signed_by prvkey PubKeyBytes (SignHash hmac fuel) c 1 h) ks0 signs0 -> Forall (fun d => 2 <= len d <= 65535) (map pks_sig signs0)).
  { intros ks0 signs0 F0. induction F0 as [|k x ks1 signs1 (_ & der & Es & Ex) F1 IH]; [constructor|]. cbn [map]. constructor; [|exact IH]. rewrite Ex. change (u8 1) with 1. pose proof (sig_len der k h Es). lia. }
  assert (Sent : forall w, ti_code i <> None -> sent_in (with_witness w (with_unlock [] i1)) = sent_in (with_witness w (with_unlock [] i1))) by reflexivity.
  assert (Nd : forall u w code a, new_digest sha256 (sent_in (with_witness w (with_unlock u i1))) code a (sent t0) = new_digest sha256 (sent_in i) code a (sent t0)).
  { intros. unfold new_digest, outpoint, sent_in. cbn [n_prev n_index n_seq with_witness with_unlock ti_hash ti_index ti_seq]. now rewrite Th, Tx, Ts. }
  clear Sent. destruct Sg as [k i S Rn|k i S Ct|ks pubs r i M S Lp Fp Lr|ks pubs r i M S Lp Fp].
  - destruct S as (Rw & Fl0 & Cd). destruct (H1 (PubKeyBytes k c)) as [O L]. pose proof (parse_of (P2PKH (h160 (PubKeyBytes k c))) O L) as Ps. cbn [template] in Ps. rewrite <- Rw in Ps. rewrite Ps in E. cbn [rbind] in E.
    inversion F as [|? x ? signs' (Ek & der & Es & Ex) F']; subst. inversion F'; subst. cbn [GetRawUnlockingScriptBytes GetWitnessUnlockingScriptBytes rbind] in E. injection E as <-.
    eexists. split; [apply Fin|]. split; [apply Bf|]. cbn [ti_value ti_rawlock ti_code ti_witness with_witness with_unlock]. split; [|rewrite Co, Cd; tauto].
    change (u8 1) with 1 in Ex. apply (net_p2pkh _ _ _ _ _ _ _ (pks_sig x) (pks_key x)).
    + now rewrite Ra, Ek.
    + cbn [sent_in n_script]. unfold script_sig. cbn [with_witness with_unlock ti_code ti_unlock]. rewrite Co, Cd. rewrite push_exact by (rewrite Ek; apply key_len). rewrite push_exact by (rewrite Ex; pose proof (sig_len der k h Es); lia). reflexivity.
    + reflexivity.
    + rewrite Ra, Ek, Ex, Rw. rewrite <- Fl0. unfold in_has_witness in Old. rewrite Cd in Old. specialize (Old eq_refl). unfold script_code in Old. rewrite Rn in Old. rewrite <- Old. apply signature_ok; [exact Es|discriminate].
  - destruct S as (Rw & Fl0 & Cd). destruct (H1 (PubKeyBytes k c)) as [O L]. pose proof (parse_of (P2WPKH (h160 (PubKeyBytes k c))) O L) as Ps. cbn [template] in Ps. rewrite <- Rw in Ps. rewrite Ps in E. cbn [rbind] in E.
    inversion F as [|? x ? signs' (Ek & der & Es & Ex) F']; subst signs. inversion F'; subst signs'. cbn [GetRawUnlockingScriptBytes GetWitnessUnlockingScriptBytes rbind] in E. injection E as <-.
    eexists. split; [apply Fin|]. split; [apply Bf|]. cbn [ti_value ti_rawlock ti_code ti_witness with_witness with_unlock]. split; [|rewrite Co, Cd; split; discriminate].
    change (u8 1) with 1 in Ex. apply (net_p2wpkh _ _ _ _ _ _ _ (pks_sig x) (pks_key x)).
    + now rewrite Ra, Ek.
    + cbn [sent_in n_script]. unfold script_sig. cbn [with_witness with_unlock ti_code ti_unlock]. now rewrite Co, Cd.
    + reflexivity.
    + rewrite Nd, Va, Ek, Ex. unfold in_has_witness in New. rewrite Cd in New. specialize (New eq_refl). cbn [nilb] in New. rewrite <- New. apply signature_ok; [exact Es|auto].
  - destruct S as (Rw & Fl0 & Rd & Cd). destruct (H1 r) as [O L]. pose proof (parse_of (P2SH (h160 r)) O L) as Ps. cbn [template] in Ps. rewrite <- Rw in Ps. rewrite Ps in E. cbn [rbind] in E. rewrite Rd in E. cbn [nilb] in E.
    cbn [GetRawUnlockingScriptBytes GetWitnessUnlockingScriptBytes rbind] in E. injection E as <-. pose proof M as (G & Nk & Mt & Fs & _).
    destruct (multisig_exact _ _ _ G ltac:(unfold len; lia) Fs Lp) as [Lk Er].
    assert (Ns : 0 <? len signs = true) by (destruct signs; [destruct ks; [congruence|discriminate]|]; rewrite len_cons; pose proof (len_nonneg signs); lia).
    assert (Lr2 : 2 <= len r) by (rewrite Er; unfold m_of_n; rewrite !len_app; change (len [174]) with 1; assert (1 <= len (small_number (len ks))) by (unfold small_number; destruct (len ks =? 0); [vm_compute; discriminate|]; destruct (len ks <=? 16); rewrite len_cons; pose proof (len_nonneg (@nil Z)); try lia; pose proof (len_nonneg [len ks]); lia); pose proof (len_nonneg (concat (map shortest_push pubs))); pose proof (len_nonneg (small_number (len pubs))); lia).
    eexists. split; [apply Fin|]. split; [apply Bf|]. cbn [ti_value ti_rawlock ti_code ti_witness with_witness with_unlock]. split; [|rewrite Co, Cd; tauto].
    apply (net_p2sh _ _ _ _ _ _ _ (map pks_sig signs) r).
    + now rewrite Ra.
    + exact Lr.
    + cbn [sent_in n_script]. unfold script_sig. cbn [with_witness with_unlock ti_code ti_unlock]. rewrite Co, Cd. unfold p2sh_unlocking. rewrite Ns, push_exact by lia. rewrite fold_sigs, pushes_exact by (eapply Fl; exact F). reflexivity.
    + reflexivity.
    + unfold in_has_witness in Old. rewrite Cd in Old. specialize (Old eq_refl). unfold script_code in Old. rewrite Rd in Old. rewrite <- Old.
      exists (len ks), pubs. split; [exact Er|]. split; [destruct ks; [congruence|]; rewrite len_cons in *; pose proof (len_nonneg ks); lia|]. split; [exact Lp|]. split; [exact Fp|]. split; [unfold len; rewrite map_length; lia|]. eapply matched_sigs; eauto. discriminate.
  - destruct S as (Rw & Fl0 & Rd & Cd). destruct (H2 r) as [O L]. pose proof (parse_of (P2WSH (sha256 r)) O L) as Ps. cbn [template] in Ps. rewrite <- Rw in Ps. rewrite Ps in E. cbn [rbind] in E. rewrite Rd in E. cbn [nilb] in E.
    cbn [GetRawUnlockingScriptBytes GetWitnessUnlockingScriptBytes rbind] in E. rewrite list_Z_eqb_refl in E. cbn [negb rbind] in E. injection E as <-. pose proof M as (G & Nk & Mt & Fs & _).
    destruct (multisig_exact _ _ _ G ltac:(unfold len; lia) Fs Lp) as [Lk Er].
    assert (Ns : 0 <? len signs = true) by (destruct signs; [destruct ks; [congruence|discriminate]|]; rewrite len_cons; pose proof (len_nonneg signs); lia).
    eexists. split; [apply Fin|]. split; [apply Bf|]. cbn [ti_value ti_rawlock ti_code ti_witness with_witness with_unlock]. rewrite ?Ns. split; [|rewrite Co, Cd; split; discriminate].
    apply (net_p2wsh _ _ _ _ _ _ _ (map pks_sig signs) r).
    + now rewrite Ra.
    + pose proof (proj2 (m_of_n_ok (len ks) pubs ltac:(destruct ks; [congruence|]; rewrite len_cons in *; pose proof (len_nonneg ks); lia) Lp Fs)) as B. rewrite Er. lia.
    + cbn [sent_in n_script]. unfold script_sig. cbn [with_witness with_unlock ti_code ti_unlock]. now rewrite Co, Cd.
    + reflexivity.
    + rewrite Nd, Va. unfold in_has_witness in New. rewrite Cd in New. specialize (New eq_refl). cbn [nilb] in New. rewrite <- New.
      exists (len ks), pubs. split; [exact Er|]. split; [destruct ks; [congruence|]; rewrite len_cons in *; pose proof (len_nonneg ks); lia|]. split; [exact Lp|]. split; [exact Fp|]. split; [unfold len; rewrite map_length; lia|]. eapply matched_sigs; eauto. intros _. eapply compressed_only; eauto.
Qed.

Lemma net_code c ks i : hash32 sha256 -> net_signers c ks i -> if in_has_witness i then v0_code_ok i else code_ok i.
Proof.
  intros Hs S. destruct (hashes sha256 Hs) as [H1 H2]. unfold in_has_witness, v0_code_ok, code_ok, fits_memory, script_code.
  assert (P : forall h, bytes_ok h -> len h = 20 -> bytes_ok (p2pkh_script h) /\ len (p2pkh_script h) <= 2 ^ 48).
  { intros h O L. unfold p2pkh_script. split; [repeat (apply Forall_app; split); auto; repeat constructor; unfold is_byte; lia|]. rewrite !len_app, L. unfold len. cbn [length]. lia. }
  destruct S as [k i (Rw & Fl0 & Cd) Rn|k i (Rw & Fl0 & Cd) Ct|ks pubs r i (G & Nk & Mt & Fs & _) (Rw & Fl0 & Rd & Cd) Lp Fp Lr|ks pubs r i (G & Nk & Mt & Fs & _) (Rw & Fl0 & Rd & Cd) Lp Fp]; rewrite Cd.
  - rewrite Rn, Fl0. now apply P; apply H1.
  - cbn [nilb]. destruct (P (h160 (PubKeyBytes k c))) as [_ L]; [apply H1..|]. lia.
  - rewrite Rd. destruct (multisig_exact _ _ _ G ltac:(unfold len; lia) Fs Lp) as [Lk ->]. destruct (m_of_n_ok (len ks) pubs ltac:(unfold len in *; lia) Lp Fs) as [B L]. split; [exact B|lia].
  - cbn [nilb]. destruct (multisig_exact _ _ _ G ltac:(unfold len; lia) Fs Lp) as [Lk ->]. destruct (m_of_n_ok (len ks) pubs ltac:(unfold len in *; lia) Lp Fs) as [B L]. lia.
Qed.
Definition done (t0 : transaction) (n : nat) (i : TxIn) : Prop := spends (sent t0) n (sent_in i) (ti_value i) (ti_rawlock i) /\ (ti_witness i = [] <-> ti_code i = None).
(** One step. *)
Lemma net_step c : hash32 sha256 -> forall t0, uncached t0 -> tx_ok t0 -> forall ks n t t1 i, same DS 1 t0 t -> nth_error (tx_ins t) n = Some i -> net_signers c ks i -> Sign (Z.of_nat n) c 1 ks t = Ok t1 ->
  same DS 1 t0 t1 /\ (forall m, m <> n -> nth_error (tx_ins t1) m = nth_error (tx_ins t) m) /\ exists i', nth_error (tx_ins t1) n = Some i' /\ done t0 n i'.
Proof.
  intros Hs t0 U0 T0 ks n t t1 i Sm Hn Sk E1.
  assert (Hi : index (tx_ins t) (Z.of_nat n) = Ok i) by (unfold index; replace (Z.of_nat n <? 0) with false by lia; now rewrite Nat2Z.id, Hn).
  destruct (sign_any h160 sha256 DS prvkey PubKeyBytes (SignHash hmac fuel) sigVerifyFn (Z.of_nat n) c 1 ks t i t1 (scheme hmac fuel) (hashes sha256 Hs) ltac:(lia) Hi (net_signers_ok c ks i Sk) E1) as (S1 & Oth & _).
  destruct (core_index t t0 _ i (eq_sym (proj1 Sm)) Hi) as (i0 & Hi0 & B0). destruct (index_nth _ _ _ Hi0) as (m0 & Em & Hn0). assert (m0 = n) by lia. subst m0. clear Em.
  assert (Q : ti_code i0 = ti_code i /\ ti_value i0 = ti_value i /\ ti_redeem i0 = ti_redeem i /\ ti_finallock i0 = ti_finallock i /\ ti_hash i0 = ti_hash i /\ ti_index i0 = ti_index i /\ ti_seq i0 = ti_seq i) by (unfold blank in B0; repeat split; congruence). destruct Q as (Q1 & Q2 & Q3 & Q4 & Q5 & Q6 & Q7).
  pose proof (net_code c ks i Hs Sk) as Ck. pose proof (same_digest DS 1 (Z.of_nat n) (in_has_witness i) _ _ Sm) as Dg.
  destruct T0 as (T1 & T2 & T3 & T4 & T5 & T6). assert (T0 : tx_ok t0) by (repeat split; assumption || apply T1 || apply T2).
  assert (X : exists h, digest (Z.of_nat n) (in_has_witness i) t 1 = Ok h /\ (in_has_witness i = false -> h = old_digest sha256 n (script_code i) (sent t0)) /\ (in_has_witness i = true -> h = new_digest sha256 (sent_in i) (nilb (ti_code i)) (ti_value i) (sent t0))).
  { destruct (in_has_witness i) eqn:W.
    - rewrite <- Dg, (new_is t0 n i0 Hn0) by (try exact U0; try exact T6; unfold v0_code_ok in *; now rewrite Q1). eexists. split; [reflexivity|]. split; [discriminate|intros _]. unfold new_digest, outpoint, sent_in. cbn [n_prev n_index n_seq]. now rewrite Q1, Q2, Q5, Q6, Q7.
    - rewrite <- Dg, (old_is t0 n i0 T0 Hn0) by (unfold code_ok, script_code in *; now rewrite Q3, Q4). eexists. split; [reflexivity|]. split; [intros _|discriminate]. unfold script_code. now rewrite Q3, Q4. }
  destruct X as (h & Dh & Xo & Xn). destruct (sign_net n c ks t i t1 Hs Hn Sk E1 h Dh t0 Xo Xn) as (i' & Hi' & Bi' & Sp & Wt).
  destruct (index_nth _ _ _ Hi') as (m0 & Em & Hn'). assert (m0 = n) by lia. subst m0. clear Em.
  assert (Oth' : forall m, m <> n -> nth_error (tx_ins t1) m = nth_error (tx_ins t) m).
  { intros m Nm. specialize (Oth (Z.of_nat m) ltac:(lia)). unfold index in Oth. replace (Z.of_nat m <? 0) with false in Oth by lia. rewrite Nat2Z.id in Oth. destruct (nth_error (tx_ins t1) m), (nth_error (tx_ins t) m); congruence. }
  split; [eapply same_trans; eassumption|]. split; [exact Oth'|]. exists i'. split; [exact Hn'|]. now split.
Qed.
(** All of them: each step signs one input. *)
Inductive signs_from : nat -> transaction -> transaction -> nat -> Prop :=
| sf_nil n t : signs_from n t t n
| sf_cons n c ks i t t1 t' m : nth_error (tx_ins t) n = Some i -> net_signers c ks i -> Sign (Z.of_nat n) c 1 ks t = Ok t1 -> signs_from (S n) t1 t' m -> signs_from n t t' m.
Lemma signs_from_net : hash32 sha256 -> forall t0, uncached t0 -> tx_ok t0 -> forall n t t' m, signs_from n t t' m -> same DS 1 t0 t ->
  (forall k, (k < n)%nat -> exists i, nth_error (tx_ins t) k = Some i /\ done t0 k i) ->
  core t0 = core t' /\ forall k, (k < m)%nat -> exists i, nth_error (tx_ins t') k = Some i /\ done t0 k i.
Proof.
  intros Hs t0 U0 T0 n t t' m F. induction F as [n t|n c ks i t t1 t' m Hn Sk E1 F IH]; intros Sm Ac; [split; [apply Sm|exact Ac]|].
  destruct (net_step c Hs t0 U0 T0 ks n t t1 i Sm Hn Sk E1) as (S1 & Oth & i' & Hi' & D). apply IH; [exact S1|].
  intros k Hk. destruct (Nat.eq_dec k n) as [->|Nk]; [exists i'; auto|]. rewrite Oth by exact Nk. apply Ac. lia.
Qed.
Lemma sign_step_others c ks n t t1 i : hash32 sha256 -> nth_error (tx_ins t) n = Some i -> net_signers c ks i -> Sign (Z.of_nat n) c 1 ks t = Ok t1 -> forall m, m <> n -> nth_error (tx_ins t1) m = nth_error (tx_ins t) m.
Proof.
  intros Hs Hn Sk E1 m Nm. assert (Hi : index (tx_ins t) (Z.of_nat n) = Ok i) by (unfold index; replace (Z.of_nat n <? 0) with false by lia; now rewrite Nat2Z.id, Hn).
  destruct (sign_any h160 sha256 DS prvkey PubKeyBytes (SignHash hmac fuel) sigVerifyFn (Z.of_nat n) c 1 ks t i t1 (scheme hmac fuel) (hashes sha256 Hs) ltac:(lia) Hi (net_signers_ok c ks i Sk) E1) as (_ & Oth & _).
  specialize (Oth (Z.of_nat m) ltac:(lia)). unfold index in Oth. replace (Z.of_nat m <? 0) with false in Oth by lia. rewrite Nat2Z.id in Oth. destruct (nth_error (tx_ins t1) m), (nth_error (tx_ins t) m); congruence.
Qed.
Lemma sign_each_from c : hash32 sha256 -> forall kss n t t', (forall m ks, nth_error kss m = Some ks -> exists i, nth_error (tx_ins t) (n + m) = Some i /\ net_signers c ks i) ->
  sign_each sha256 prvkey PubKeyBytes (SignHash hmac fuel) DS c 1 (Z.of_nat n) kss t = Ok t' -> signs_from n t t' (n + length kss).
Proof.
  intros Hs. induction kss as [|ks kss IH]; intros n t t' Sg E; cbn [TxSignSpec.sign_each] in E; [injection E as <-; rewrite Nat.add_0_r; constructor|].
  apply rbind_ok in E. destruct E as (t1 & E1 & E). destruct (Sg 0%nat ks eq_refl) as (i & Hn & Sk). rewrite Nat.add_0_r in Hn. cbn [length]. rewrite Nat.add_succ_r. apply (sf_cons n c ks i t t1); try assumption. change (S (n + length kss)) with (S n + length kss)%nat.
  apply IH; [|replace (Z.of_nat (S n)) with (Z.of_nat n + 1) by lia; exact E]. intros m ks' Hm. destruct (Sg (S m) ks' Hm) as (j & Hj & Sj). exists j. split; [|exact Sj]. rewrite (sign_step_others c ks n t t1 i Hs Hn Sk E1) by lia. rewrite <- Hj. f_equal. lia.
Qed.
Lemma net_nth c kss ins : Forall2 (net_signers c) kss ins -> forall n ks, nth_error kss n = Some ks -> exists i, nth_error ins n = Some i /\ net_signers c ks i.
Proof. induction 1 as [|k0 i0 kss ins S F IH]; intros [|n] ks' Hn; try discriminate; [injection Hn as <-; exists i0; auto|]. now apply IH. Qed.
Lemma witness_agree l : Forall (fun i => ti_witness i = [] <-> ti_code i = None) l ->
  forallb (fun i => match n_witness i with [] => true | _ => false end) (map sent_in l) = negb (existsb in_has_witness l).
Proof.
  induction 1 as [|i l W F IH]; [reflexivity|]. cbn [map forallb existsb]. rewrite IH, Bool.negb_orb. f_equal. unfold in_has_witness, sent_in. cbn [n_witness]. destruct (ti_witness i) as [|a w], (ti_code i) as [c|]; try reflexivity; exfalso; destruct W as [W1 W2]; [discriminate (W1 eq_refl)|discriminate (W2 eq_refl)].
Qed.
Lemma wire_is t : tx_ok t -> Forall (fun i => ti_witness i = [] <-> ti_code i = None) (tx_ins t) -> Serialize t = net_bytes (sent t).
Proof.
  intros T W. rewrite serialize_witness by exact T. unfold net_bytes. change (n_ins (sent t)) with (map sent_in (tx_ins t)). rewrite witness_agree by exact W. unfold HasWitness. 
  assert (B : wire_body t = net_body (sent t)).
  { unfold wire_body, net_body, sent. cbn [n_ins n_outs]. rewrite !map_map. unfold len. rewrite !map_length. do 2 f_equal. f_equal. apply map_ext. intros i. unfold outpoint, sent_in. cbn [n_prev n_index n_script n_seq]. now rewrite <- app_assoc. }
  destruct (existsb in_has_witness (tx_ins t)); cbn [negb]; unfold wire_bip144, wire_legacy; rewrite B; [|reflexivity]. rewrite map_map. reflexivity.
Qed.
Lemma signs_core : hash32 sha256 -> forall n a b m, signs_from n a b m -> core a = core b.
Proof.
  intros Hs n a b m X. induction X as [|n c ks i a a1 b m Hn Sk E1 X IH]; [reflexivity|]. rewrite <- IH.
  assert (Hi : index (tx_ins a) (Z.of_nat n) = Ok i) by (unfold index; replace (Z.of_nat n <? 0) with false by lia; now rewrite Nat2Z.id, Hn).
  apply (sign_any h160 sha256 DS prvkey PubKeyBytes (SignHash hmac fuel) sigVerifyFn (Z.of_nat n) c 1 ks a i a1 (scheme hmac fuel) (hashes sha256 Hs) ltac:(lia) Hi (net_signers_ok c ks i Sk) E1).
Qed.
Definition blanked (t : transaction) : transaction := MkTx (tx_version t) (tx_locktime t) (map blank (tx_ins t)) (tx_outs t) None None None.
Lemma blanked_core t : core (blanked t) = core t.
Proof. unfold core, blanked. cbn [tx_version tx_locktime tx_ins tx_outs]. now rewrite map_map. Qed.
Lemma blanked_ok t t' : core t = core t' -> tx_ok t' -> tx_ok (blanked t).
Proof.
  intros C (V & L & M & O & F & G). unfold core in C. injection C as Cv Cl Ci Co. unfold tx_ok, blanked. cbn [tx_version tx_locktime tx_ins tx_outs]. rewrite Cv, Cl, Co, Ci. repeat (split; [assumption|]). split; [unfold fits_memory, len in *; now rewrite map_length|]. split; [exact O|]. split; [|exact G].
  apply Forall_map. eapply Forall_impl; [|exact F]. intros i (A1 & A2 & A3 & A4 & _). unfold in_ok, blank, fits_memory. cbn [ti_hash ti_index ti_seq ti_value ti_unlock ti_witness]. change (len (@nil Z)) with 0. change (len (@nil bytes)) with 0. repeat (split; [assumption || lia|]). constructor.
Qed.
Lemma blanked_same t : uncached t -> same DS 1 (blanked t) t.
Proof.
  intros (U1 & U2 & U3). split; [apply blanked_core|]. unfold eff, eff_prevouts, eff_sequence, eff_outputs. rewrite U1, U2, U3. unfold blanked. cbn [tx_prevouts tx_sequence tx_outputs tx_ins tx_outs cached]. now rewrite map_map.
Qed.
Lemma network_takes t t' : hash32 sha256 -> uncached t -> tx_ok t' -> tx_ins t <> [] -> signs_from 0 t t' (length (tx_ins t)) ->
  Serialize t' = net_bytes (sent t') /\ net_accepts sha256 h160 (sent t') (spent_outputs t).
Proof.
  intros Hs U T' Ne F. set (t0 := blanked t). pose proof (blanked_same t U) as Sm. fold t0 in Sm.
  assert (Ct : core t0 = core t') by (unfold t0; rewrite blanked_core; exact (signs_core Hs _ _ _ _ F)).
  assert (T0 : tx_ok t0) by (apply (blanked_ok t t'); [unfold t0 in Ct; rewrite blanked_core in Ct; exact Ct|exact T']).
  destruct (signs_from_net Hs t0 ltac:(repeat split) T0 0%nat t t' _ F Sm ltac:(intros; lia)) as [_ Al].
  assert (Co : core t = core t') by (unfold t0 in Ct; rewrite blanked_core in Ct; exact Ct).
  pose proof (len_core _ _ Co) as Lc. assert (Ll : length (tx_ins t') = length (tx_ins t)) by (unfold len in Lc; lia). rewrite <- Ll in Al.
  assert (At : forall m i, nth_error (tx_ins t') m = Some i -> done t0 m i). { intros m i Hm. destruct (Al m) as (j & Hj & Dj); [apply nth_error_Some; congruence|]. congruence. }
  split; [apply wire_is; [exact T'|]; apply Forall_forall; intros i Hi; destruct (In_nth_error _ _ Hi) as (m & Hm); apply (At m i Hm)|].
  split; [|split]; unfold sent at 1, spent_outputs; cbn [n_ins].
  - destruct (tx_ins t'); [|discriminate]. destruct (tx_ins t); [congruence|discriminate].
  - now rewrite !map_length.
  - intros idx i amount lock Hi Hl. rewrite nth_error_map in Hi. destruct (nth_error (tx_ins t') idx) as [i'|] eqn:Hi'; [|discriminate]. injection Hi as <-. rewrite nth_error_map in Hl. destruct (nth_error (tx_ins t) idx) as [i0|] eqn:Hi0; [|discriminate]. injection Hl as <- <-.
    assert (I0 : index (tx_ins t) (Z.of_nat idx) = Ok i0) by (unfold index; replace (Z.of_nat idx <? 0) with false by lia; now rewrite Nat2Z.id, Hi0). destruct (core_index t t' _ i0 Co I0) as (j & Hj & Bj). destruct (index_nth _ _ _ Hj) as (m & Em & Hm). assert (m = idx) by lia. subst m. assert (j = i') by congruence. subst j.
    assert (ti_value i0 = ti_value i' /\ ti_rawlock i0 = ti_rawlock i') as [-> ->] by (unfold blank in Bj; split; congruence). eapply net_spends_core; [exact Ct|]. apply (At idx i' Hi').
Qed.
Lemma signed_taken c kss t t' : hash32 sha256 -> uncached t -> tx_ok t' -> tx_ins t <> [] -> Forall2 (net_signers c) kss (tx_ins t) ->
  sign_each sha256 prvkey PubKeyBytes (SignHash hmac fuel) DS c 1 0 kss t = Ok t' ->
  Serialize t' = net_bytes (sent t') /\ net_accepts sha256 h160 (sent t') (spent_outputs t).
Proof.
  intros Hs U T' Ne F E. apply network_takes; auto. pose proof (sign_each_from c Hs kss 0%nat t t' (net_nth c kss _ F) E) as X. pose proof (Forall2_len _ _ _ F) as Lf. replace (length (tx_ins t)) with (0 + length kss)%nat by (unfold len in Lf; lia). exact X.
Qed.

(** The builder. *)
Inductive net_can (c : bool) : list prvkey -> bytes -> obytes -> Prop :=
| nc_p2pkh k : net_can c [k] (p2pkh_script (h160 (PubKeyBytes k c))) None
| nc_p2wpkh k rd : c = true -> net_can c [k] (p2wpkh_script (h160 (PubKeyBytes k c))) rd
| nc_p2sh ks pubs r : multisig_for prvkey PubKeyBytes c ks pubs r -> len pubs <= 20 -> Forall (sec_form false) pubs -> len r <= 520 -> net_can c ks (p2sh_script (h160 r)) (Some r)
| nc_p2wsh ks pubs r : multisig_for prvkey PubKeyBytes c ks pubs r -> len pubs <= 20 -> Forall (sec_form true) pubs -> net_can c ks (p2wsh_script (sha256 r)) (Some r).
Definition net_group (g : Group prvkey) : Prop :=
  match g_coin prvkey g with
  | None => True
  | Some x => g_sighash prvkey g = 1 /\ exists ks script, g_keys prvkey g = Some ks /\ hex_decode (coin_script x) = Ok script /\ net_can (g_compressed prvkey g) ks script (g_redeem prvkey g)
  end.
Lemma new_redeem hash n v script rd i : NewTxIn h160 hash n v script rd = Ok i -> ti_redeem i = rd.
Proof.
  unfold NewTxIn. intros E. apply rbind_ok in E. destruct E as (s & _ & E). injection E as <-. reflexivity.
Qed.
Lemma net_can_signers c ks script rd hash n v i : hash32 sha256 -> net_can c ks script rd -> NewTxIn h160 hash n v script rd = Ok i -> net_signers c ks i.
Proof.
  intros Hs0 C N. pose proof (hashes sha256 Hs0) as Hs. destruct C as [k|k rd Ct|ks pubs r M Lp Fp Lr|ks pubs r M Lp Fp].
  - apply ns_p2pkh; [|exact (new_redeem _ _ _ _ _ _ N)]. apply (proj1 (new_spends h160 sha256 hash n v None (h160 (PubKeyBytes k c)) [] i Hs)); [apply Hs|apply Hs|exact N].
  - apply ns_p2wpkh; [|exact Ct]. apply (proj1 (proj2 (new_spends h160 sha256 hash n v rd (h160 (PubKeyBytes k c)) [] i Hs))); [apply Hs|apply Hs|exact N].
  - eapply ns_p2sh; [exact M| |exact Lp|exact Fp|exact Lr]. exact (proj1 (proj2 (proj2 (new_spends h160 sha256 hash n v None [] r i Hs))) N).
  - eapply ns_p2wsh; [exact M| |exact Lp|exact Fp]. exact (proj2 (proj2 (proj2 (new_spends h160 sha256 hash n v None [] r i Hs))) N).
Qed.
Definition net_ready (x : input prvkey) (i : TxIn) : Prop := n_sighash prvkey x = 1 /\ exists ks, n_keys prvkey x = Some ks /\ net_signers (n_compressed prvkey x) ks i.
Lemma gather_net : hash32 sha256 -> forall gs a a', Forall net_group gs -> gather h160 prvkey gs a = Ok a' -> Forall2 net_ready (ga_inputs prvkey a) (ga_txins prvkey a) -> Forall2 net_ready (ga_inputs prvkey a') (ga_txins prvkey a').
Proof.
  intros Hs. induction gs as [|g gs IH]; intros a a' F E R; cbn [gather] in E; [now injection E as <-|]. inversion F as [|? ? Sg F']. subst. apply rbind_ok in E. destruct E as (a1 & E1 & E). apply rbind_ok in E. destruct E as (a2 & E2 & E).
  apply (IH a2 a' F' E). assert (X : ga_inputs prvkey a2 = ga_inputs prvkey a1 /\ ga_txins prvkey a2 = ga_txins prvkey a1) by (unfold gather_out in E2; destruct (g_output prvkey g); injection E2 as <-; auto). destruct X as [-> ->].
  unfold gather_in in E1. unfold net_group in Sg. destruct (g_coin prvkey g) as [c|]; [|now injection E1 as <-]. destruct Sg as (Sh & ks & script & Hk & Hx & C).
  apply rbind_ok in E1. destruct E1 as (id & Hid & E1). rewrite Hx in E1. cbn [rbind] in E1. apply rbind_ok in E1. destruct E1 as (i & Ni & E1). injection E1 as <-. cbn [ga_inputs ga_txins].
  apply Forall2_app; [exact R|]. constructor; [|constructor]. split; [exact Sh|]. exists ks. split; [exact Hk|]. eapply net_can_signers; eauto.
Qed.
Lemma sign_inputs_from : hash32 sha256 -> forall xs n t t', (forall m x, nth_error xs m = Some x -> exists i, nth_error (tx_ins t) (n + m) = Some i /\ net_ready x i) ->
  sign_inputs sha256 DS prvkey PubKeyBytes (SignHash hmac fuel) (Z.of_nat n) xs t = Ok t' -> signs_from n t t' (n + length xs).
Proof.
  intros Hs. induction xs as [|x xs IH]; intros n t t' Sg E; cbn [sign_inputs] in E; [injection E as <-; rewrite Nat.add_0_r; constructor|].
  destruct (Sg 0%nat x eq_refl) as (i & Hn & Sh & ks & Ek & Sk). rewrite Nat.add_0_r in Hn. rewrite Ek, Sh in E. apply rbind_ok in E. destruct E as (t1 & E1 & E). cbn [length]. rewrite Nat.add_succ_r. apply (sf_cons n (n_compressed prvkey x) ks i t t1); try assumption. change (S (n + length xs)) with (S n + length xs)%nat.
  apply IH; [|replace (Z.of_nat (S n)) with (Z.of_nat n + 1) by lia; exact E]. intros m ks' Hm. destruct (Sg (S m) ks' Hm) as (j & Hj & Sj). exists j. split; [|exact Sj]. rewrite (sign_step_others (n_compressed prvkey x) ks n t t1 i Hs Hn Sk E1) by lia. rewrite <- Hj. f_equal. lia.
Qed.
Lemma built_taken b t : hash32 sha256 -> b_sign prvkey b = true -> Forall net_group (b_groups prvkey b) -> WBuildTransaction sha256 hmac fuel b = Ok t -> tx_ok t ->
  Serialize t = net_bytes (sent t) /\ net_accepts sha256 h160 (sent t) (spent_outputs t).
Proof.
  intros Hs Sg F E T. unfold WBuildTransaction, BuildTransaction in E. apply rbind_ok in E. destruct E as (a & Ea & E). destruct (len (ga_txins prvkey a) =? 0) eqn:Ne; [discriminate|]. destruct (len (ga_txouts prvkey a) =? 0); [discriminate|].
  destruct (b_maxFees prvkey b <? _); [discriminate|]. destruct (ga_in prvkey a <? _); [discriminate|]. destruct (i64 _ <? 0); [discriminate|]. apply rbind_ok in E. destruct E as (ch & _ & E). rewrite Sg in E.
  pose proof (gather_net Hs _ _ _ F Ea ltac:(constructor)) as G. set (u := assemble prvkey b a ch) in E. assert (Ei : tx_ins u = ga_txins prvkey a) by (unfold u; rewrite assemble_spec; reflexivity).
  assert (X : signs_from 0 u t (length (tx_ins u))).
  { pose proof (Forall2_len _ _ _ G) as Lg. replace (length (tx_ins u)) with (0 + length (ga_inputs prvkey a))%nat by (rewrite Ei; unfold len in Lg; lia). apply sign_inputs_from; [exact Hs| |exact E]. intros m x Hm. rewrite Ei, Nat.add_0_l.
    clear - G Hm. revert m x Hm. induction G as [|x0 i0 xs is R G IH]; intros [|m] x Hm; try discriminate; [injection Hm as <-; exists i0; auto|]. now apply IH. }
  assert (Uc : uncached u) by (unfold u; rewrite assemble_spec; repeat split).
  assert (Nu : tx_ins u <> []) by (rewrite Ei; intro Q; rewrite Q in Ne; discriminate).
  destruct (network_takes u t Hs Uc T Nu X) as [W A]. split; [exact W|].
  assert (Sp : spent_outputs u = spent_outputs t); [|now rewrite <- Sp].
  pose proof (signs_core Hs _ _ _ _ X) as C.
  unfold core in C. injection C as _ _ Ci _. unfold spent_outputs. clear - Ci. revert Ci. generalize (tx_ins u) (tx_ins t). induction l as [|i l IH]; intros [|j l'] E; try discriminate; [reflexivity|]. cbn [map] in *. injection E as E1 E. f_equal; [|now apply IH]. unfold blank in E1. congruence.
Qed.
End Net.
