(** Transactions the network accepts, as they are read, completed and verified. *)
From Verif Require Import GoBase BaseLemmas BufferModel Codec SecpModel SecpSpec EcdsaModel EcdsaSpec EcdsaProps PubKeyModel PubKeyProps DerModel DerSpec DerProps ScriptNumModel
  ScriptModel ScriptSpec ScriptProofs LockModel LockSpec LockProofs VmModel VmSpec VmProofs VmSig TxModel TxSpec TxProofs TxSig TxSignSpec TxSign TxSign2 TxSign3 WholeModel WholeProofs ReceiveSpec ReceiveProofs.
From Verif Require PubKeySpec VmCalls VmMore.
From Verif Require Import NetSpec NetProofs.
From Verif Require Import TakeSpec.
From Coq Require Import ZifyBool ZifyNat ZifyN.

(** ** Signatures. *)
Lemma sig_verifies co dg key sig : bytes_ok dg -> bytes_ok key -> bytes_ok sig -> net_sig co dg key sig ->
  2 <= len sig <= 101 /\ 33 <= len key <= 65 /\ (len key = 33 \/ len key = 65) /\ exists der, sig = der ++ [1] /\ sigVerifyFn dg der key = Ok tt.
Proof.
  intros Od Ok' Os (Sf & x & y & r & s & der & En & G & -> & D & Ls & V). apply bytes_ok_app in Os. destruct Os as [Oder _].
  pose proof V as (Br & Bs & _). destruct (sig_bounds r s Br (conj (proj1 Bs) Ls)) as [R1 R2].
  pose proof (der_sig_len der r s D Oder R1 R2) as Ld. split; [rewrite len_app; change (len [1]) with 1; lia|].
  assert (Lk : len key = 33 \/ len key = 65) by (destruct Sf as [[Q _]|(_ & Q & _)]; auto). split; [lia|]. split; [exact Lk|].
  exists der. split; [reflexivity|]. unfold sigVerifyFn. rewrite (proj2 (is_bytes_ok dg) Od), (proj2 (is_bytes_ok der) Oder), (proj2 (is_bytes_ok key) Ok'). cbn [andb].
  assert (PK : PubKeyFromBytes key = Ok (x, y)) by (apply (C70_parse_exact key x y Ok'); left; split; assumption). rewrite PK. cbn [rbind fst snd].
  destruct (C71_der_encode r s 32 ltac:(lia) R1 R2) as (b & EB & _ & _ & Un). rewrite (Un der Oder D). unfold DerModel.EcdsaVerify. rewrite (C71_der_roundtrip r s 32 b ltac:(lia) R1 R2 EB). cbn [rbind].
  destruct (C64_verify (Some (x, y)) dg r s G Od) as (v & Ev & Hv). cbn [px py] in Ev. rewrite Ev. cbn [rbind]. apply Hv in V. now rewrite V.
Qed.

Lemma gen_exact m pubs : 0 <= m <= len pubs -> len pubs <= 20 -> Forall (fun p => bytes_ok p /\ 2 <= len p <= 100) pubs -> GenMultiSigScript m pubs = Ok (m_of_n m pubs).
Proof.
  intros Hm Lp F. destruct (GenMultiSigScript m pubs) as [r|e|] eqn:E.
  - destruct (multisig_exact m pubs r E ltac:(lia) F Lp) as [_ ->]. reflexivity.
  - exfalso. unfold GenMultiSigScript in E. replace (len pubs <? m) with false in E by lia. destruct (number_exact m NewScriptBuilder ltac:(lia)) as (b1 & E1 & _). rewrite E1 in E. cbn [rbind] in E.
    destruct (number_exact (len pubs) (fold_left (fun b k => AddData k b) pubs b1) ltac:(lia)) as (b2 & E2 & _). rewrite E2 in E. discriminate.
  - exfalso. unfold GenMultiSigScript in E. replace (len pubs <? m) with false in E by lia. destruct (number_exact m NewScriptBuilder ltac:(lia)) as (b1 & E1 & _). rewrite E1 in E. cbn [rbind] in E.
    destruct (number_exact (len pubs) (fold_left (fun b k => AddData k b) pubs b1) ltac:(lia)) as (b2 & E2 & _). rewrite E2 in E. discriminate.
Qed.

(** ** What scripts push is determined. *)
Lemma pushes_det i a b : pushes i a -> pushes i b -> a = b.
Proof. intros P Q. inversion P; subst; inversion Q; subst; try reflexivity; try lia; f_equal; lia. Qed.
Lemma pushing_det u a b : in_memory u -> script_pushing u a -> script_pushing u b -> a = b.
Proof.
  intros M (is & S1 & P1) (js & S2 & P2). pose proof (all_of _ _ M S1) as A1. pose proof (all_of _ _ M S2) as A2. assert (js = is) by congruence. subst js. clear - P1 P2. revert b P2. induction P1 as [|i x is a P F IH]; intros b P2; inversion P2; subst; [reflexivity|].
  f_equal; [eapply pushes_det; eauto|now apply IH].
Qed.

Lemma item_pushable d : bytes_ok d -> 2 <= len d <= 65535 -> pushable d.
Proof. intros O L. split; [exact O|]. split; [lia|]. split; intros ->; vm_compute in L; intuition congruence. Qed.
Lemma multi_unlock sigs script : Forall (fun d => bytes_ok d /\ 2 <= len d <= 101) sigs -> bytes_ok script -> 2 <= len script <= 65535 ->
  let u := 0 :: concat (map shortest_push sigs) ++ shortest_push script in
  exists is, script_of is u /\ Forall2 pushes is ([] :: sigs ++ [script]) /\ bytes_ok u /\ len u <= 106 * len sigs + 65541.
Proof.
  intros F Os Ls u. assert (Fp : Forall pushable sigs) by (eapply Forall_impl; [|exact F]; intros d [O L]; apply item_pushable; [exact O|lia]).
  destruct (add_items sigs 101 ltac:(lia) Fp) with (b := AddOp 0x00 NewScriptBuilder) as (js & e1 & E1 & Oe1 & Le1 & So1 & P1); [eapply Forall_impl; [|exact F]; intros d [_ L]; lia|].
  destruct (add_item script (fold_left (fun b d => AddData d b) sigs (AddOp 0x00 NewScriptBuilder)) (item_pushable _ Os Ls)) as (j2 & e2 & E2 & Oe2 & Le2 & En2 & P2).
  rewrite pushes_exact in E1 by (eapply Forall_impl; [|exact F]; intros d [_ L]; lia). apply app_inv_head in E1. rewrite push_exact in E2 by lia. apply app_inv_head in E2. 
  exists (Instr 0 [] :: js ++ [j2]). unfold u. rewrite E1, E2. split; [|split; [|split]].
  - apply (so_cons (Instr 0 []) [0] (js ++ [j2]) (e1 ++ e2)); [apply enc_plain; vm_compute; tauto|]. apply script_of_app; [exact So1|now apply VmMore.encodes_script].
  - constructor; [constructor|]. apply Forall2_app; [exact P1|]. constructor; [exact P2|constructor].
  - apply bytes_ok_cons. split; [unfold is_byte; lia|]. apply bytes_ok_app. auto.
  - rewrite len_cons, len_app. lia.
Qed.
Lemma pair_unlock a b : bytes_ok a -> bytes_ok b -> 2 <= len a <= 101 -> 2 <= len b <= 101 ->
  let u := shortest_push a ++ shortest_push b in exists is, script_of is u /\ Forall2 pushes is [a; b] /\ bytes_ok u /\ len u <= 212.
Proof.
  intros Oa Ob La Lb u. destruct (add_item a NewScriptBuilder (item_pushable _ Oa ltac:(lia))) as (j1 & e1 & E1 & Oe1 & Le1 & En1 & P1).
  destruct (add_item b (AddData a NewScriptBuilder) (item_pushable _ Ob ltac:(lia))) as (j2 & e2 & E2 & Oe2 & Le2 & En2 & P2). rewrite push_exact in E1, E2 by lia. apply app_inv_head in E1. apply app_inv_head in E2.
  exists [j1; j2]. unfold u. rewrite E1, E2. split; [constructor; [exact En1|now apply VmMore.encodes_script]|]. split; [repeat constructor; assumption|]. split; [apply bytes_ok_app; auto|rewrite len_app; lia].
Qed.

Section Take.
Variable sha256 : bytes -> bytes.
Hypothesis Hs : hash32 sha256.
Notation DS := (DoubleSha256 sha256).
Notation h160 := (Hash160 sha256).
Notation digest := (sigHashFn DS).
Notation spends := (net_spends sha256 h160).
Notation accepted := (accepted h160 DS sigVerifyFn).

Lemma verifier_total h s k : sigVerifyFn h s k <> Panic.
Proof. apply (scheme (fun _ _ => []) 0). Qed.

(** ** Inputs. *)
Lemma key_accepted (w : bool) idx i t key sig der dg : nth_error (tx_ins t) idx = Some i -> (if w then spends_p2wpkh (h160 key) i else spends_p2pkh (h160 key) i) ->
  ti_unlock i = shortest_push sig ++ shortest_push key -> bytes_ok key -> bytes_ok sig -> 2 <= len sig <= 101 -> 2 <= len key <= 101 -> sig = der ++ [1] ->
  digest (Z.of_nat idx) w t 1 = Ok dg -> sigVerifyFn dg der key = Ok tt -> accepted 1 (Z.of_nat idx) i t.
Proof.
  intros Hn Sp Un Okk Oks Ls Lk Ed Dg Ev t2 St. destruct (hashes sha256 Hs) as [H1 _]. destruct (H1 key) as [Oh Lh]. set (h := h160 key) in *. set (s := if w then P2WPKH h else P2PKH h).
  assert (Raw : ti_rawlock i = template s) by (destruct w; apply Sp). assert (Fin : ti_finallock i = p2pkh_script h) by (destruct w; apply Sp).
  assert (Os : bytes_ok (obj_hash s) /\ len (obj_hash s) = obj_len s /\ witness_version s = w) by (destruct w; auto). destruct Os as (Os & Lo & Wv).
  assert (Dg2 : digest (Z.of_nat idx) w t2 1 = Ok dg) by (rewrite <- Dg; symmetry; now apply same_digest).
  destruct (pair_unlock sig key Oks Okk ltac:(lia) ltac:(lia)) as (is & Su & Pu & Ou & Lu). rewrite <- Un in Su, Ou, Lu.
  assert (M : in_memory (ti_unlock i ++ p2pkh_script h)).
  { split; [unfold p2pkh_script; rewrite !bytes_ok_app; repeat split; auto; bytes_ok_tac|]. unfold p2pkh_script. rewrite !len_app. change (len [118; 169; 20]) with 3. change (len [136; 172]) with 2. lia. }
  assert (V : valid_sig (digest (Z.of_nat idx) w t2) sigVerifyFn (der ++ [1]) key) by (exists der, 1, dg; auto). rewrite Ed in Pu.
  destruct (p2pkh_verified h160 (digest (Z.of_nat idx) w t2) sigVerifyFn (ti_unlock i) h is der 1 key M Lh Su Pu eq_refl V) as [(st & Ev2) Calls].
  clearbody s. unfold TxModel.verify_input. rewrite Raw, Fin. rewrite (parse_of s Os Lo). cbn [rbind]. rewrite Wv, Ev2. split; [reflexivity|].
  exists s. split; [reflexivity|]. intros Wt. rewrite Wv in Wt. rewrite Wt in Calls. rewrite Calls. constructor; [reflexivity|constructor].
Qed.

Lemma script_accepted (w co : bool) idx i t m pubs sigs dg : let r := m_of_n m pubs in nth_error (tx_ins t) idx = Some i -> (if w then spends_p2wsh h160 sha256 r i else spends_p2sh h160 r i) ->
  ti_unlock i = 0 :: concat (map shortest_push sigs) ++ shortest_push r -> 1 <= m <= len pubs -> len pubs <= 20 -> Forall (fun p => bytes_ok p /\ 2 <= len p <= 100) pubs ->
  Forall (fun d => bytes_ok d /\ 2 <= len d <= 101 /\ exists der, d = der ++ [1]) sigs -> len sigs = m -> bytes_ok dg -> digest (Z.of_nat idx) w t 1 = Ok dg ->
  matched (fun sig key => net_sig co dg key sig) sigs pubs -> accepted 1 (Z.of_nat idx) i t.
Proof.
  intros r Hn Sp Un Hm Lp Fp Fs Lm Od Dg Mt t2 St. destruct (hashes sha256 Hs) as [H1 H2]. pose proof (H1 r) as [Oh Lh]. pose proof (H2 r) as [Oh' Lh'].
  assert (Hi : index (tx_ins t) (Z.of_nat idx) = Ok i) by now apply nth_of_index.
  pose proof (gen_exact m pubs ltac:(lia) Lp Fp) as Gm. fold r in Gm.
  destruct (multisig_script m pubs r Gm ltac:(lia) Fp ltac:(lia)) as (_ & Or & Lr & im & mb & iks & ine & nb & Sr & Pm & Pks & Pn & In & Im).
  assert (Lr2 : 2 <= len r <= 65535) by (pose proof (proj2 (m_of_n_ok m pubs ltac:(lia) Lp Fp)) as B; fold r in B; lia).
  set (s := if w then P2WSH (sha256 r) else P2SH (h160 r)).
  assert (Raw : ti_rawlock i = template s) by (destruct w; apply Sp). assert (Fin : ti_finallock i = p2sh_script (h160 r)) by (destruct w; apply Sp).
  assert (Rd : ti_redeem i = Some r) by (destruct w; apply Sp).
  assert (Os : bytes_ok (obj_hash s) /\ len (obj_hash s) = obj_len s /\ witness_version s = w) by (destruct w; auto). destruct Os as (Os & Lo & Wv).
  assert (Dg2 : digest (Z.of_nat idx) w t2 1 = Ok dg) by (rewrite <- Dg; symmetry; now apply same_digest).
  destruct (core_index t t2 _ i (proj1 St) Hi) as (i2 & Hi2 & Bl2). assert (Rd2 : ti_redeem i2 <> None) by (unfold blank in Bl2; congruence).
  assert (Orc : oracles_return (digest (Z.of_nat idx) w t2) sigVerifyFn) by (split; [intros x; now apply (hasher_returns DS w (Z.of_nat idx) t2 i2)|apply verifier_total]).
  destruct (multi_unlock sigs r) as (is & Su & Pu & Ou & Lu); [eapply Forall_impl; [|exact Fs]; tauto|exact Or|exact Lr2|]. rewrite <- Un in Su, Ou, Lu.
  assert (Mv : matched (valid_sig (digest (Z.of_nat idx) w t2) sigVerifyFn) sigs pubs).
  { clear - Mt Fs Fp Od Dg2. induction Mt as [|sg sigs p pubs V Mt IH|sigs p pubs Mt IH]; [constructor| |].
    - inversion Fs as [|? ? (O1 & _) Fs']; subst. inversion Fp as [|? ? (O2 & _) Fp']; subst. apply m_take; [|now apply IH]. destruct (sig_verifies co dg p sg Od O2 O1 V) as (_ & _ & _ & der & E1 & E2). exists der, 1, dg. auto.
    - inversion Fp as [|? ? _ Fp']; subst. apply m_skip. now apply IH. }
  assert (M : in_memory (ti_unlock i ++ p2sh_script (h160 r))).
  { unfold p2sh_script. split; [rewrite !bytes_ok_app; repeat split; auto; bytes_ok_tac|]. rewrite !len_app. change (len [169; 20]) with 2. change (len [135]) with 1. lia. }
  destruct (p2sh_verified h160 (digest (Z.of_nat idx) w t2) sigVerifyFn (ti_unlock i) r im iks ine is nb mb pubs sigs 1 M) as [(st & Ev) Calls]; auto.
  { split; [exact Or|lia]. } { now rewrite Lm. } { lia. } { eapply Forall_impl; [|exact Fs]; tauto. }
  clearbody s. unfold TxModel.verify_input. rewrite Raw, Fin. rewrite (parse_of s Os Lo). cbn [rbind]. rewrite Wv, Ev. split; [reflexivity|].
  exists s. split; [reflexivity|]. intros Wt. rewrite Wv in Wt. rewrite Wt in Calls. exact Calls.
Qed.

(** ** The inputs of an accepted transaction, as the receiver completes them. *)
Definition taken (T : net_tx) (idx : nat) (n : net_in) (p : Z * bytes * obytes) (i : TxIn) : Prop :=
  sent_in i = n /\ spent i = p /\ sendable h160 i /\ (ti_witness i = [] <-> ti_code i = None) /\ in_ok i /\
  forall t, nth_error (tx_ins t) idx = Some i -> tx_ok t -> uncached t -> sent t = T -> accepted 1 (Z.of_nat idx) i t.
Definition completed (n : net_in) (p : Z * bytes * obytes) (code : obytes) (fin unlock : bytes) : TxIn :=
  MkIn (n_prev n) (n_index n) (fst (fst p)) (n_seq n) [] (snd p) (n_witness n) code (snd (fst p)) fin unlock.

Lemma pushed_ok d : bytes_ok (shortest_push d) -> bytes_ok d.
Proof. unfold shortest_push. intros O. apply bytes_ok_app in O. tauto. Qed.
Lemma pushed_all l : bytes_ok (concat (map shortest_push l)) -> Forall bytes_ok l.
Proof. induction l as [|d l IH]; intros O; [constructor|]. cbn [map concat] in O. apply bytes_ok_app in O. constructor; [now apply pushed_ok|now apply IH]. Qed.
Lemma keys_sized co pubs : Forall (sec_form co) pubs -> Forall bytes_ok pubs -> Forall (fun k : bytes => (len k = 33 \/ len k = 65) /\ bytes_ok k) pubs.
Proof. intros F O. induction F as [|k l S F IH]; [constructor|]. inversion O; subst. constructor; [|now apply IH]. split; [|assumption]. destruct S as [[L _]|(_ & L & _)]; auto. Qed.
Lemma sigs_sized co dg sigs pubs : bytes_ok dg -> Forall bytes_ok sigs -> Forall bytes_ok pubs -> matched (fun sig key => net_sig co dg key sig) sigs pubs ->
  Forall (fun d => bytes_ok d /\ 2 <= len d <= 101 /\ exists der, d = der ++ [1]) sigs.
Proof.
  intros Od Os Op M. induction M as [|sg sigs p pubs V M IH|sigs p pubs M IH]; [constructor| |inversion Op; subst; now apply IH].
  inversion Os; subst. inversion Op; subst. destruct (sig_verifies co dg p sg Od) as (L & _ & _ & der & E & _); auto. constructor; [|now apply IH]. eauto.
Qed.
Lemma m_of_n_keys m pubs : bytes_ok (m_of_n m pubs) -> Forall bytes_ok pubs.
Proof. unfold m_of_n. intros O. rewrite !bytes_ok_app in O. now apply pushed_all. Qed.
Lemma matched_length {A B} (P : A -> B -> Prop) l m : matched P l m -> (length l <= length m)%nat.
Proof. induction 1; cbn [length]; lia. Qed.

Lemma old_ok idx code T : bytes_ok (old_digest sha256 idx code T).
Proof. unfold old_digest, twice. apply (hashes sha256 Hs). Qed.
Lemma new_ok i code a T : bytes_ok (new_digest sha256 i code a T).
Proof. unfold new_digest, twice. apply (hashes sha256 Hs). Qed.

Lemma take_p2pkh T idx n p sig key : net_in_ok n -> 0 <= fst (fst p) < 2 ^ 64 -> snd (fst p) = p2pkh_script (h160 key) -> snd p = None -> n_script n = shortest_push sig ++ shortest_push key -> n_witness n = [] ->
  net_sig false (old_digest sha256 idx (snd (fst p)) T) key sig -> exists i, taken T idx n p i.
Proof.
  intros (N1 & N2 & N3 & N4 & N5) A Lk Tl Sc W V. pose proof N4 as O. rewrite Sc, bytes_ok_app in O. destruct O as [Os Okk]. apply pushed_ok in Os, Okk.
  destruct (sig_verifies _ _ _ _ (old_ok _ _ _) Okk Os V) as (Ls & L1 & _ & der & Ed & Ev). destruct (pair_unlock sig key Os Okk Ls ltac:(lia)) as (_ & _ & _ & _ & Lu). rewrite <- Sc in Lu.
  destruct (hashes sha256 Hs) as [H1 _]. destruct (H1 key) as [Oh Lh].
  exists (completed n p None (p2pkh_script (h160 key)) (n_script n)). destruct p as [[a lock] told]. cbn [fst snd] in *. subst lock told. unfold taken, completed. cbn [fst snd]. rewrite W.
  split; [destruct n; cbn in *; subst; reflexivity|]. split; [reflexivity|]. split; [|split; [tauto|split]].
  - exists (P2PKH (h160 key)). cbn [ti_rawlock ti_redeem ti_code ti_finallock]. split; [exact (parse_of (P2PKH _) Oh Lh)|]. split; [exact (raw_locking (P2PKH _) Lh)|]. split; [reflexivity|]. split; [exact (raw_locking (P2PKH _) Lh)|reflexivity].
  - unfold in_ok, fits_memory. cbn [ti_hash ti_index ti_seq ti_value ti_unlock ti_witness]. change (len (@nil bytes)) with 0. repeat (split; [first [assumption|lia]|]). constructor.
  - intros t Hn Tk U St. apply (key_accepted false idx _ t key sig der (old_digest sha256 idx (p2pkh_script (h160 key)) T) Hn); auto; try lia; [repeat split|].
    rewrite (old_is sha256 t idx _ Tk Hn); [rewrite St; reflexivity|].
    pose proof (template_mem (P2PKH (h160 key)) Oh Lh) as [B L]. split; [exact B|exact L].
Qed.

Lemma take_p2wpkh T idx n p sig key : net_in_ok n -> 0 <= fst (fst p) < 2 ^ 64 -> snd (fst p) = p2wpkh_script (h160 key) -> n_script n = [] -> n_witness n = [sig; key] ->
  net_sig true (new_digest sha256 n (p2pkh_script (h160 key)) (fst (fst p)) T) key sig -> exists i, taken T idx n p i.
Proof.
  intros (N1 & N2 & N3 & N4 & N5) A Lk Sc W V. pose proof N5 as O. rewrite W in O. inversion O as [|? ? Os O']; subst. inversion O' as [|? ? Okk _]; subst. 
  destruct (sig_verifies _ _ _ _ (new_ok _ _ _ _) Okk Os V) as (Ls & L1 & _ & der & Ed & Ev). destruct (pair_unlock sig key Os Okk Ls ltac:(lia)) as (_ & _ & _ & _ & Lu).
  destruct (hashes sha256 Hs) as [H1 _]. destruct (H1 key) as [Oh Lh]. set (u := shortest_push sig ++ shortest_push key) in *.
  exists (completed n p (Some (p2pkh_script (h160 key))) (p2pkh_script (h160 key)) u). destruct p as [[a lock] told]. cbn [fst snd] in *. subst lock. unfold taken, completed. cbn [fst snd]. rewrite W.
  assert (Eu : Script (AddData key (AddData sig NewScriptBuilder)) = u) by (rewrite !push_exact by lia; reflexivity).
  split; [destruct n; cbn in *; subst; reflexivity|]. split; [reflexivity|]. split; [|split; [split; discriminate|split]].
  - exists (P2WPKH (h160 key)). cbn [ti_rawlock ti_redeem ti_code ti_finallock ti_witness ti_unlock]. split; [exact (parse_of (P2WPKH _) Oh Lh)|]. split; [exact (raw_locking (P2WPKH _) Lh)|]. split; [exact (f_equal Some (raw_locking (P2PKH _) Lh))|]. split; [exact (raw_locking (P2PKH _) Lh)|].
    split; [cbn [WitnessToUnlockingScriptBytes]; now rewrite Eu|]. rewrite <- Eu. apply script_nonempty.
  - unfold in_ok, fits_memory. cbn [ti_hash ti_index ti_seq ti_value ti_unlock ti_witness]. repeat (split; [first [assumption|lia]|]). split; [vm_compute; discriminate|]. repeat constructor; lia.
  - intros t Hn Tk U St. apply (key_accepted true idx _ t key sig der (new_digest sha256 n (p2pkh_script (h160 key)) a T) Hn); auto; try lia; [repeat split|].
    rewrite (new_is sha256 t idx _ Hn); [|  |apply Tk|exact U].
    + cbn [nilb ti_code ti_value]. rewrite St. reflexivity.
    + pose proof (template_mem (P2PKH (h160 key)) Oh Lh) as [_ L]. unfold v0_code_ok, fits_memory. cbn [nilb ti_code]. cbn [template] in L. lia.
Qed.

Lemma take_p2sh T idx n p sigs script : net_in_ok n -> 0 <= fst (fst p) < 2 ^ 64 -> snd (fst p) = p2sh_script (h160 script) -> snd p = Some script -> len script <= 520 ->
  n_script n = 0 :: concat (map shortest_push sigs) ++ shortest_push script -> n_witness n = [] ->
  net_multisig false (old_digest sha256 idx script T) script sigs -> exists i, taken T idx n p i.
Proof.
  intros (N1 & N2 & N3 & N4 & N5) A Lk Tl L5 Sc W (m & keys & Em & Hm & L20 & Sf & Lm & Mt). pose proof N4 as O. rewrite Sc in O. apply bytes_ok_cons in O. destruct O as [_ O]. apply bytes_ok_app in O. destruct O as [Os Or]. apply pushed_all in Os. apply pushed_ok in Or.
  pose proof Or as Ok'. rewrite Em in Ok'. apply m_of_n_keys in Ok'. pose proof (keys_sized _ _ Sf Ok') as Fk. 
  assert (Fp : Forall (fun p => bytes_ok p /\ 2 <= len p <= 100) keys) by (eapply Forall_impl; [|exact Fk]; intros k [B1 B2]; split; [exact B2|lia]).
  pose proof (sigs_sized _ _ _ _ (old_ok _ _ _) Os Ok' Mt) as Fs. pose proof (proj2 (m_of_n_ok m keys ltac:(lia) L20 Fp)) as B. rewrite <- Em in B.
  destruct (multi_unlock sigs script) as (_ & _ & _ & _ & Lu); [eapply Forall_impl; [|exact Fs]; tauto|exact Or|lia|]. rewrite <- Sc in Lu.
  destruct (hashes sha256 Hs) as [H1 _]. destruct (H1 script) as [Oh Lh].
  exists (completed n p None (p2sh_script (h160 script)) (n_script n)). destruct p as [[a lock] told]. cbn [fst snd] in *. subst lock told. unfold taken, completed. cbn [fst snd]. rewrite W.
  split; [destruct n; cbn in *; subst; reflexivity|]. split; [reflexivity|]. split; [|split; [tauto|split]].
  - exists (P2SH (h160 script)). cbn [ti_rawlock ti_redeem ti_code ti_finallock]. split; [exact (parse_of (P2SH _) Oh Lh)|]. split; [exact (raw_locking (P2SH _) Lh)|]. split; [reflexivity|]. split; [exact (raw_locking (P2SH _) Lh)|reflexivity].
  - unfold in_ok, fits_memory. cbn [ti_hash ti_index ti_seq ti_value ti_unlock ti_witness]. change (len (@nil bytes)) with 0. repeat (split; [first [assumption|lia]|]). constructor.
  - intros t Hn Tk U St. subst script. apply (script_accepted false false idx _ t m keys sigs (old_digest sha256 idx (m_of_n m keys) T) Hn); auto; try lia; [repeat split| |].
    + apply old_ok.
    + rewrite (old_is sha256 t idx _ Tk Hn); [rewrite St; reflexivity|]. split; [exact Or|]. unfold script_code. cbn [ti_redeem]. lia.
Qed.

Lemma take_p2wsh T idx n p sigs script : net_in_ok n -> 0 <= fst (fst p) < 2 ^ 64 -> snd (fst p) = p2wsh_script (sha256 script) -> snd p = Some script -> (forall m keys, script = m_of_n m keys -> len keys <= 16) ->
  n_script n = [] -> n_witness n = [] :: sigs ++ [script] ->
  net_multisig true (new_digest sha256 n script (fst (fst p)) T) script sigs -> exists i, taken T idx n p i.
Proof.
  intros (N1 & N2 & N3 & N4 & N5) A Lk Tl L5 Sc W (m & keys & Em & Hm & L20 & Sf & Lm & Mt). pose proof N5 as O. rewrite W in O. apply Forall_inv_tail, Forall_app in O. destruct O as [Os Or]. apply Forall_inv in Or.
  pose proof Or as Ok'. rewrite Em in Ok'. apply m_of_n_keys in Ok'. pose proof (keys_sized _ _ Sf Ok') as Fk. 
  assert (Fp : Forall (fun p => bytes_ok p /\ 2 <= len p <= 100) keys) by (eapply Forall_impl; [|exact Fk]; intros k [B1 B2]; split; [exact B2|lia]).
  pose proof (sigs_sized _ _ _ _ (new_ok _ _ _ _) Os Ok' Mt) as Fs. pose proof (proj2 (m_of_n_ok m keys ltac:(lia) L20 Fp)) as B. rewrite <- Em in B.
  destruct (multi_unlock sigs script) as (_ & _ & _ & _ & Lu); [eapply Forall_impl; [|exact Fs]; tauto|exact Or|lia|].
  destruct (hashes sha256 Hs) as [H1 H2]. destruct (H1 script) as [Oh Lh]. destruct (H2 script) as [Oh' Lh']. set (u := 0 :: concat (map shortest_push sigs) ++ shortest_push script) in *.
  exists (completed n p (Some script) (p2sh_script (h160 script)) u). destruct p as [[a lock] told]. cbn [fst snd] in *. subst lock told. unfold taken, completed. cbn [fst snd]. rewrite W.
  assert (Eu : Script (AddData script (fold_left (fun b w => AddData w b) ([] :: sigs) NewScriptBuilder)) = u).
  { rewrite push_exact by lia. cbn [fold_left]. rewrite pushes_exact by (eapply Forall_impl; [|exact Fs]; intros d (_ & Ld & _); lia). reflexivity. }
  assert (Sm : small_multisig script) by (exists m, keys; split; [lia|]; split; [split; [lia|now apply (L5 m)]|]; split; [exact Fk|]; rewrite Em; now apply gen_exact; [lia|..]).
  destruct (small_multisig_seen script Sm) as (is & Ai & Im).
  split; [destruct n; cbn in *; subst; reflexivity|]. split; [reflexivity|]. split; [|split; [split; discriminate|split]].
  - exists (P2WSH (sha256 script)). cbn [ti_rawlock ti_redeem ti_code ti_finallock ti_witness ti_unlock]. split; [exact (parse_of (P2WSH _) Oh' Lh')|]. split; [exact (raw_locking (P2WSH _) Lh')|]. split; [reflexivity|]. split; [exact (raw_locking (P2SH _) Lh)|].
    split; [|rewrite <- Eu; apply script_nonempty].
    change ([] :: sigs ++ [script]) with (([] :: sigs) ++ [script]). set (ws := [] :: sigs) in *. cbn [WitnessToUnlockingScriptBytes]. rewrite len_app. change (len [script]) with 1. assert (Lw : 1 <= len ws) by (unfold ws; rewrite len_cons; pose proof (len_nonneg sigs); lia).
    replace (1 <? len ws + 1) with true by lia. replace (len ws + 1 - 1) with (len ws) by lia.
    unfold index. replace (len ws <? 0) with false by lia. rewrite to_nat_len, nth_error_app2, Nat.sub_diag by lia. cbn [nth_error rbind]. rewrite Ai, Im. 
    rewrite firstn_app, Nat.sub_diag, firstn_all. cbn [firstn]. rewrite app_nil_r. now rewrite Eu.
  - unfold in_ok, fits_memory. cbn [ti_hash ti_index ti_seq ti_value ti_unlock ti_witness]. repeat (split; [first [assumption|lia]|]). split; [rewrite len_cons, len_app; change (len [script]) with 1; lia|]. constructor; [vm_compute; discriminate|]. apply Forall_app. split; [eapply Forall_impl; [|exact Fs]; intros d (_ & Ld & _); lia|constructor; [lia|constructor]].
  - intros t Hn Tk U St. subst script. apply (script_accepted true true idx _ t m keys sigs (new_digest sha256 n (m_of_n m keys) a T) Hn); auto; try lia; [repeat split| |].
    + apply new_ok.
    + rewrite (new_is sha256 t idx _ Hn); [| |apply Tk|exact U].
      * cbn [nilb ti_code ti_value]. rewrite St. reflexivity.
      * unfold v0_code_ok, fits_memory. cbn [nilb ti_code]. lia.
Qed.

Lemma take_any T idx n p : net_in_ok n -> tells sha256 h160 n p -> few_keys sha256 p -> spends T idx n (fst (fst p)) (snd (fst p)) -> exists i, taken T idx n p i.
Proof.
  intros N [A Rv] Fk S. destruct p as [[a lock] told]. unfold few_keys in Fk. cbn [fst snd] in *. assert (Msc : len (n_script n) <= 2 ^ 48 -> in_memory (n_script n)) by (intros L; split; [apply N|exact L]). destruct S as [sig key A1 A2 A3 A4|sigs script A1 A2 A3 A4 A5|sig key A1 A2 A3 A4|sigs script A1 A2 A3 A4 A5].
  - apply (take_p2pkh T idx n (a, lock, told) sig key N A A1); auto. unfold reveals in Rv. destruct told as [s|]; [|reflexivity]. rewrite A1 in Rv. destruct Rv as [[X _]|[X _]]; discriminate.
  - assert (Tl : told = Some script).
    { unfold reveals in Rv. destruct told as [s|]; [|destruct Rv as (h & [X|X]); rewrite A1 in X; discriminate]. destruct Rv as [[X (items & Q)]|[X _]]; [|rewrite A1 in X; discriminate].
      pose proof A5 as (m & keys & Em & Hm & L20 & Sf & Lm & Mt). pose proof N as (_ & _ & _ & O & _). rewrite A3 in O. apply bytes_ok_cons in O. destruct O as [_ O]. apply bytes_ok_app in O. destruct O as [Os Or]. apply pushed_all in Os. apply pushed_ok in Or.
      pose proof Or as Ok'. rewrite Em in Ok'. apply m_of_n_keys in Ok'. pose proof (keys_sized _ _ Sf Ok') as Fk'. 
      assert (Fp : Forall (fun p => bytes_ok p /\ 2 <= len p <= 100) keys) by (eapply Forall_impl; [|exact Fk']; intros k [B1 B2]; split; [exact B2|lia]).
      pose proof (sigs_sized _ _ _ _ (old_ok _ _ _) Os Ok' Mt) as Fs. pose proof (proj2 (m_of_n_ok m keys ltac:(lia) L20 Fp)) as B. rewrite <- Em in B.
      destruct (multi_unlock sigs script) as (is & Si & Pi & _ & Lu); [eapply Forall_impl; [|exact Fs]; tauto|exact Or|lia|]. rewrite <- A3 in Lu, Si.
      assert (D : items ++ [s] = ([] :: sigs) ++ [script]) by (apply (pushing_det (n_script n)); [apply Msc; lia|exact Q|exists is; auto]). apply app_inj_tail in D. now destruct D as [_ ->]. }
    apply (take_p2sh T idx n (a, lock, told) sigs script); auto.
  - apply (take_p2wpkh T idx n (a, lock, told) sig key); auto.
  - assert (Tl : told = Some script).
    { unfold reveals in Rv. destruct told as [s|]; [|destruct Rv as (h & [X|X]); rewrite A1 in X; discriminate]. destruct Rv as [[X _]|[X (items & Q)]]; [rewrite A1 in X; discriminate|].
      rewrite A4 in Q. change ([] :: sigs ++ [script]) with (([] :: sigs) ++ [script]) in Q. apply app_inj_tail in Q. now destruct Q as [_ ->]. }
    apply (take_p2wsh T idx n (a, lock, told) sigs script); auto. intros m keys E. exact (Fk script m keys Tl A1 E).
Qed.

Lemma take_all T : forall ns ps k, Forall net_in_ok ns -> Forall2 (tells sha256 h160) ns ps -> Forall (few_keys sha256) ps ->
  (forall j n p, nth_error ns j = Some n -> nth_error ps j = Some p -> spends T (k + j) n (fst (fst p)) (snd (fst p))) ->
  exists is, length is = length ns /\ map sent_in is = ns /\ map spent is = ps /\ Forall (sendable h160) is /\ Forall (fun i => ti_witness i = [] <-> ti_code i = None) is /\ Forall in_ok is /\
    forall j i, nth_error is j = Some i -> forall t, nth_error (tx_ins t) (k + j) = Some i -> tx_ok t -> uncached t -> sent t = T -> accepted 1 (Z.of_nat (k + j)) i t.
Proof.
  induction ns as [|n ns IH]; intros ps k N F K S; inversion F as [|? p ? ps' Tp F']; subst.
  - exists []. repeat (split; [first [reflexivity|constructor]|]). intros [|j] i E; discriminate.
  - inversion N as [|? ? Nn N']; subst. inversion K as [|? ? Kp K']; subst. pose proof (S 0%nat n p eq_refl eq_refl) as S0. rewrite Nat.add_0_r in S0.
    destruct (take_any T k n p Nn Tp Kp S0) as (i & I1 & I2 & I3 & I4 & I5 & I6).
    destruct (IH ps' (Datatypes.S k) N' F' K') as (is & J0 & J1 & J2 & J3 & J4 & J5 & J6); [intros j n' p' Hn Hp; replace (Datatypes.S k + j)%nat with (k + Datatypes.S j)%nat by lia; now apply S|].
    exists (i :: is). cbn [length map]. rewrite J0, I1, J1, I2, J2. repeat (split; [first [reflexivity|constructor; assumption]|]).
    intros [|j] x E t Hn; [injection E as <-; rewrite Nat.add_0_r in *; now apply I6|]. replace (k + Datatypes.S j)%nat with (Datatypes.S k + j)%nat in * by lia. now apply J6.
Qed.

Lemma has_witness_is l : Forall (fun i => ti_witness i = [] <-> ti_code i = None) l -> existsb (fun i => match n_witness i with [] => false | _ => true end) (map sent_in l) = existsb in_has_witness l.
Proof.
  induction 1 as [|i l W F IH]; [reflexivity|]. cbn [map existsb]. rewrite IH. f_equal. unfold in_has_witness, sent_in. cbn [n_witness]. destruct (ti_witness i) as [|a w], (ti_code i) as [c|]; try reflexivity; exfalso; destruct W as [W1 W2]; [discriminate (W1 eq_refl)|discriminate (W2 eq_refl)].
Qed.

Lemma network_verified T told : net_ok T -> len (net_bytes T) <= 2 ^ 48 -> net_accepts sha256 h160 T (map fst told) -> Forall2 (tells sha256 h160) (n_ins T) told -> Forall (few_keys sha256) told ->
  exists x r, read_back (has_witness T) (net_bytes T) = Ok x /\ look_up h160 0 told x = Ok r /\ TxModel.Verify h160 DS sigVerifyFn r = Ok tt /\ map spent (tx_ins r) = told.
Proof.
  intros (V & L & Mi & Mo & Ni & No) Ln (_ & _ & Sp) Te Fk.
  destruct (take_all T (n_ins T) told 0 Ni Te Fk) as (is & J0 & J1 & J2 & J3 & J4 & J5 & J6).
  { intros j n [[a l] s] Hn Hp. cbn [fst snd Nat.add]. apply Sp; [exact Hn|]. rewrite nth_error_map, Hp. reflexivity. }
  set (t := MkTx (n_version T) (n_lock T) is (map (fun o => MkOut (fst o) (snd o)) (n_outs T)) None None None).
  assert (St : sent t = T). { unfold sent, t. cbn [tx_version tx_locktime tx_ins tx_outs]. rewrite J1, map_map. cbn [to_value to_script]. destruct T as [v ins outs lk]. cbn [n_version n_ins n_outs n_lock]. f_equal. rewrite <- (map_id outs) at 2. apply map_ext. now intros []. }
  assert (Tk : tx_ok t).
  { unfold tx_ok, t. cbn [tx_version tx_locktime tx_ins tx_outs]. repeat (split; [assumption|]). unfold fits_memory, len in *. rewrite map_length, J0. split; [exact Mi|]. split; [exact Mo|]. split; [exact J5|]. apply Forall_map. eapply Forall_impl; [|exact No]. intros o [A B]. unfold out_ok, fits_memory, len. cbn [to_value to_script]. unfold len in B. lia. }
  assert (U : uncached t) by (repeat split).
  pose proof (wire_is t Tk J4) as Ws. rewrite St in Ws. rewrite <- Ws in *.
  assert (Hw : has_witness T = HasWitness t). { unfold has_witness, HasWitness. rewrite <- J1. now apply has_witness_is. }
  destruct (received_is h160 t Tk Ln J3) as (js & Er & Re). unfold received in Er. apply rbind_ok in Er. destruct Er as (x & Ex & El). rewrite <- Hw in Ex. change (map spent (tx_ins t)) with (map spent is) in El. rewrite J2 in El.
  exists x. eexists. split; [exact Ex|]. split; [exact El|]. cbn [tx_version tx_locktime tx_outs t] in *. set (r := MkTx _ _ js _ None None None).
  assert (Cr : core r = core t) by (unfold core, r, t; cbn [tx_version tx_locktime tx_ins tx_outs]; now rewrite (restored_core _ _ Re)).
  assert (Sr : same DS 1 t r). { split; [now symmetry|]. unfold core in Cr. injection Cr as I'. unfold eff, eff_prevouts, eff_sequence, eff_outputs. unfold r at 2 4 6. unfold t at 2 4 6. cbn [tx_prevouts tx_sequence tx_outputs cached]. unfold r. cbn [tx_ins tx_outs]. unfold t. cbn [tx_ins tx_outs]. now rewrite I'. }
  split.
  - apply (verify_accepted h160 DS sigVerifyFn 1 js 0 r r); [apply same_refl|]. intros n j Hn. rewrite Z.add_0_l.
    destruct (restored_nth _ _ Re n j Hn) as (i & Hi & Ri). apply (accepted_restored h160 DS sigVerifyFn 1 _ i j r Ri). eapply accepted_same; [exact Sr|].
    apply (J6 n i Hi t Hi Tk U St).
  - rewrite <- J2. unfold r. cbn [tx_ins]. change (tx_ins t) with is in Re. clear - Re. induction Re as [|i j is js [B _] Re IH]; [reflexivity|]. cbn [map]. rewrite IH. f_equal. unfold blank in B. unfold spent. congruence.
Qed.
End Take.
