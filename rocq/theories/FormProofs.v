(** Inputs in the form of the relay rules: the verdict of the program and that of the network. *)
From Verif Require Import GoBase BaseLemmas BufferModel Codec SecpModel SecpSpec EcdsaModel EcdsaSpec EcdsaProps PubKeyModel PubKeyProps DerModel DerSpec DerProps ScriptNumModel
  ScriptModel ScriptSpec ScriptProofs LockModel LockSpec LockProofs VmModel VmSpec VmProofs VmSig TxModel TxSpec TxProofs TxSig TxSignSpec TxSign TxSign2 TxSign3 WholeModel WholeProofs ReceiveSpec ReceiveProofs.
From Verif Require PubKeySpec VmCalls VmMore.
From Verif Require Import NetSpec NetProofs TakeSpec TakeProofs.
From Verif Require Import FormSpec.
From Coq Require Import ZifyBool ZifyNat ZifyN.

Lemma sig_form_inv sig der : sig_form sig -> sig = der ++ [1] -> exists r s, der_sig der r s /\ s <= order_n / 2.
Proof. intros (_ & d & r & s & E & D & L) ->. apply app_inj_tail in E. destruct E as [<- _]. eauto. Qed.
Lemma sig_form_last sig der ht : sig_form sig -> sig = der ++ [ht] -> ht = 1.
Proof. intros (_ & d & r & s & E & D & L) ->. apply app_inj_tail in E. tauto. Qed.
Lemma tlv_two tag c b : tlv tag c b -> 2 <= len b.
Proof. intros (l & [[_ ->]|(_ & k & _ & _ & ->)] & ->); rewrite len_cons, len_app, len_cons; pose proof (len_nonneg c); [change (len (@nil Z)) with 0; lia|]. pose proof (len_nonneg (octets k (Z.of_nat (length c)))). lia. Qed.
Lemma sig_form_len sig : sig_form sig -> 2 <= len sig <= 101.
Proof. intros (L & d & r & s & -> & (ir & is & _ & _ & T) & _). apply tlv_two in T. rewrite len_app in *. change (len [1]) with 1 in *. lia. Qed.
Lemma sec_form_len co key : sec_form co key -> len key = 33 \/ len key = 65.
Proof. intros [[L _]|(_ & L & _)]; auto. Qed.

(** A signature of the right form that the program accepts is one the network accepts. *)
Lemma sig_network co dg key sig der : sec_form co key -> sig_form sig -> sig = der ++ [1] -> sigVerifyFn dg der key = Ok tt -> net_sig co dg key sig.
Proof.
  intros Sf Fm Es V. split; [exact Sf|]. destruct (sig_form_inv sig der Fm Es) as (r & s & D & Ls). destruct Fm as [L _]. rewrite Es, len_app in L. change (len [1]) with 1 in L.
  destruct (verifier_inv _ _ _ V) as (_ & Od & Okk & x & y & r' & s' & Pk & G & Sd & Va).
  assert (Sd2 : SigDeserialize der = Ok (r, s)).
  { apply (C71_der_decode_exact der r s Od). destruct D as (ir & is & D1 & D2 & T). exists ir, is, [], der, []. rewrite !app_nil_r. repeat (split; [assumption|]). split; [|auto].
    assert (Q : (length (ir ++ is) <= length der)%nat) by (destruct T as (l & _ & ->); cbn [length]; rewrite (app_length l); lia). unfold len in L. lia. }
  rewrite Sd in Sd2. assert (r' = r /\ s' = s) as [-> ->] by (split; congruence).
  apply (C70_parse_exact key x y Okk) in Pk. destruct Pk as [[En _]|[E _]].
  - exists x, y, r, s, der. auto 8.
  - exfalso. destruct Sf as [[_ [H|H]]|(_ & _ & H)]; rewrite E in H; cbn [hd] in H; discriminate.
Qed.

Section Judge.
Variable sha256 : bytes -> bytes.
Hypothesis Hs : hash32 sha256.
Notation DS := (DoubleSha256 sha256).
Notation h160 := (Hash160 sha256).
Notation digest := (sigHashFn DS).
Notation spends := (net_spends sha256 h160).
Notation accepted := (accepted h160 DS sigVerifyFn).
Notation verify_input := (TxModel.verify_input h160 DS sigVerifyFn).

(** ** What an accepted input shows. *)
Lemma key_shown (w co : bool) idx i t t2 h key sig dg : (if w then spends_p2wpkh h i else spends_p2pkh h i) -> bytes_ok h -> len h = 20 ->
  ti_unlock i = shortest_push sig ++ shortest_push key -> bytes_ok key -> bytes_ok sig -> sec_form co key -> sig_form sig ->
  digest (Z.of_nat idx) w t 1 = Ok dg -> same DS 1 t t2 -> verify_input (Z.of_nat idx) i t2 = Ok tt -> h = h160 key /\ net_sig co dg key sig.
Proof.
  intros Sp Oh Lh Un Okk Oks Sf Fm Dg St V. pose proof (sig_form_len _ Fm) as Ls. pose proof (sec_form_len _ _ Sf) as Lk. set (s := if w then P2WPKH h else P2PKH h).
  assert (Raw : ti_rawlock i = template s) by (destruct w; apply Sp). assert (Fin : ti_finallock i = p2pkh_script h) by (destruct w; apply Sp).
  assert (Os : bytes_ok (obj_hash s) /\ len (obj_hash s) = obj_len s /\ witness_version s = w) by (destruct w; auto). destruct Os as (Os & Lo & Wv).
  destruct (pair_unlock sig key Oks Okk ltac:(lia) ltac:(lia)) as (is & Su & Pu & Ou & Lu). rewrite <- Un in Su, Ou, Lu.
  assert (M : in_memory (ti_unlock i ++ p2pkh_script h)).
  { split; [unfold p2pkh_script; rewrite !bytes_ok_app; repeat split; auto; bytes_ok_tac|]. unfold p2pkh_script. rewrite !len_app. change (len [118; 169; 20]) with 3. change (len [136; 172]) with 2. lia. }
  clearbody s. assert (Ps : ParseLockingScript (ti_rawlock i) = Ok s) by (rewrite Raw; now apply parse_of).
  destruct (verified_pkh h160 DS sigVerifyFn (Z.of_nat idx) i t2 h [sig; key] s Ps Fin Lh M (ex_intro _ is (conj Su Pu)) V) as (items & der & ht & k & dg' & Ed & Hk & Dg' & Vd).
  destruct items as [|x [|y [|z items]]]; [|discriminate|discriminate|destruct items; discriminate]. injection Ed as Es <-. rewrite Wv in Dg'.
  assert (ht = 1) by (eapply sig_form_last; eauto). subst ht. assert (Dg2 : digest (Z.of_nat idx) w t2 1 = Ok dg) by (rewrite <- Dg; symmetry; now apply same_digest).
  assert (dg' = dg) by congruence. subst dg'. split; [now symmetry|]. apply (sig_network co dg key sig der); auto.
Qed.

Lemma script_shown (w co : bool) idx i t t2 m pubs sigs dg : let r := m_of_n m pubs in (if w then spends_p2wsh h160 sha256 r i else spends_p2sh h160 r i) ->
  ti_unlock i = 0 :: concat (map shortest_push sigs) ++ shortest_push r -> 1 <= m <= len pubs -> len pubs <= 20 -> Forall (sec_form co) pubs -> Forall bytes_ok pubs ->
  Forall bytes_ok sigs -> Forall sig_form sigs -> len sigs = m -> digest (Z.of_nat idx) w t 1 = Ok dg -> same DS 1 t t2 -> verify_input (Z.of_nat idx) i t2 = Ok tt ->
  matched (fun sig key => net_sig co dg key sig) sigs pubs.
Proof.
  intros r Sp Un Hm Lp Sf Op Oks Fm Lm Dg St V. destruct (hashes sha256 Hs) as [H1 H2]. pose proof (H1 r) as [Oh Lh]. pose proof (H2 r) as [Oh' Lh'].
  assert (Fp : Forall (fun p => bytes_ok p /\ 2 <= len p <= 100) pubs) by (eapply Forall_impl; [|exact (keys_sized _ _ Sf Op)]; intros k [B1 B2]; split; [exact B2|lia]).
  pose proof (gen_exact m pubs ltac:(lia) Lp Fp) as Gm. fold r in Gm.
  destruct (multisig_script m pubs r Gm ltac:(lia) Fp ltac:(lia)) as (_ & Or & Lr & _).
  assert (Lr2 : 2 <= len r <= 65535) by (pose proof (proj2 (m_of_n_ok m pubs ltac:(lia) Lp Fp)) as B; fold r in B; lia).
  set (s := if w then P2WSH (sha256 r) else P2SH (h160 r)).
  assert (Raw : ti_rawlock i = template s) by (destruct w; apply Sp). assert (Fin : ti_finallock i = p2sh_script (h160 r)) by (destruct w; apply Sp).
  assert (Os : bytes_ok (obj_hash s) /\ len (obj_hash s) = obj_len s /\ witness_version s = w) by (destruct w; auto). destruct Os as (Os & Lo & Wv).
  assert (Fs : Forall (fun d => bytes_ok d /\ 2 <= len d <= 101) sigs).
  { clear - Oks Fm. induction Oks as [|d l O F IH]; [constructor|]. inversion Fm; subst. constructor; [split; [exact O|now apply sig_form_len]|now apply IH]. }
  destruct (multi_unlock sigs r Fs Or Lr2) as (is & Su & Pu & Ou & Lu). rewrite <- Un in Su, Ou, Lu.
  assert (M : in_memory (ti_unlock i ++ p2sh_script (h160 r))).
  { unfold p2sh_script. split; [rewrite !bytes_ok_app; repeat split; auto; bytes_ok_tac|]. rewrite !len_app. change (len [169; 20]) with 2. change (len [135]) with 1. lia. }
  clearbody s. assert (Ps : ParseLockingScript (ti_rawlock i) = Ok s) by (rewrite Raw; now apply parse_of).
  destruct (verified_sh h160 DS sigVerifyFn (Z.of_nat idx) i t2 r ([] :: sigs ++ [r]) s Ps Fin Lh M (ex_intro _ is (conj Su Pu))) with (m := m) (pubs := pubs) as (items & dummy & sigs' & Ed & Ls' & Mt); auto; try lia.
  { intros _. change ([] :: sigs ++ [r]) with (([] :: sigs) ++ [r]). apply last_last. }
  { rewrite len_cons, len_app. change (len [r]) with 1. lia. }
  assert (sigs' = sigs).
  { change ([] :: sigs ++ [r]) with (([] :: sigs) ++ [r]) in Ed. replace (items ++ dummy :: sigs' ++ [r]) with ((items ++ dummy :: sigs') ++ [r]) in Ed by (rewrite <- app_assoc; reflexivity).
    apply app_inj_tail in Ed. destruct Ed as [Ed _]. destruct items as [|x items]; [injection Ed as _ E; now symmetry|]. apply (f_equal len) in Ed. cbn [app] in Ed. rewrite !len_cons, len_app, len_cons in Ed. pose proof (len_nonneg items). lia. }
  subst sigs'. rewrite Wv in Mt. assert (Dg2 : digest (Z.of_nat idx) w t2 1 = Ok dg) by (rewrite <- Dg; symmetry; now apply same_digest).
  clear - Mt Sf Fm Dg2. induction Mt as [ks|sg ss k ks (der & ht & h & Es & Hd & Hv) Mt IH|ss k ks Mt IH]; [constructor| |].
  - inversion Fm as [|? ? F1 Fm']; subst. inversion Sf as [|? ? S1 Sf']; subst. apply m_take; [|now apply IH]. assert (ht = 1) by (eapply sig_form_last; [exact F1|reflexivity]). subst ht. assert (h = dg) by congruence. subst h. now apply (sig_network co dg k _ der).
  - apply m_skip. inversion Sf; subst. now apply IH.
Qed.

(** ** Inputs of the form, as the receiver completes them. *)
Definition judged (T : net_tx) (idx : nat) (n : net_in) (p : Z * bytes * obytes) (i : TxIn) : Prop :=
  sent_in i = n /\ spent i = p /\ sendable h160 i /\ (ti_witness i = [] <-> ti_code i = None) /\ in_ok i /\
  forall t, nth_error (tx_ins t) idx = Some i -> tx_ok t -> uncached t -> sent t = T ->
    (spends T idx n (fst (fst p)) (snd (fst p)) -> accepted 1 (Z.of_nat idx) i t) /\
    forall t2, same DS 1 t t2 -> verify_input (Z.of_nat idx) i t2 = Ok tt -> spends T idx n (fst (fst p)) (snd (fst p)).
Lemma p2pkh_script_inj a b : p2pkh_script a = p2pkh_script b -> a = b.
Proof. unfold p2pkh_script. intros E. injection E as E. now apply app_inv_tail in E. Qed.
Lemma p2wpkh_script_inj a b : p2wpkh_script a = p2wpkh_script b -> a = b.
Proof. unfold p2wpkh_script. intros E. now injection E as E. Qed.

Lemma judge_p2pkh T idx n p h sig key : net_in_ok n -> 0 <= fst (fst p) < 2 ^ 64 -> bytes_ok h -> len h = 20 -> snd (fst p) = p2pkh_script h -> snd p = None ->
  n_script n = shortest_push sig ++ shortest_push key -> n_witness n = [] -> sec_form false key -> sig_form sig -> exists i, judged T idx n p i.
Proof.
  intros (N1 & N2 & N3 & N4 & N5) A Oh Lh Lk Tl Sc W Sf Fm. pose proof N4 as O. rewrite Sc, bytes_ok_app in O. destruct O as [Os Okk]. apply pushed_ok in Os, Okk.
  pose proof (sig_form_len _ Fm) as Ls. pose proof (sec_form_len _ _ Sf) as Lk'. destruct (pair_unlock sig key Os Okk Ls ltac:(lia)) as (_ & _ & _ & _ & Lu). rewrite <- Sc in Lu.
  exists (completed n p None (p2pkh_script h) (n_script n)). destruct p as [[a lock] told]. cbn [fst snd] in *. subst lock told. unfold judged, completed. cbn [fst snd]. rewrite W.
  split; [destruct n; cbn in *; subst; reflexivity|]. split; [reflexivity|]. split; [|split; [tauto|split]].
  - exists (P2PKH h). cbn [ti_rawlock ti_redeem ti_code ti_finallock]. split; [exact (parse_of (P2PKH _) Oh Lh)|]. split; [exact (raw_locking (P2PKH _) Lh)|]. split; [reflexivity|]. split; [exact (raw_locking (P2PKH _) Lh)|reflexivity].
  - unfold in_ok, fits_memory. cbn [ti_hash ti_index ti_seq ti_value ti_unlock ti_witness]. change (len (@nil bytes)) with 0. repeat (split; [first [assumption|lia]|]). constructor.
  - intros t Hn Tk U St. 
    assert (Dg : digest (Z.of_nat idx) false t 1 = Ok (old_digest sha256 idx (p2pkh_script h) T)).
    { rewrite (old_is sha256 t idx _ Tk Hn); [rewrite St; reflexivity|]. pose proof (template_mem (P2PKH h) Oh Lh) as [B L]. split; [exact B|exact L]. }
    split.
    + intros S. destruct S as [sig' key' A1 A2 A3 A4|sigs script A1 _ _ _ _|sig' key' A1 _ _ _|sigs script A1 _ _ _ _]; try discriminate A1. apply p2pkh_script_inj in A1. subst h.
      pose proof N4 as O. rewrite A2, bytes_ok_app in O. destruct O as [Os' Okk']. apply pushed_ok in Os', Okk'. destruct (sig_verifies _ _ _ _ (old_ok sha256 Hs _ _ _) Okk' Os' A4) as (Ls' & L1 & _ & der & Ed & Ev).
      apply (key_accepted sha256 Hs false idx _ t key' sig' der (old_digest sha256 idx (p2pkh_script (h160 key')) T) Hn); auto; try lia. repeat split.
    + intros t2 S2 V. match type of V with TxModel.verify_input _ _ _ _ ?j _ = _ => destruct (key_shown false false idx j t t2 h key sig _ ltac:(repeat split) Oh Lh Sc Okk Os Sf Fm Dg S2 V) as [Eh Ns] end. subst h. apply (net_p2pkh sha256 h160 T idx n a _ sig key); auto.
Qed.

Lemma judge_p2wpkh T idx n p h sig key : net_in_ok n -> 0 <= fst (fst p) < 2 ^ 64 -> bytes_ok h -> len h = 20 -> snd (fst p) = p2wpkh_script h ->
  n_script n = [] -> n_witness n = [sig; key] -> sec_form true key -> sig_form sig -> exists i, judged T idx n p i.
Proof.
  intros (N1 & N2 & N3 & N4 & N5) A Oh Lh Lk Sc W Sf Fm. pose proof N5 as O. rewrite W in O. inversion O as [|? ? Os O']; subst. inversion O' as [|? ? Okk _]; subst.
  pose proof (sig_form_len _ Fm) as Ls. pose proof (sec_form_len _ _ Sf) as Lk'. destruct (pair_unlock sig key Os Okk Ls ltac:(lia)) as (_ & _ & _ & _ & Lu). set (u := shortest_push sig ++ shortest_push key) in *.
  exists (completed n p (Some (p2pkh_script h)) (p2pkh_script h) u). destruct p as [[a lock] told]. cbn [fst snd] in *. subst lock. unfold judged, completed. cbn [fst snd]. rewrite W.
  assert (Eu : Script (AddData key (AddData sig NewScriptBuilder)) = u) by (rewrite !push_exact by lia; reflexivity).
  split; [destruct n; cbn in *; subst; reflexivity|]. split; [reflexivity|]. split; [|split; [split; discriminate|split]].
  - exists (P2WPKH h). cbn [ti_rawlock ti_redeem ti_code ti_finallock ti_witness ti_unlock]. split; [exact (parse_of (P2WPKH _) Oh Lh)|]. split; [exact (raw_locking (P2WPKH _) Lh)|]. split; [exact (f_equal Some (raw_locking (P2PKH _) Lh))|]. split; [exact (raw_locking (P2PKH _) Lh)|].
    split; [cbn [WitnessToUnlockingScriptBytes]; now rewrite Eu|]. rewrite <- Eu. apply script_nonempty.
  - unfold in_ok, fits_memory. cbn [ti_hash ti_index ti_seq ti_value ti_unlock ti_witness]. repeat (split; [first [assumption|lia]|]). split; [vm_compute; discriminate|]. repeat constructor; lia.
  - intros t Hn Tk U St.
    assert (Dg : digest (Z.of_nat idx) true t 1 = Ok (new_digest sha256 n (p2pkh_script h) a T)).
    { rewrite (new_is sha256 t idx _ Hn); [|  |apply Tk|exact U].
      - cbn [nilb ti_code ti_value]. rewrite St. destruct n; cbn in *; subst; reflexivity.
      - pose proof (template_mem (P2PKH h) Oh Lh) as [_ L]. unfold v0_code_ok, fits_memory. cbn [nilb ti_code]. cbn [template] in L. lia. }
    split.
    + intros S. destruct S as [sig' key' A1 _ _ _|sigs script A1 _ _ _ _|sig' key' A1 A2 A3 A4|sigs script A1 _ _ _ _]; try discriminate A1.
      apply p2wpkh_script_inj in A1. subst h. rewrite W in A3. injection A3 as <- <-. destruct (sig_verifies _ _ _ _ (new_ok sha256 Hs _ _ _ _) Okk Os A4) as (Ls' & L1 & _ & der & Ed & Ev).
        apply (key_accepted sha256 Hs true idx _ t key sig der (new_digest sha256 n (p2pkh_script (h160 key)) a T) Hn); auto; try lia. repeat split.
    + intros t2 S2 V. match type of V with TxModel.verify_input _ _ _ _ ?j _ = _ => destruct (key_shown true true idx j t t2 h key sig _ ltac:(repeat split) Oh Lh eq_refl Okk Os Sf Fm Dg S2 V) as [Eh Ns] end. subst h. apply (net_p2wpkh sha256 h160 T idx n a _ sig key); auto.
Qed.

Lemma judge_p2sh T idx n p m keys sigs : net_in_ok n -> 0 <= fst (fst p) < 2 ^ 64 -> snd (fst p) = p2sh_script (h160 (m_of_n m keys)) -> snd p = Some (m_of_n m keys) ->
  1 <= m <= len keys -> len keys <= 20 -> len (m_of_n m keys) <= 520 -> Forall (sec_form false) keys -> len sigs = m -> Forall sig_form sigs ->
  n_script n = 0 :: concat (map shortest_push sigs) ++ shortest_push (m_of_n m keys) -> n_witness n = [] -> exists i, judged T idx n p i.
Proof.
  intros (N1 & N2 & N3 & N4 & N5) A Lk Tl Hm L20 L5 Sf Lm Fm Sc W. pose proof N4 as O. rewrite Sc in O. apply bytes_ok_cons in O. destruct O as [_ O]. apply bytes_ok_app in O. destruct O as [Os Or]. apply pushed_all in Os. apply pushed_ok in Or.
  pose proof Or as Ok'. apply m_of_n_keys in Ok'. pose proof (keys_sized _ _ Sf Ok') as Fk.
  assert (Fp : Forall (fun p => bytes_ok p /\ 2 <= len p <= 100) keys) by (eapply Forall_impl; [|exact Fk]; intros k [B1 B2]; split; [exact B2|lia]).
  assert (Fs : Forall (fun d => bytes_ok d /\ 2 <= len d <= 101) sigs).
  { clear - Os Fm. induction Os as [|d l O F IH]; [constructor|]. inversion Fm; subst. constructor; [split; [exact O|now apply sig_form_len]|now apply IH]. }
  pose proof (proj2 (m_of_n_ok m keys ltac:(lia) L20 Fp)) as B. set (script := m_of_n m keys) in *.
  destruct (multi_unlock sigs script Fs Or ltac:(lia)) as (is & Si & Pi & _ & Lu). rewrite <- Sc in Lu, Si.
  destruct (hashes sha256 Hs) as [H1 _]. destruct (H1 script) as [Oh Lh].
  exists (completed n p None (p2sh_script (h160 script)) (n_script n)). destruct p as [[a lock] told]. cbn [fst snd] in *. subst lock told. unfold judged, completed. cbn [fst snd]. rewrite W.
  split; [destruct n; cbn in *; subst; reflexivity|]. split; [reflexivity|]. split; [|split; [tauto|split]].
  - exists (P2SH (h160 script)). cbn [ti_rawlock ti_redeem ti_code ti_finallock]. split; [exact (parse_of (P2SH _) Oh Lh)|]. split; [exact (raw_locking (P2SH _) Lh)|]. split; [reflexivity|]. split; [exact (raw_locking (P2SH _) Lh)|reflexivity].
  - unfold in_ok, fits_memory. cbn [ti_hash ti_index ti_seq ti_value ti_unlock ti_witness]. change (len (@nil bytes)) with 0. repeat (split; [first [assumption|lia]|]). constructor.
  - intros t Hn Tk U St.
    assert (Dg : digest (Z.of_nat idx) false t 1 = Ok (old_digest sha256 idx script T)).
    { rewrite (old_is sha256 t idx _ Tk Hn); [rewrite St; reflexivity|]. split; [exact Or|]. unfold script_code. cbn [ti_redeem]. lia. }
    split.
    + intros S. destruct S as [sig' key' A1 _ _ _|sigs' script' A1 A2 A3 A4 A5|sig' key' A1 _ _ _|sigs' script' A1 _ _ _ _]; try discriminate A1.
      destruct A5 as (m' & keys' & Em & Hm' & L20' & Sf' & Lm' & Mt). pose proof N4 as O. rewrite A3 in O. apply bytes_ok_cons in O. destruct O as [_ O]. apply bytes_ok_app in O. destruct O as [Os' Or']. apply pushed_all in Os'. apply pushed_ok in Or'.
      pose proof Or' as Ok2. rewrite Em in Ok2. apply m_of_n_keys in Ok2. pose proof (keys_sized _ _ Sf' Ok2) as Fk'.
      assert (Fp' : Forall (fun p => bytes_ok p /\ 2 <= len p <= 100) keys') by (eapply Forall_impl; [|exact Fk']; intros k [B1 B2]; split; [exact B2|lia]).
      pose proof (sigs_sized _ _ _ _ (old_ok sha256 Hs _ _ _) Os' Ok2 Mt) as Fs'. pose proof (proj2 (m_of_n_ok m' keys' ltac:(lia) L20' Fp')) as B'. rewrite <- Em in B'.
      destruct (multi_unlock sigs' script') as (is' & Si' & Pi' & _ & Lu'); [eapply Forall_impl; [|exact Fs']; tauto|exact Or'|lia|]. rewrite <- A3 in Lu', Si'.
      assert (D : ([] :: sigs) ++ [script] = ([] :: sigs') ++ [script']) by (apply (pushing_det (n_script n)); [split; [exact N4|lia]|exists is; auto|exists is'; auto]). apply app_inj_tail in D. destruct D as [_ Escr].
      rewrite <- Escr in *. clearbody script. subst script.
      apply (script_accepted sha256 Hs false false idx _ t m' keys' sigs' (old_digest sha256 idx (m_of_n m' keys') T) Hn); auto; try lia; [repeat split|]. apply old_ok, Hs.
    + intros t2 S2 V. assert (Mt : matched (fun sig key => net_sig false (old_digest sha256 idx script T) key sig) sigs keys) by (match type of V with TxModel.verify_input _ _ _ _ ?j _ = _ => exact (script_shown false false idx j t t2 m keys sigs _ ltac:(repeat split) Sc Hm L20 Sf Ok' Os Fm Lm Dg S2 V) end).
      apply (net_p2sh sha256 h160 T idx n a _ sigs script); auto. exists m, keys. auto 8.
Qed.

Lemma judge_p2wsh T idx n p m keys sigs : net_in_ok n -> 0 <= fst (fst p) < 2 ^ 64 -> snd (fst p) = p2wsh_script (sha256 (m_of_n m keys)) -> snd p = Some (m_of_n m keys) ->
  1 <= m <= len keys -> len keys <= 16 -> Forall (sec_form true) keys -> len sigs = m -> Forall sig_form sigs ->
  n_script n = [] -> n_witness n = [] :: sigs ++ [m_of_n m keys] -> exists i, judged T idx n p i.
Proof.
  intros (N1 & N2 & N3 & N4 & N5) A Lk Tl Hm L16 Sf Lm Fm Sc W. pose proof N5 as O. rewrite W in O. apply Forall_inv_tail, Forall_app in O. destruct O as [Os Or]. apply Forall_inv in Or.
  pose proof Or as Ok'. apply m_of_n_keys in Ok'. pose proof (keys_sized _ _ Sf Ok') as Fk.
  assert (Fp : Forall (fun p => bytes_ok p /\ 2 <= len p <= 100) keys) by (eapply Forall_impl; [|exact Fk]; intros k [B1 B2]; split; [exact B2|lia]).
  assert (Fs : Forall (fun d => bytes_ok d /\ 2 <= len d <= 101) sigs).
  { clear - Os Fm. induction Os as [|d l O F IH]; [constructor|]. inversion Fm; subst. constructor; [split; [exact O|now apply sig_form_len]|now apply IH]. }
  pose proof (proj2 (m_of_n_ok m keys ltac:(lia) ltac:(lia) Fp)) as B.
  assert (L3600 : len (m_of_n m keys) <= 3600) by lia.
  assert (Sm : small_multisig (m_of_n m keys)) by (exists m, keys; split; [lia|]; split; [lia|]; split; [exact Fk|]; apply gen_exact; [lia|lia|exact Fp]).
  set (script := m_of_n m keys) in *.
  destruct (multi_unlock sigs script Fs Or ltac:(lia)) as (is & Si & Pi & _ & Lu).
  destruct (hashes sha256 Hs) as [H1 H2]. destruct (H1 script) as [Oh Lh]. destruct (H2 script) as [Oh' Lh']. set (u := 0 :: concat (map shortest_push sigs) ++ shortest_push script) in *.
  exists (completed n p (Some script) (p2sh_script (h160 script)) u). destruct p as [[a lock] told]. cbn [fst snd] in *. subst lock told. unfold judged, completed. cbn [fst snd]. rewrite W.
  assert (Eu : Script (AddData script (fold_left (fun b w => AddData w b) ([] :: sigs) NewScriptBuilder)) = u).
  { rewrite push_exact by lia. cbn [fold_left]. rewrite pushes_exact by (eapply Forall_impl; [|exact Fs]; intros d (_ & Ld); lia). reflexivity. }
  destruct (small_multisig_seen script Sm) as (is' & Ai & Im).
  split; [destruct n; cbn in *; subst; reflexivity|]. split; [reflexivity|]. split; [|split; [split; discriminate|split]].
  - exists (P2WSH (sha256 script)). cbn [ti_rawlock ti_redeem ti_code ti_finallock ti_witness ti_unlock]. split; [exact (parse_of (P2WSH _) Oh' Lh')|]. split; [exact (raw_locking (P2WSH _) Lh')|]. split; [reflexivity|]. split; [exact (raw_locking (P2SH _) Lh)|].
    split; [|rewrite <- Eu; apply script_nonempty].
    change ([] :: sigs ++ [script]) with (([] :: sigs) ++ [script]). set (ws := [] :: sigs) in *. cbn [WitnessToUnlockingScriptBytes]. rewrite len_app. change (len [script]) with 1. assert (Lw : 1 <= len ws) by (unfold ws; rewrite len_cons; pose proof (len_nonneg sigs); lia).
    replace (1 <? len ws + 1) with true by lia. replace (len ws + 1 - 1) with (len ws) by lia.
    unfold index. replace (len ws <? 0) with false by lia. rewrite to_nat_len, nth_error_app2, Nat.sub_diag by lia. cbn [nth_error rbind]. rewrite Ai, Im.
    rewrite firstn_app, Nat.sub_diag, firstn_all. cbn [firstn]. rewrite app_nil_r. now rewrite Eu.
  - unfold in_ok, fits_memory. cbn [ti_hash ti_index ti_seq ti_value ti_unlock ti_witness]. repeat (split; [first [assumption|lia]|]). split; [rewrite len_cons, len_app; change (len [script]) with 1; lia|]. constructor; [vm_compute; discriminate|]. apply Forall_app. split; [eapply Forall_impl; [|exact Fs]; intros d (_ & Ld); lia|constructor; [lia|constructor]].
  - intros t Hn Tk U St.
    assert (Dg : digest (Z.of_nat idx) true t 1 = Ok (new_digest sha256 n script a T)).
    { rewrite (new_is sha256 t idx _ Hn); [| |apply Tk|exact U].
      - cbn [nilb ti_code ti_value]. rewrite St. destruct n; cbn in *; subst; reflexivity.
      - unfold v0_code_ok, fits_memory. cbn [nilb ti_code]. lia. }
    split.
    + intros S. destruct S as [sig' key' A1 _ _ _|sigs' script' A1 _ _ _ _|sig' key' A1 _ _ _|sigs' script' A1 A2 A3 A4 A5]; try discriminate A1.
      rewrite W in A4. change ([] :: sigs ++ [script] = [] :: sigs' ++ [script']) with (([] :: sigs) ++ [script] = ([] :: sigs') ++ [script']) in A4. apply app_inj_tail in A4. destruct A4 as [Es Escr]. injection Es as Es.
      rewrite <- Escr, <- Es in *. destruct A5 as (m' & keys' & Em & Hm' & L20' & Sf' & Lm' & Mt).
      pose proof Or as Ok2. rewrite Em in Ok2. apply m_of_n_keys in Ok2. pose proof (keys_sized _ _ Sf' Ok2) as Fk'.
      assert (Fp' : Forall (fun p => bytes_ok p /\ 2 <= len p <= 100) keys') by (eapply Forall_impl; [|exact Fk']; intros k [B1 B2]; split; [exact B2|lia]).
      pose proof (sigs_sized _ _ _ _ (new_ok sha256 Hs _ _ _ _) Os Ok2 Mt) as Fs'.
      pose proof (script_accepted sha256 Hs true true idx _ t m' keys' sigs (new_digest sha256 n script a T) Hn) as Q. cbv zeta in Q. rewrite <- Em in Q.
      apply Q; auto; try lia; [repeat split|]. apply new_ok, Hs.
    + intros t2 S2 V. assert (L20 : len keys <= 20) by lia.
      assert (Mt : matched (fun sig key => net_sig true (new_digest sha256 n script a T) key sig) sigs keys) by (match type of V with TxModel.verify_input _ _ _ _ ?j _ = _ => exact (script_shown true true idx j t t2 m keys sigs _ ltac:(repeat split) eq_refl Hm L20 Sf Ok' Os Fm Lm Dg S2 V) end).
      apply (net_p2wsh sha256 h160 T idx n a _ sigs script); auto. exists m, keys. auto 8.
Qed.

Lemma judge_any T idx n p : net_in_ok n -> in_form sha256 h160 n p -> exists i, judged T idx n p i.
Proof.
  intros N [A F]. destruct F as [h sig key F1 F2 F3 F4 F5 F6 F7 F8|h sig key F1 F2 F3 F4 F5 F6 F7 F8|m keys sigs F1 F2 F3 F4 F5 F6 F7 F8 F9 F10|m keys sigs F1 F2 F3 F4 F5 F6 F7 F8 F9].
  - eapply judge_p2pkh; eauto.
  - eapply judge_p2wpkh; eauto.
  - eapply judge_p2sh; eauto.
  - eapply judge_p2wsh; eauto.
Qed.

Lemma judge_all T : forall ns ps k, Forall net_in_ok ns -> Forall2 (in_form sha256 h160) ns ps ->
  exists is, length is = length ns /\ map sent_in is = ns /\ map spent is = ps /\ Forall (sendable h160) is /\ Forall (fun i => ti_witness i = [] <-> ti_code i = None) is /\ Forall in_ok is /\
    forall j i n p, nth_error is j = Some i -> nth_error ns j = Some n -> nth_error ps j = Some p -> judged T (k + j) n p i.
Proof.
  induction ns as [|n ns IH]; intros ps k N F; inversion F as [|? p ? ps' Tp F']; subst.
  - exists []. repeat (split; [first [reflexivity|constructor]|]). intros [|j] i ? ? E; discriminate.
  - inversion N as [|? ? Nn N']; subst. destruct (judge_any T k n p Nn Tp) as (i & I). pose proof I as (I1 & I2 & I3 & I4 & I5 & _).
    destruct (IH ps' (Datatypes.S k) N' F') as (is & J0 & J1 & J2 & J3 & J4 & J5 & J6).
    exists (i :: is). cbn [length map]. rewrite J0, I1, J1, I2, J2. repeat (split; [first [reflexivity|constructor; assumption]|]).
    intros [|j] x n' p' E En Ep; [injection E as <-; injection En as <-; injection Ep as <-; now rewrite Nat.add_0_r|]. replace (k + Datatypes.S j)%nat with (Datatypes.S k + j)%nat by lia. now apply J6.
Qed.

(** What the loop of the program accepts, input by input. *)
Lemma verify_shown (T : net_tx) : forall ins idx t0 t, same DS 1 t0 t ->
  (forall n i, nth_error ins n = Some i -> forall t2, same DS 1 t0 t2 -> verify_input (idx + Z.of_nat n) i t2 = Ok tt -> accepted 1 (idx + Z.of_nat n) i t0) ->
  TxModel.verify_from h160 DS sigVerifyFn idx ins t = Ok tt -> forall n i, nth_error ins n = Some i -> exists t2, same DS 1 t0 t2 /\ verify_input (idx + Z.of_nat n) i t2 = Ok tt.
Proof.
  induction ins as [|x ins IH]; intros idx t0 t Sm A V n i Hn; [destruct n; discriminate|]. cbn [TxModel.verify_from] in V.
  apply rbind_ok in V. destruct V as ([] & V1 & V). destruct n as [|n].
  - injection Hn as ->. exists t. rewrite Z.add_0_r. auto.
  - pose proof (A 0%nat x eq_refl t Sm) as A0. rewrite Z.add_0_r in A0. destruct (A0 V1 t Sm) as (_ & s & Ps & C). rewrite Ps in V. cbn [rbind] in V.
    replace (idx + Z.of_nat (Datatypes.S n)) with (idx + 1 + Z.of_nat n) by lia.
    refine (IH (idx + 1) t0 _ _ _ V n i Hn).
    + destruct (witness_version s); [|exact Sm]. eapply same_trans; [exact Sm|]. apply after_calls_same. now apply C.
    + intros k j Hk. replace (idx + 1 + Z.of_nat k) with (idx + Z.of_nat (Datatypes.S k)) by lia. now apply A.
Qed.

Lemma same_verdict T told : net_ok T -> n_ins T <> [] -> len (net_bytes T) <= 2 ^ 48 -> Forall2 (in_form sha256 h160) (n_ins T) told ->
  exists x r, read_back (has_witness T) (net_bytes T) = Ok x /\ look_up h160 0 told x = Ok r /\ (TxModel.Verify h160 DS sigVerifyFn r = Ok tt <-> net_accepts sha256 h160 T (map fst told)).
Proof.
  intros (V & L & Mi & Mo & Ni & No) Ne Ln Te.
  destruct (judge_all T (n_ins T) told 0 Ni Te) as (is & J0 & J1 & J2 & J3 & J4 & J5 & J6).
  set (t := MkTx (n_version T) (n_lock T) is (map (fun o => MkOut (fst o) (snd o)) (n_outs T)) None None None).
  assert (St : sent t = T). { unfold sent, t. cbn [tx_version tx_locktime tx_ins tx_outs]. rewrite J1, map_map. cbn [to_value to_script]. destruct T as [v ins outs lk]. cbn [n_version n_ins n_outs n_lock]. f_equal. rewrite <- (map_id outs) at 2. apply map_ext. now intros []. }
  assert (Tk : tx_ok t).
  { unfold tx_ok, t. cbn [tx_version tx_locktime tx_ins tx_outs]. repeat (split; [assumption|]). unfold fits_memory, len in *. rewrite map_length, J0. split; [exact Mi|]. split; [exact Mo|]. split; [exact J5|]. apply Forall_map. eapply Forall_impl; [|exact No]. intros o [A B]. unfold out_ok, fits_memory, len. cbn [to_value to_script]. unfold len in B. lia. }
  assert (U : uncached t) by (repeat split).
  pose proof (wire_is t Tk J4) as Ws. rewrite St in Ws. rewrite <- Ws in *.
  assert (Hw : has_witness T = HasWitness t). { unfold has_witness, HasWitness. rewrite <- J1. now apply has_witness_is. }
  destruct (received_is h160 t Tk Ln J3) as (js & Er & Re). unfold received in Er. apply rbind_ok in Er. destruct Er as (x & Ex & El). rewrite <- Hw in Ex. change (map spent (tx_ins t)) with (map spent is) in El. rewrite J2 in El.
  exists x. eexists. split; [exact Ex|]. split; [exact El|]. cbn [tx_version tx_locktime tx_outs t] in *. set (r := MkTx _ _ js _ None None None).
  assert (Cr : core r = core t) by (unfold core, r, t; cbn [tx_version tx_locktime tx_ins tx_outs]; now rewrite (restored_core _ _ Re)).
  assert (Sr : same DS 1 t r). { split; [now symmetry|]. unfold core in Cr. injection Cr as I'. unfold eff, eff_prevouts, eff_sequence, eff_outputs. unfold r at 2 4 6. unfold t at 2 4 6. cbn [tx_prevouts tx_sequence tx_outputs cached]. unfold r. cbn [tx_ins tx_outs]. unfold t. cbn [tx_ins tx_outs]. now rewrite I'. }
  assert (Lt : length told = length (n_ins T)) by (symmetry; eapply Forall2_len; exact Te).
  assert (K : forall n j, nth_error js n = Some j -> exists i ni p, nth_error is n = Some i /\ restored i j /\ nth_error (n_ins T) n = Some ni /\ nth_error told n = Some p /\ judged T n ni p i).
  { intros n j Hn. destruct (restored_nth _ _ Re n j Hn) as (i & Hi & Ri). change (tx_ins t) with is in Hi. assert (Hl : (n < length is)%nat) by (apply nth_error_Some; congruence).
    destruct (nth_error (n_ins T) n) as [ni|] eqn:E1; [|apply nth_error_None in E1; lia]. destruct (nth_error told n) as [p|] eqn:E2; [|apply nth_error_None in E2; lia]. exists i, ni, p. repeat (split; [first [assumption|reflexivity]|]). exact (J6 n i ni p Hi E1 E2). }
  split.
  - intros Vr. split; [exact Ne|]. split; [now rewrite map_length|]. intros idx ni a lock Hi Hp.
    assert (Lj : length js = length is) by (symmetry; eapply Forall2_len; exact Re).
    assert (Hl : (idx < length (n_ins T))%nat) by (apply nth_error_Some; congruence).
    destruct (nth_error js idx) as [j|] eqn:Ej; [|apply nth_error_None in Ej; lia].
    assert (Ac : forall n i, nth_error js n = Some i -> forall t2, same DS 1 r t2 -> verify_input (0 + Z.of_nat n) i t2 = Ok tt -> accepted 1 (0 + Z.of_nat n) i r).
    { intros n j' Hn t2 S2 V2. rewrite Z.add_0_l in *. destruct (K n j' Hn) as (i & ni' & p & K1 & K2 & K3 & K4 & K5). destruct K5 as (_ & _ & _ & _ & _ & K5). destruct (K5 t K1 Tk U St) as [Kf Kb].
      apply (accepted_restored h160 DS sigVerifyFn 1 _ i j' r K2). eapply accepted_same; [exact Sr|]. apply Kf. apply (Kb t2); [eapply same_trans; eauto|]. destruct K2 as [B2 U2]. assert (ti_rawlock j' = ti_rawlock i /\ ti_finallock j' = ti_finallock i) as [R2 F2] by (unfold blank in B2; split; congruence).
      unfold TxModel.verify_input in *. rewrite <- R2, <- F2, <- U2. exact V2. }
    destruct (verify_shown T js 0 r r (same_refl _ _ _) Ac Vr idx j Ej) as (t2 & S2 & V2). rewrite Z.add_0_l in V2.
    destruct (K idx j Ej) as (i & ni' & p & K1 & K2 & K3 & K4 & K5). destruct K5 as (_ & _ & _ & _ & _ & K5). destruct (K5 t K1 Tk U St) as [_ Kb].
    assert (ni' = ni) by congruence. subst ni'. rewrite nth_error_map, K4 in Hp. cbn [option_map] in Hp. destruct p as [[a' l'] tl]. cbn [fst snd] in *. injection Hp as -> ->.
    apply (Kb t2); [eapply same_trans; eauto|]. destruct K2 as [B2 U2]. assert (ti_rawlock j = ti_rawlock i /\ ti_finallock j = ti_finallock i) as [R2 F2] by (unfold blank in B2; split; congruence).
    unfold TxModel.verify_input in *. rewrite <- R2, <- F2, <- U2. exact V2.
  - intros (_ & _ & Sp). apply (verify_accepted h160 DS sigVerifyFn 1 js 0 r r); [apply same_refl|]. intros n j Hn. rewrite Z.add_0_l.
    destruct (K n j Hn) as (i & ni' & p & K1 & K2 & K3 & K4 & K5). destruct K5 as (_ & _ & _ & _ & _ & K5). destruct (K5 t K1 Tk U St) as [Kf _].
    apply (accepted_restored h160 DS sigVerifyFn 1 _ i j r K2). eapply accepted_same; [exact Sr|]. apply Kf. apply Sp; [exact K3|]. rewrite nth_error_map, K4. destruct p as [[a' l'] tl]. reflexivity.
Qed.
End Judge.
