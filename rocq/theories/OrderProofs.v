(** The order in which the keys of a multisig output are given for signing. *)
From Verif Require Import GoBase BaseLemmas BufferModel Codec SecpModel SecpSpec EcdsaModel EcdsaSpec EcdsaProps PubKeyModel PubKeyProps DerModel DerSpec DerProps ScriptNumModel
  ScriptModel ScriptSpec ScriptProofs LockModel LockSpec LockProofs VmModel VmSpec VmProofs VmSig TxModel TxSpec TxProofs TxSig TxSignSpec TxSign TxSign2 TxSign3 TxSign4 TxSignProps WholeModel WholeProofs WholeProps.
From Verif Require PubKeySpec.
From Verif Require Import OneKeyProofs OneKeyProps.
From Coq Require Import ZifyBool ZifyNat ZifyN.
Local Open Scope Z_scope.

(** The size of a script that pushes items. *)
Fixpoint total (ds : list bytes) : Z := match ds with [] => 0 | d :: ds => 5 + len d + total ds end.
Lemma total_app a b : total (a ++ b) = total a + total b.
Proof. induction a as [|x a IH]; cbn [total app]; [lia|]. rewrite IH. lia. Qed.
Lemma total_bound ds m : Forall (fun d => len d <= m) ds -> total ds <= (5 + m) * len ds.
Proof. induction 1 as [|d ds L F IH]; [unfold len; cbn; lia|]. cbn [total]. rewrite len_cons. lia. Qed.
Lemma pushing_mem u ds : script_pushing u ds -> Forall bytes_ok ds -> bytes_ok u /\ len u <= total ds.
Proof.
  intros (is & So & Pu) F. revert u So. induction Pu as [|i d is ds P Pu IH]; intros u So; [inversion So; subst; split; [constructor|vm_compute; discriminate]|].
  inversion So as [|? e ? u' En So']; subst. inversion F as [|? ? Od F']; subst. destruct (IH F' u' So') as [Ou Lu]. rewrite bytes_ok_app, len_app. cbn [total].
  assert (bytes_ok e /\ len e <= 5 + len d); [|split; [tauto|lia]]. clear IH So So' F F' Ou Lu Pu. pose proof (len_nonneg d) as Nd.
  inversion En as [op I|op da B L|n da L B|l da L B V|l da L B V]; subst.
  - assert (B : bytes_ok [op]) by (inversion P; subst; repeat constructor; unfold is_byte; lia). split; [exact B|]. change (len [op]) with 1. lia.
  - inversion P; subst; try lia. split; [constructor; [unfold is_byte; lia|exact Od]|rewrite len_cons; lia].
  - inversion P; subst; try lia. split; [constructor; [unfold is_byte; lia|constructor; [unfold is_byte; lia|exact Od]]|rewrite !len_cons; lia].
  - inversion P; subst; try lia. split; [constructor; [unfold is_byte; lia|]; apply Forall_app; auto|rewrite len_cons, len_app; unfold len at 1; rewrite L; lia].
  - inversion P; subst; try lia. split; [constructor; [unfold is_byte; lia|]; apply Forall_app; auto|rewrite len_cons, len_app; unfold len at 1; rewrite L; lia].
Qed.

(** [apart h k o]: the signature of [k] for [h] does not by chance fit the different key [o] (C144). *)
Definition apart hmac fuel (h : bytes) (k o : prvkey) : Prop :=
  forall der, SignHash hmac fuel k h = Ok der -> exists r s, SigDeserialize der = Ok (r, s) /\ prime_p - order_n <= r /\
    (2 * message_int h + r * (fst (proj1_sig k) + fst (proj1_sig o))) mod order_n <> 0.
Lemma fits_own hmac fuel c h (k o : prvkey) der : SignHash hmac fuel k h = Ok der -> apart hmac fuel h k o -> sigVerifyFn h der (PubKeyBytes o c) = Ok tt -> snd (proj1_sig o) = snd (proj1_sig k).
Proof.
  intros E Ap V. destruct (Ap der E) as (r & s & D & Lr & Nz). destruct (made_good _ (proj2_sig k)) as (_ & Gk & Mk). destruct (made_good _ (proj2_sig o)) as (_ & Go & Mo).
  destruct (scheme hmac fuel) as (Own & _). pose proof (Own k c h der E) as Vk.
  assert (P : forall q : prvkey, sigVerifyFn h der (PubKeyBytes q c) = Ok tt -> bytes_ok h /\ EcdsaModel.Verify (px (Some (snd (proj1_sig q)))) (py (Some (snd (proj1_sig q)))) h r s = Ok true).
  { intros q Vq. destruct (verifier_inv _ _ _ Vq) as (Oh & _ & Okq & x & y & r' & s' & Pk & G & Sd & Va). split; [exact Oh|]. assert (r' = r /\ s' = s) as [-> ->] by (rewrite D in Sd; split; congruence).
    destruct (pub_bytes q c) as (x0 & y0 & P0 & G0 & Kb & _). apply (C70_parse_exact _ x y Okq) in Pk.
    assert (PubKeyFromBytes (PubKeyBytes q c) = Ok (x0, y0)) as Pk0 by (apply (C70_parse_exact _ _ _ Okq); left; split; [rewrite Kb; destruct c; constructor|exact G0]).
    apply (C70_parse_exact _ x y Okq) in Pk. assert (x = x0 /\ y = y0) as [-> ->] by (split; congruence). rewrite P0. cbn [px py fst snd].
    destruct (C64_verify (Some (x0, y0)) h r s G0 Oh) as (b & Eb & Vb). cbn [px py] in Eb. rewrite Eb. f_equal. now apply Vb. }
  destruct (P k Vk) as [Oh V1]. destruct (P o V) as [_ V2].
  apply (C144_two_keys_partial _ _ _ _ h r s Gk Go Mk Mo Oh Lr V1) in V2. destruct V2 as [V2|V2]; [congruence|contradiction].
Qed.
Lemma sign_same sha256 DS (PK : prvkey -> bool -> bytes) SH idx c ht ks t i t' : index (tx_ins t) idx = Ok i -> ks <> [] -> SignIndex sha256 DS prvkey PK SH idx c ht ks t = Ok t' -> same DS ht t t'.
Proof.
  intros Hi Nk E. unfold TxModel.SignIndex in E. rewrite Hi in E. cbn [rbind] in E. destruct ((1 <? len ks) && _); [discriminate|].
  apply rbind_ok in E. destruct E as ((signs & t1) & El & E). destruct (sign_loop_spec (fun x => x) sha256 DS prvkey PK SH (fun _ _ _ => Ok tt) idx c ht ks t i signs t1 Hi El) as (S1 & (i1 & Hi1) & _).
  eapply same_trans; [exact S1|]. unfold EmbedIdxSignature in E. rewrite Hi1 in E. cbn [rbind] in E. destruct ((1 <? len signs) && _); [discriminate|].
  destruct (ParseLockingScript (ti_rawlock i1)) as [s| |]; cbn [rbind] in E; try discriminate.
  destruct (GetRawUnlockingScriptBytes _ _ _ _) as [u| |]; [|assert (Et : t' = set_in idx (with_unlock []) t1) by congruence; rewrite Et; apply set_in_same; reflexivity|discriminate].
  destruct (GetWitnessUnlockingScriptBytes _ _ _ _) as [ws| |]; cbn [rbind] in E; try discriminate.
  assert (Et : t' = set_in idx (fun i => with_witness ws (with_unlock u i)) t1) by congruence. rewrite Et. apply set_in_same. reflexivity.
Qed.

Lemma matched_back hmac fuel c (hasher : Z -> res bytes) ht h : hasher ht = Ok h -> forall sigs pubs, matched (valid_sig hasher sigVerifyFn) sigs pubs -> forall ks owners,
  Forall2 (fun k sg => exists der, SignHash hmac fuel k h = Ok der /\ sg = der ++ [ht]) ks sigs -> pubs = map (fun o => PubKeyBytes o c) owners ->
  (forall k o, In k ks -> In o owners -> snd (proj1_sig k) <> snd (proj1_sig o) -> apart hmac fuel h k o) ->
  matched (fun k o : prvkey => snd (proj1_sig k) = snd (proj1_sig o)) ks owners.
Proof.
  intros Hd sigs pubs M. induction M as [pubs|sg sigs p pubs (der & ht' & h' & Es & Hd' & V) M IH|sigs p pubs M IH]; intros ks owners F Ep Ap.
  - inversion F; subst. constructor.
  - inversion F as [|k ? ks' ? (der' & Sk & Ek) F']; subst. destruct owners as [|o owners]; [discriminate|]. cbn [map] in Ep. injection Ep as -> Ep. apply app_inj_tail in Ek. destruct Ek as [-> ->]. assert (h' = h) by congruence. subst h'. constructor.
    + destruct (snd (proj1_sig k)) as [a b] eqn:Ea, (snd (proj1_sig o)) as [a' b'] eqn:Eb. destruct (Z.eq_dec a a') as [->|N]; [destruct (Z.eq_dec b b') as [->|N]; [reflexivity|]|];
      (rewrite <- Ea, <- Eb; symmetry; apply (fits_own hmac fuel c h k o der' Sk); [|exact V]; apply Ap; [now left|now left|rewrite Ea, Eb; congruence]).
    + apply IH; auto. intros k0 o0 I1 I2. apply Ap; now right.
  - destruct owners as [|o owners]; [discriminate|]. cbn [map] in Ep. injection Ep as -> Ep. constructor. apply IH; auto. intros k0 o0 I1 I2. apply Ap; [exact I1|now right].
Qed.
Lemma matched_forward c ks (owners : list prvkey) : matched (fun k o : prvkey => snd (proj1_sig k) = snd (proj1_sig o)) ks owners -> matched (fun k p => p = PubKeyBytes k c) ks (map (fun o => PubKeyBytes o c) owners).
Proof. induction 1 as [os|k ks o os E M IH|ks o os M IH]; cbn [map]; constructor; auto. unfold PubKeyBytes. now rewrite E. Qed.

Lemma order_matters sha256 hmac fuel idx c ht ks owners r t i t' i' : hash32 sha256 -> 0 <= ht < 256 -> index (tx_ins t) idx = Ok i ->
  GenMultiSigScript (len ks) (map (fun o => PubKeyBytes o c) owners) = Ok r -> ks <> [] -> len owners < 2 ^ 20 -> spends_p2sh (Hash160 sha256) r i \/ spends_p2wsh (Hash160 sha256) sha256 r i ->
  (forall h k o, sigHashFn (DoubleSha256 sha256) idx (in_has_witness i) t ht = Ok h -> In k ks -> In o owners -> snd (proj1_sig k) <> snd (proj1_sig o) -> apart hmac fuel h k o) ->
  SignIndex sha256 (DoubleSha256 sha256) prvkey PubKeyBytes (SignHash hmac fuel) idx c ht ks t = Ok t' -> index (tx_ins t') idx = Ok i' ->
  TxModel.verify_input (Hash160 sha256) (DoubleSha256 sha256) sigVerifyFn idx i' t' = Ok tt <-> matched (fun k o : prvkey => snd (proj1_sig k) = snd (proj1_sig o)) ks owners.
Proof.
  intros Hs R Hi G Nk Lo Sp Ap E Hi'. set (pubs := map (fun o => PubKeyBytes o c) owners) in *.
  assert (Fp : Forall (fun p => bytes_ok p /\ 2 <= len p <= 100) pubs).
  { apply Forall_map. apply Forall_forall. intros o _. destruct (pub_bytes_ok o c) as [O L]. split; [exact O|]. rewrite L. destruct c; lia. }
  assert (Lp : len pubs < 2 ^ 20) by (unfold pubs, len; rewrite map_length; exact Lo). pose proof (scheme hmac fuel) as Sc. pose proof (hashes sha256 Hs) as Hh. split.
  2:{ intros M. assert (Mf : multisig_for prvkey PubKeyBytes c ks pubs r) by (split; [exact G|]; split; [exact Nk|]; split; [now apply matched_forward|]; auto).
      destruct (C43_multisig_signed_verifies (Hash160 sha256) sha256 (DoubleSha256 sha256) prvkey PubKeyBytes (SignHash hmac fuel) sigVerifyFn idx c ht ks pubs r t i Sc Hh R Hi Mf Sp) as [V _].
      destruct (V t' E) as (i2 & Hi2 & V2). assert (i2 = i') by congruence. now subst i2. }
  intros V. destruct (multisig_script (len ks) pubs r G (len_nonneg ks) Fp Lp) as (Lm & Or & Lr & _). assert (Lk : 1 <= len ks) by (destruct ks; [congruence|rewrite len_cons; pose proof (len_nonneg ks); lia]).
  assert (Pr : pushable r) by (split; [exact Or|]; split; [lia|]; split; intros ->; vm_compute in Lr; intuition congruence).
  destruct Hh as [H1 H2]. destruct (H1 r) as [O1 L1]. destruct (H2 r) as [O2 L2].
  set (w := in_has_witness i) in *. assert (Sw : exists s, ti_rawlock i = template s /\ bytes_ok (obj_hash s) /\ len (obj_hash s) = obj_len s /\ witness_version s = w /\ (s = P2SH (Hash160 sha256 r) \/ s = P2WSH (sha256 r))).
  { destruct Sp as [Sp|Sp]; [exists (P2SH (Hash160 sha256 r))|exists (P2WSH (sha256 r))]; (split; [apply Sp|]; split; [assumption|]; split; [assumption|]; split; [|auto]; unfold w, in_has_witness; destruct Sp as (_ & _ & _ & ->); reflexivity). }
  destruct Sw as (s & Raw & Os & Ls & Wv & Ks). assert (Fin : ti_finallock i = p2sh_script (Hash160 sha256 r) /\ ti_redeem i = Some r) by (destruct Sp as [Sp|Sp]; split; apply Sp). destruct Fin as [Fin Rd].
  assert (Ps : ParseLockingScript (ti_rawlock i) = Ok s) by (rewrite Raw; now apply parse_of).
  pose proof (sign_same _ _ _ _ idx c ht ks t i t' Hi Nk E) as Sm.
  destruct (C44_sign_leaves_signature_partial (Hash160 sha256) sha256 (DoubleSha256 sha256) prvkey PubKeyBytes (SignHash hmac fuel) sigVerifyFn idx c ht ks t i t' s Sc R Hi Ps) as (i2 & h & sigs & Hi2 & Dg & F & U); auto; [rewrite Rd; exact Pr|].
  assert (i2 = i') by congruence. subst i2. rewrite Rd in U. cbn [nilb] in U.
  assert (Sp' : script_pushing (ti_unlock i') ([] :: sigs ++ [r])).
  { destruct U as [(p & -> & N & _)|U]; [exfalso; destruct Ks as [Ks|Ks]; [discriminate|]; congruence|]. destruct Ks as [-> | ->]; apply U. }
  destruct (core_index t t' idx i (proj1 Sm) Hi) as (i2 & Hi2' & Bl). assert (i2 = i') by congruence. subst i2.
  assert (Raw' : ti_rawlock i' = ti_rawlock i /\ ti_finallock i' = ti_finallock i) by (unfold blank in Bl; split; congruence). destruct Raw' as [Raw' Fin'].
  assert (Ob : Forall (fun d => bytes_ok d /\ len d <= 101) sigs).
  { clear - F R. induction F as [|k sg ks sigs (der & Sk & ->) F IH]; constructor; [|exact IH]. destruct (sign_hash_sizes hmac fuel k h der Sk) as [O L]. split; [apply bytes_ok_app; split; [exact O|repeat constructor; unfold is_byte; lia]|]. rewrite len_app. change (len [ht]) with 1. lia. }
  assert (Lsg : len sigs = len ks) by (unfold len; f_equal; symmetry; exact (Forall2_len _ _ _ F)).
  assert (M : in_memory (ti_unlock i' ++ p2sh_script (Hash160 sha256 r))).
  { destruct (pushing_mem _ _ Sp') as [Ou Lu]. { constructor; [constructor|]. apply Forall_app. split; [eapply Forall_impl; [|exact Ob]; tauto|repeat constructor; exact Or]. }
    assert (Lt : total sigs <= (5 + 101) * len sigs) by (apply total_bound; eapply Forall_impl; [|exact Ob]; tauto). cbn [total] in Lu. rewrite total_app in Lu. cbn [total] in Lu. change (len (@nil Z)) with 0 in Lu.
    unfold p2sh_script. split; [rewrite !bytes_ok_app; repeat split; auto; bytes_ok_tac|]. rewrite !len_app. change (len [169; 20]) with 2. change (len [135]) with 1. lia. }
  destruct (verified_sh (Hash160 sha256) (DoubleSha256 sha256) sigVerifyFn idx i' t' r ([] :: sigs ++ [r]) s) with (m := len ks) (pubs := pubs) as (items & dummy & sigs' & Ed & Ls' & Mt); auto; try lia; try congruence.
  { intros _. change ([] :: sigs ++ [r]) with (([] :: sigs) ++ [r]). apply last_last. }
  { rewrite len_cons, len_app. change (len [r]) with 1. lia. }
  assert (sigs' = sigs).
  { change ([] :: sigs ++ [r]) with (([] :: sigs) ++ [r]) in Ed. replace (items ++ dummy :: sigs' ++ [r]) with ((items ++ dummy :: sigs') ++ [r]) in Ed by (rewrite <- app_assoc; reflexivity).
    apply app_inj_tail in Ed. destruct Ed as [Ed _]. destruct items as [|x items]; [injection Ed as _ Ee; now symmetry|]. apply (f_equal len) in Ed. cbn [app] in Ed. rewrite !len_cons, len_app, len_cons in Ed. pose proof (len_nonneg items). lia. }
  subst sigs'. rewrite Wv in Mt. apply (matched_back hmac fuel c (sigHashFn (DoubleSha256 sha256) idx w t') ht h) with (sigs := sigs) (pubs := pubs); auto.
  { rewrite <- Dg. symmetry. now apply same_digest. }
Qed.
