(** The program's own keys and signatures meet what TxSignSpec asks of a signature scheme. *)
From Coq Require Import Znumtheory.
From Verif Require Import GoBase BaseLemmas BigInt BigIntProofs SecpModel SecpSpec SecpGroup SecpOrder SecpLink SecpProofs SecpProps EcdsaModel EcdsaSpec EcdsaNonce EcdsaProps
  PubKeyModel PubKeySpec PubKeyProofs PubKeyProps DerModel DerSpec DerProofs DerProps RipemdModel RipemdSpec RipemdProps
  ScriptModel ScriptSpec LockModel LockSpec VmSpec VmModel VmProofs VmMore VmSig VmLock TxModel TxSignSpec TxSign TxSign2 TxSign4 WholeModel.
From Coq Require Import ZifyBool.
Local Open Scope Z_scope.

Definition hash32 (sha256 : bytes -> bytes) : Prop := forall x, bytes_ok (sha256 x) /\ len (sha256 x) = 32.

Lemma is_bytes_ok : forall b, is_bytes b = true <-> bytes_ok b.
Proof.
  intro b. unfold is_bytes, bytes_ok. rewrite forallb_forall, Forall_forall. split; intros H x Hx; specialize (H x Hx).
  - apply andb_true_iff in H. destruct H as [A B]. apply Z.leb_le in A. apply Z.leb_le in B. unfold is_byte. lia.
  - unfold is_byte in H. apply andb_true_iff. split; apply Z.leb_le; lia.
Qed.

Lemma made_good : forall k, made_key k -> 0 <= fst k /\ good (Some (snd k)) /\ multiple base (fst k) (Some (snd k)).
Proof.
  intros [D [x y]] (b & Hb & E & N). cbn [fst snd]. unfold PrvKeyFromBytes in E.
  assert (NB : ScalarBaseMult b <> Ok (0, 0)).
  { intro Z0. apply (C89_base_order b Hb) in Z0. apply Zdivide_mod in Z0. exact (N Z0). }
  rewrite ScalarBaseMult_ok in E, NB by exact Hb. cbn [rbind] in E.
  assert (ED : D = set_bytes b) by congruence. assert (EP : (x, y) = enc (gmul D gG)) by congruence. clear E.
  rewrite <- ED in NB. rewrite <- EP in NB.
  assert (HD : 0 <= D) by (rewrite ED; apply set_bytes_nonneg; exact Hb).
  split; [exact HD | ].
  destruct (gof_ex (gmul D gG)) as (P & HP). rewrite (gof_enc _ _ HP) in EP.
  destruct P as [[x0 y0] | ]; cbn [px py] in EP.
  - assert (x0 = x) by congruence. assert (y0 = y) by congruence. subst x0 y0.
    split; [exact (gof_is_good _ _ HP) | ]. apply (gof_multiple _ _ _ _ gof_base HD). exact HP.
  - exfalso. apply NB. rewrite EP. reflexivity.
Qed.

Lemma pub_bytes : forall (k : prvkey) c,
  exists x y, snd (proj1_sig k) = (x, y) /\ good (Some (x, y)) /\
    PubKeyBytes k c = (if c then (2 + parity y) :: octets 32 x else 4 :: octets 32 x ++ octets 32 y) /\
    PubKeyFromBytes (PubKeyBytes k c) = Ok (x, y).
Proof.
  intros [[D [x y]] M] c. destruct (made_good _ M) as (_ & G & _). cbn [snd] in G. exists x, y. cbn [proj1_sig snd].
  split; [reflexivity | ]. split; [exact G | ]. destruct (C70_roundtrip x y G) as (E1 & E2 & _ & R).
  unfold PubKeyBytes. cbn [proj1_sig snd]. destruct c.
  - rewrite E1. split; [reflexivity | ]. apply (R SerializeCompressed); [cbn; tauto | exact E1].
  - rewrite E2. split; [reflexivity | ]. apply (R SerializeUncompressed); [cbn; tauto | exact E2].
Qed.

Lemma pub_bytes_ok : forall (k : prvkey) c, bytes_ok (PubKeyBytes k c) /\ len (PubKeyBytes k c) = if c then 33 else 65.
Proof.
  intros k c. destruct (pub_bytes k c) as (x & y & _ & _ & E & _). rewrite E. pose proof (parity_range y) as P. unfold len. destruct c.
  - split; [ | cbn [length]; rewrite octets_length; reflexivity].
    apply bytes_ok_cons. split; [unfold is_byte; lia | apply octets_ok].
  - split; [ | cbn [length]; rewrite app_length, !octets_length; reflexivity].
    apply bytes_ok_cons. split; [unfold is_byte; lia | rewrite bytes_ok_app; auto using octets_ok].
Qed.

(** A signature of two numbers below 2^256 is at most 72 bytes long. *)
Lemma der_int_len : forall b x, der_int b x -> - 256 ^ 32 <= x < 256 ^ 32 -> bytes_ok b -> len b <= 35.
Proof.
  intros b x (c & T & M & l & F & E) R O.
  assert (Oc : bytes_ok c). { rewrite E in O. apply bytes_ok_cons in O. destruct O as [_ O]. apply bytes_ok_app in O. tauto. }
  destruct (twos_range _ _ Oc T) as [_ S]. specialize (S M).
  assert (L : len c <= 33).
  { destruct (Z_le_gt_dec (len c) 33) as [L | L]; [exact L | exfalso]. apply S; [lia | ].
    assert (256 ^ 33 <= 256 ^ (len c - 1)) by (apply Z.pow_le_mono_r; lia).
    change (256 ^ 33) with (256 * 256 ^ 32) in H. lia. }
  destruct F as [[_ ->] | [B _]]; [ | unfold len in L; lia].
  rewrite E. rewrite !len_cons, len_app. change (len [Z.of_nat (length c)]) with 1. lia.
Qed.

Lemma der_sig_len : forall b r s, der_sig b r s -> bytes_ok b -> - 256 ^ 32 <= r < 256 ^ 32 -> - 256 ^ 32 <= s < 256 ^ 32 -> 1 <= len b <= 72.
Proof.
  intros b r s (ir & is & Dr & Ds & l & F & E) O Rr Rs.
  assert (OB : bytes_ok (ir ++ is)). { rewrite E in O. apply bytes_ok_cons in O. destruct O as [_ O]. apply bytes_ok_app in O. tauto. }
  apply bytes_ok_app in OB. destruct OB as [Or Os].
  pose proof (der_int_len _ _ Dr Rr Or). pose proof (der_int_len _ _ Ds Rs Os).
  assert (L : len (ir ++ is) <= 70) by (rewrite len_app; lia).
  destruct F as [[_ ->] | [B _]]; [ | unfold len in L; lia].
  rewrite E. rewrite !len_cons, len_app. change (len [Z.of_nat (length (ir ++ is))]) with 1. pose proof (len_nonneg (ir ++ is)). lia.
Qed.

Lemma sig_bounds : forall r s, 1 <= r < order_n -> 1 <= s <= order_n / 2 -> - 256 ^ 32 <= r < 256 ^ 32 /\ - 256 ^ 32 <= s < 256 ^ 32.
Proof.
  assert (NN : order_n < 256 ^ 32) by (vm_compute; reflexivity).
  assert (N2 : order_n / 2 < 256 ^ 32) by (vm_compute; reflexivity).
  intros r s Hr Hs. generalize dependent (order_n / 2). generalize dependent order_n. intros n NN n2 Hr N2 Hs. lia.
Qed.

Section Whole.
Variable hmac : bytes -> bytes -> bytes.
Variable fuel : nat.

Lemma sign_hash_inv : forall (k : prvkey) h s, SignHash hmac fuel k h = Ok s ->
  bytes_ok h /\ exists b, bytes_ok b /\ PrvKeyFromBytes b = Ok (fst (proj1_sig k), snd (proj1_sig k)) /\
    DerModel.EcdsaSign hmac fuel (fst (proj1_sig k)) h = Some (Ok s).
Proof.
  intros [[D P] M] h s E. unfold SignHash in E. cbn [proj1_sig fst snd] in *.
  destruct (is_bytes h) eqn:B; [ | discriminate E]. apply is_bytes_ok in B. split; [exact B | ].
  destruct M as (b & Hb & K & _). exists b. split; [exact Hb | ]. split; [exact K | ].
  destruct (DerModel.EcdsaSign hmac fuel D h) as [r | ]; [congruence | discriminate E].
Qed.

Lemma sign_hash_sizes : forall (k : prvkey) h s, SignHash hmac fuel k h = Ok s -> bytes_ok s /\ 1 <= len s <= 72.
Proof.
  intros k h s E. destruct (sign_hash_inv k h s E) as (Hh & b & Hb & K & S).
  destruct (made_good _ (proj2_sig k)) as (HD & _ & MQ).
  unfold DerModel.EcdsaSign in S. destruct (Sign hmac fuel (fst (proj1_sig k)) h) as [[[r0 s0] | | ] | ] eqn:ES; try discriminate S.
  cbn [rbind] in S. assert (S' : SigSerialize r0 s0 = Ok s) by congruence.
  destruct (C64_sign hmac fuel _ h r0 s0 _ Hh HD ES MQ) as (_ & Br & Bs).
  destruct (sig_bounds r0 s0 Br Bs) as [R1 R2].
  destruct (C71_der_encode r0 s0 32 ltac:(lia) R1 R2) as (b' & EB & Ob & Db & _).
  assert (b' = s) by congruence. subst b'. split; [exact Ob | ]. exact (der_sig_len _ _ _ Db Ob R1 R2).
Qed.

Lemma verify_total : forall x y h s, good (Some (x, y)) -> bytes_ok h -> DerModel.EcdsaVerify x y h s <> Panic.
Proof.
  intros x y h s G Hh. unfold DerModel.EcdsaVerify. pose proof (C71_der_decode_total s) as T.
  destruct (SigDeserialize s) as [[r t] | | ]; cbn [rbind]; [ | discriminate | contradiction].
  destruct (C64_verify (Some (x, y)) h r t G Hh) as (b & E & _). cbn [px py] in E. rewrite E. cbn [rbind].
  destruct b; discriminate.
Qed.

Lemma parse_good : forall key x y, bytes_ok key -> PubKeyFromBytes key = Ok (x, y) -> good (Some (x, y)).
Proof. intros key x y Hk E. apply (C70_parse_exact key x y Hk) in E. destruct E as [[_ G] | [_ G]]; exact G. Qed.

Lemma scheme : scheme_ok prvkey PubKeyBytes (SignHash hmac fuel) sigVerifyFn.
Proof.
  split; [ | split; [ | split]].
  - intros k c h s E. destruct (sign_hash_inv k h s E) as (Hh & b & Hb & K & S).
    destruct (sign_hash_sizes k h s E) as [Os _]. destruct (pub_bytes_ok k c) as [Op _].
    destruct (pub_bytes k c) as (x & y & EP & G & _ & R).
    unfold sigVerifyFn. rewrite (proj2 (is_bytes_ok h) Hh), (proj2 (is_bytes_ok s) Os), (proj2 (is_bytes_ok _) Op). cbn [andb].
    rewrite R. cbn [rbind fst snd]. destruct (C71_sign_verify hmac fuel b _ _ h s Hb Hh K S) as [V _].
    rewrite EP in V. exact V.
  - intros h s p. unfold sigVerifyFn.
    destruct (is_bytes h) eqn:Bh; [ | discriminate]. destruct (is_bytes s) eqn:Bs; [ | discriminate]. destruct (is_bytes p) eqn:Bp; [ | discriminate].
    cbn [andb]. apply is_bytes_ok in Bh, Bp. pose proof (C70_total p Bp) as T.
    destruct (PubKeyFromBytes p) as [[x y] | | ] eqn:EP; cbn [rbind fst snd]; [ | discriminate | contradiction].
    apply verify_total; [exact (parse_good _ _ _ Bp EP) | exact Bh].
  - intros k h s E. destruct (sign_hash_sizes k h s E) as [O L]. split; [exact O | lia].
  - intros k c. destruct (pub_bytes_ok k c) as [O L]. split; [exact O | ]. rewrite L. destruct c; lia.
Qed.

Lemma hash160_is : forall sha256 x, hash32 sha256 -> Hash160 sha256 x = rmd160 (sha256 x).
Proof. intros sha256 x H. unfold Hash160. rewrite (proj1 (C72_digest _ (proj1 (H x)))). reflexivity. Qed.
Lemma hashes : forall sha256, hash32 sha256 -> hashes_ok (Hash160 sha256) sha256.
Proof.
  intros sha256 H. split; [ | exact H]. intro x. rewrite (hash160_is sha256 x H). destruct (C72_digest _ (proj1 (H x))) as (_ & L & O).
  split; [exact O | ]. unfold len. rewrite L. reflexivity.
Qed.

(** What the verifier's yes means. *)
Lemma verifier_inv : forall h s p, sigVerifyFn h s p = Ok tt ->
  bytes_ok h /\ bytes_ok s /\ bytes_ok p /\
  exists x y r t, PubKeyFromBytes p = Ok (x, y) /\ good (Some (x, y)) /\ SigDeserialize s = Ok (r, t) /\
    ecdsa_valid (Some (x, y)) (message_int h) r t.
Proof.
  intros h s p E. unfold sigVerifyFn in E.
  destruct (is_bytes h) eqn:Bh; [ | discriminate E]. destruct (is_bytes s) eqn:Bs; [ | discriminate E]. destruct (is_bytes p) eqn:Bp; [ | discriminate E].
  cbn [andb] in E. apply is_bytes_ok in Bh, Bs, Bp. split; [exact Bh | ]. split; [exact Bs | ]. split; [exact Bp | ].
  destruct (PubKeyFromBytes p) as [[x y] | | ] eqn:EP; cbn [rbind fst snd] in E; try discriminate E.
  pose proof (parse_good _ _ _ Bp EP) as G. unfold DerModel.EcdsaVerify in E.
  destruct (SigDeserialize s) as [[r t] | | ] eqn:D; cbn [rbind] in E; try discriminate E.
  destruct (C64_verify (Some (x, y)) h r t G Bh) as (b & EV & V). cbn [px py] in EV. rewrite EV in E. cbn [rbind] in E.
  destruct b; [ | discriminate E]. exists x, y, r, t. split; [reflexivity | ]. split; [exact G | ]. split; [reflexivity | ]. apply V. reflexivity.
Qed.
End Whole.

(** ** What earlier inputs leave of the transaction *)
Section Inputs.
Variable Hash160 DS : bytes -> bytes.
Variable verifier : bytes -> bytes -> bytes -> res unit.

Lemma after_calls_core : forall idx calls t, core (after_calls DS idx calls t) = core t.
Proof.
  intros idx calls. unfold after_calls. induction calls as [ | ht calls IH]; intro t; cbn [fold_left]; [reflexivity | ].
  rewrite IH. destruct (WitnessV0SignatureHash DS idx ht t) as [[h t'] | | ] eqn:E; try reflexivity.
  destruct (whash_same DS idx ht t h t' E) as [[C _] _]. symmetry. exact C.
Qed.

Lemma verify_from_core : forall ins idx t n i, verify_from Hash160 DS verifier idx ins t = Ok tt -> nth_error ins n = Some i ->
  exists t', core t' = core t /\ TxModel.verify_input Hash160 DS verifier (idx + Z.of_nat n) i t' = Ok tt /\
    ((forall m j, (m < n)%nat -> nth_error ins m = Some j -> exists s, ParseLockingScript (ti_rawlock j) = Ok s /\ witness_version s = false) -> t' = t).
Proof.
  induction ins as [ | x ins IH]; intros idx t n i V Hn; [destruct n; discriminate | ]. cbn [TxModel.verify_from] in V.
  apply rbind_ok in V. destruct V as ([] & V1 & V). apply rbind_ok in V. destruct V as (s & Ps & V).
  destruct n as [ | n].
  - injection Hn as <-. exists t. rewrite Z.add_0_r. split; [reflexivity | ]. split; [exact V1 | reflexivity].
  - destruct (IH _ _ n i V Hn) as (t' & C & E & U). exists t'. split; [ | split].
    + rewrite C. destruct (witness_version s); [apply after_calls_core | reflexivity].
    + replace (idx + Z.of_nat (S n)) with (idx + 1 + Z.of_nat n) by lia. exact E.
    + intro N. destruct (N 0%nat x ltac:(lia) eq_refl) as (s' & Ps' & W). assert (s' = s) by congruence. subst s'. rewrite W in U.
      apply U. intros m j Hm Hj. apply (N (S m) j); [lia | exact Hj].
Qed.

Lemma verify_nth : forall t idx i, TxModel.Verify Hash160 DS verifier t = Ok tt -> index (tx_ins t) idx = Ok i ->
  exists t', core t' = core t /\ TxModel.verify_input Hash160 DS verifier idx i t' = Ok tt /\
    ((forall m j, m < idx -> index (tx_ins t) m = Ok j -> exists s, ParseLockingScript (ti_rawlock j) = Ok s /\ witness_version s = false) -> t' = t).
Proof.
  intros t idx i V Hi. unfold index in Hi. destruct (idx <? 0) eqn:Q; [discriminate Hi | ]. apply Z.ltb_ge in Q.
  destruct (nth_error (tx_ins t) (Z.to_nat idx)) as [x | ] eqn:Hn; [ | discriminate Hi]. injection Hi as ->.
  destruct (verify_from_core _ _ _ _ _ V Hn) as (t' & C & E & U). exists t'. split; [exact C | ].
  rewrite Z.add_0_l, Z2Nat.id in E by exact Q. split; [exact E | ]. intro N. apply U. intros m j Hm Hj.
  apply (N (Z.of_nat m) j); [lia | ]. unfold index. replace (Z.of_nat m <? 0) with false by (symmetry; apply Z.ltb_ge; lia).
  rewrite Nat2Z.id, Hj. reflexivity.
Qed.

(** An accepted input whose final script is P2PKH, with a push-only unlocking script. *)
Lemma verified_pkh : forall idx i t h ds s, ParseLockingScript (ti_rawlock i) = Ok s -> ti_finallock i = p2pkh_script h -> len h = 20 ->
  in_memory (ti_unlock i ++ p2pkh_script h) -> script_pushing (ti_unlock i) ds ->
  TxModel.verify_input Hash160 DS verifier idx i t = Ok tt ->
  exists items der ht key dg, ds = items ++ [der ++ [ht]; key] /\ Hash160 key = h /\
    sigHashFn DS idx (witness_version s) t ht = Ok dg /\ verifier dg der key = Ok tt.
Proof.
  intros idx i t h ds s Ps F L M (is & So & Pu) V. unfold TxModel.verify_input in V. rewrite Ps in V. cbn [rbind] in V. rewrite F in V.
  destruct (VmModel.Verify _ _ _ _ _ _) as [st' | | ] eqn:W; try discriminate V. pose proof (mem_l _ _ M) as Mu.
  assert (X : execute Hash160 (Some (sigHashFn DS idx (witness_version s) t)) (Some verifier) (ti_unlock i) false NewEngine = Ok (Vm (rev ds) [])).
  { rewrite (exec_of Hash160 _ _ _ _ false _ Mu So). unfold NewEngine. rewrite (run_pushes _ _ _ _ _ Pu). rewrite app_nil_r. reflexivity. }
  destruct (p2pkh_needs_signature Hash160 _ _ _ _ _ _ M L X W) as (key & sig & rest & Er & Hk & der & ht & dg & Es & Hd & Hv).
  exists (rev rest), der, ht, key, dg. split; [ | tauto].
  rewrite <- (rev_involutive ds), Er. cbn [rev]. rewrite <- app_assoc. rewrite Es. reflexivity.
Qed.

(** ** Multisig redeem scripts *)
Lemma loop_sound : forall hasher keys sigs, len sigs <= len keys -> multisig_loop (Some hasher) (Some verifier) keys sigs = Ok true ->
  matched (valid_sig hasher verifier) sigs keys.
Proof.
  intros hasher keys. induction keys as [ | key keys IH]; intros sigs L E.
  - destruct sigs as [ | sg sigs]; [constructor | ]. rewrite len_cons in L. change (len (@nil bytes)) with 0 in L. pose proof (len_nonneg sigs). lia.
  - destruct sigs as [ | sg sigs]; [constructor | ]. cbn [multisig_loop] in E.
    destruct (verify_sig hasher verifier sg key) as [b | | ] eqn:V; cbn [rbind] in E; try discriminate E.
    destruct (len keys <? len (if b then sigs else sg :: sigs)) eqn:C; [discriminate E | ]. apply Z.ltb_ge in C.
    specialize (IH _ C E). destruct b.
    + apply m_take; [apply verify_sig_true; exact V | exact IH].
    + apply m_skip. exact IH.
Qed.

Lemma multisig_run : forall hasher r im mb iks pubs ine nb m s st, in_memory r ->
  script_of (multi_instrs im iks ine) r -> pushes im mb -> Forall2 pushes iks pubs -> pushes ine nb -> num_item nb (len pubs) -> num_item mb m -> 0 <= m <= len pubs ->
  execute Hash160 (Some hasher) (Some verifier) r true (Vm s []) = Ok st ->
  exists sigs dummy rest, s = rev sigs ++ dummy :: rest /\ len sigs = m /\ matched (valid_sig hasher verifier) sigs pubs.
Proof.
  intros hasher r im mb iks pubs ine nb m s st Mr Sr Pm Pk Pn Hn Hm Rm E.
  rewrite (exec_of Hash160 _ _ _ r true _ Mr Sr) in E. unfold multi_instrs in E.
  change (im :: iks ++ [ine; Instr 0xae []]) with ((im :: iks) ++ [ine] ++ [Instr 0xae []]) in E. rewrite app_assoc, run_app in E.
  assert (P3 : Forall2 pushes ((im :: iks) ++ [ine]) ((mb :: pubs) ++ [nb])) by (apply Forall2_app; [constructor; assumption | constructor; [exact Pn | constructor]]).
  rewrite (run_pushes Hash160 _ _ _ _ P3) in E. cbn [rbind VmProofs.run] in E. rewrite rev_app_distr in E. cbn [rev app] in E.
  replace (nb :: (rev pubs ++ [mb]) ++ s) with (nb :: rev pubs ++ mb :: s) in E by (rewrite <- app_assoc; reflexivity).
  rewrite step_active in E by reflexivity. revert E. known. unfold opCheckMultiSig, on_stack. cbn [dstack cstack].
  rewrite (pop_int_item nb _ _ Hn). cbn [rbind]. rewrite Int32_id by (eapply num_item_range; eauto).
  pose proof (len_nonneg pubs). replace (len pubs <? 0) with false by lia. rewrite to_nat_len. rewrite <- (rev_length pubs) at 1. rewrite pop_items_app. cbn [rbind].
  rewrite (pop_int_item mb _ _ Hm). cbn [rbind]. rewrite Int32_id by (eapply num_item_range; eauto).
  replace (len pubs <? m) with false by lia. replace (m <? 0) with false by lia.
  destruct (pop_items_any (Z.to_nat m) s) as [(xs & s' & -> & Lx & Ex) | [_ (e & Ex)]]; rewrite Ex; cbn [rbind]; [ | discriminate].
  destruct s' as [ | dummy rest]; [discriminate | ]. rewrite pop_cons. cbn [rbind].
  assert (Lxs : len xs = m) by (unfold len; lia).
  destruct (multisig_loop (Some hasher) (Some verifier) (rev pubs) xs) as [b | | ] eqn:El; cbn [rbind]; try discriminate. intro E.
  unfold PushBool, PushByteArray in E. rewrite finish_bool in E. destruct b; [ | discriminate E].
  exists (rev xs), dummy, rest. split; [rewrite rev_involutive; reflexivity | ]. split; [rewrite len_rev; exact Lxs | ].
  apply loop_sound in El; [ | rewrite len_rev; lia]. apply matched_rev_iff. rewrite rev_involutive. exact El.
Qed.

Lemma verified_sh : forall idx i t r ds s, ParseLockingScript (ti_rawlock i) = Ok s -> ti_finallock i = p2sh_script (Hash160 r) -> len (Hash160 r) = 20 ->
  in_memory (ti_unlock i ++ p2sh_script (Hash160 r)) -> script_pushing (ti_unlock i) ds -> (Hash160 (last ds []) = Hash160 r -> last ds [] = r) ->
  TxModel.verify_input Hash160 DS verifier idx i t = Ok tt -> 3 <= len ds ->
  forall m pubs, GenMultiSigScript m pubs = Ok r -> 0 <= m -> Forall (fun p => bytes_ok p /\ 2 <= len p <= 100) pubs -> len pubs < 2 ^ 20 ->
  exists items dummy sigs, ds = items ++ dummy :: sigs ++ [r] /\ len sigs = m /\
    matched (valid_sig (sigHashFn DS idx (witness_version s) t) verifier) sigs pubs.
Proof.
  intros idx i t r ds s Ps F L M (is & So & Pu) Inj V Ld m pubs G Hm Fp Lp. unfold TxModel.verify_input in V. rewrite Ps in V. cbn [rbind] in V. rewrite F in V.
  destruct (VmModel.Verify _ _ _ _ _ _) as [st' | | ] eqn:W; try discriminate V. pose proof (mem_l _ _ M) as Mu.
  assert (X : execute Hash160 (Some (sigHashFn DS idx (witness_version s) t)) (Some verifier) (ti_unlock i) false NewEngine = Ok (Vm (rev ds) [])).
  { rewrite (exec_of Hash160 _ _ _ _ false _ Mu So). unfold NewEngine. rewrite (run_pushes _ _ _ _ _ Pu). rewrite app_nil_r. reflexivity. }
  apply (p2sh_iff Hash160 _ _ _ _ _ _ M L X) in W. destruct W as (w & rest & Er & Hw & W).
  assert (Lw : last ds [] = w) by (rewrite <- (rev_involutive ds), Er; cbn [rev]; apply last_last). rewrite Lw in Inj. apply Inj in Hw. subst w.
  assert (Lr : 2 <= len rest). { apply (f_equal len) in Er. rewrite len_rev, len_cons in Er. lia. }
  destruct W as [[W _] | [_ W]]; [lia | ].
  destruct (multisig_script m pubs r G Hm Fp Lp) as (Lm & Or & Lrr & im & mb & iks & ine & nb & Sr & Pm & Pks & Pn & In & Im).
  assert (Mr : in_memory r) by (split; [exact Or | ]; clear - Lrr; lia).
  destruct (multisig_run _ r im mb iks pubs ine nb m rest st' Mr Sr Pm Pks Pn In Im ltac:(lia) W) as (sigs & dummy & rest' & E & Ls & Mt).
  exists (rev rest'), dummy, sigs. split; [ | split; assumption].
  rewrite <- (rev_involutive ds), Er, E. cbn [rev]. rewrite rev_app_distr, rev_involutive. cbn [rev]. rewrite <- !app_assoc. reflexivity.
Qed.

(** The redeem script alone satisfies its own output. *)
Lemma redeem_alone : forall idx i t r s, ParseLockingScript (ti_rawlock i) = Ok s -> ti_finallock i = p2sh_script (Hash160 r) ->
  bytes_ok (Hash160 r) -> len (Hash160 r) = 20 -> in_memory (ti_unlock i ++ p2sh_script (Hash160 r)) -> script_pushing (ti_unlock i) [r] ->
  TxModel.verify_input Hash160 DS verifier idx i t = Ok tt.
Proof.
  intros idx i t r s Ps F O L M (is & So & Pu). unfold TxModel.verify_input. rewrite Ps. cbn [rbind]. rewrite F. pose proof (mem_l _ _ M) as Mu.
  assert (X : execute Hash160 (Some (sigHashFn DS idx (witness_version s) t)) (Some verifier) (ti_unlock i) false NewEngine = Ok (Vm [r] [])).
  { rewrite (exec_of Hash160 _ _ _ _ false _ Mu So). unfold NewEngine. rewrite (run_pushes _ _ _ _ _ Pu). reflexivity. }
  rewrite (proj2 (p2sh_iff Hash160 _ verifier _ _ _ (Vm [] []) M L X)); [reflexivity | ].
  exists r, []. split; [reflexivity | ]. split; [reflexivity | ]. left. split; [vm_compute; discriminate | reflexivity].
Qed.
End Inputs.
