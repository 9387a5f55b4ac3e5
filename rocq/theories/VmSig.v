(** Signature checking: CHECKSIG, CHECKMULTISIG, and when the engine can panic. *)
From Verif Require Import GoBase BaseLemmas BufferModel BufferSpec BufferProofs BufferMore ScriptNumModel ScriptNumSpec ScriptNumProofs
  ScriptModel ScriptSpec ScriptProofs VmModel VmSpec VmProofs VmMore LockSpec.
From Coq Require Import ZifyBool ZifyNat.

(** ** Matchings. *)
Section Matched.
Context {A B : Type} (valid : A -> B -> Prop).
Lemma matched_len ss ks : matched valid ss ks -> len ss <= len ks.
Proof. induction 1; len_simpl; try lia. pose proof (len_nonneg ks). change (len (@nil A)) with 0. lia. Qed.
Lemma matched_tail s ss ks : matched valid (s :: ss) ks -> matched valid ss ks.
Proof.
  remember (s :: ss) as l. intros H. revert s ss Heql. induction H; intros s0 ss0 E; [discriminate| |].
  - injection E as -> ->. now constructor.
  - constructor. eapply IHmatched; eauto.
Qed.
Lemma matched_take s ss k ks : valid s k -> (matched valid (s :: ss) (k :: ks) <-> matched valid ss ks).
Proof. intros V. split; [|now constructor]. inversion 1; subst; [assumption|]. eapply matched_tail; eauto. Qed.
Lemma matched_drop s ss k ks : ~ valid s k -> (matched valid (s :: ss) (k :: ks) <-> matched valid (s :: ss) ks).
Proof. intros V. split; [|now constructor]. inversion 1; subst; [contradiction|assumption]. Qed.
Lemma matched_nil_r ss : matched valid ss [] -> ss = [].
Proof. inversion 1; reflexivity. Qed.
Lemma matched_snoc ss ks s k : valid s k -> matched valid ss ks -> matched valid (ss ++ [s]) (ks ++ [k]).
Proof.
  intros V. induction 1; cbn [app]; try (constructor; assumption).
  induction ks as [|k0 ks IH]; [constructor; [exact V|constructor]|]. now constructor.
Qed.
Lemma matched_weaken ss ks k : matched valid ss ks -> matched valid ss (ks ++ [k]).
Proof. induction 1; cbn [app]; constructor; assumption. Qed.
Lemma matched_rev ss ks : matched valid ss ks -> matched valid (rev ss) (rev ks).
Proof. induction 1; cbn [rev]; [constructor|now apply matched_snoc|now apply matched_weaken]. Qed.
Lemma matched_rev_iff ss ks : matched valid (rev ss) (rev ks) <-> matched valid ss ks.
Proof. split; [|apply matched_rev]. intros H. apply matched_rev in H. now rewrite !rev_involutive in H. Qed.
End Matched.

Lemma pop_items_app xs s : pop_items (length xs) (xs ++ s) = Ok (xs, s).
Proof. induction xs as [|x xs IH]; [reflexivity|]. cbn [length pop_items app]. rewrite pop_cons. cbn [rbind]. rewrite IH. reflexivity. Qed.
Lemma pop_items_any k s : (exists xs s', s = xs ++ s' /\ length xs = k /\ pop_items k s = Ok (xs, s')) \/ (length s < k)%nat /\ exists e, pop_items k s = Err e.
Proof.
  revert s; induction k as [|k IH]; intros s; [left; exists [], s; repeat split|]. cbn [pop_items].
  destruct s as [|x s]; [right; split; [cbn [length]; lia|eexists; reflexivity]|]. rewrite pop_cons. cbn [rbind].
  destruct (IH s) as [(xs & s' & -> & L & E)|[L (e & E)]]; rewrite E; cbn [rbind].
  - left. exists (x :: xs), s'. split; [reflexivity|]. split; [cbn [length]; lia|reflexivity].
  - right. split; [cbn [length]; lia|eauto].
Qed.

(** ** One signature. *)
Section Oracles.
Variable hasher : Z -> res bytes.
Variable verifier : bytes -> bytes -> bytes -> res unit.
Notation valid := (valid_sig hasher verifier).

Lemma verify_sig_snoc der ht key : verify_sig hasher verifier (der ++ [ht]) key =
  let! h := hasher ht in match verifier h der key with Ok _ => Ok true | Err _ => Ok false | Panic => Panic end.
Proof.
  unfold verify_sig. rewrite index_last. cbn [rbind].
  replace (len (der ++ [ht]) - 1) with (len der) by (rewrite len_app; change (len [ht]) with 1; lia). rewrite slice_app_l. reflexivity.
Qed.
Lemma verify_sig_nil key : verify_sig hasher verifier [] key = Panic.
Proof. reflexivity. Qed.
Lemma verify_sig_true sig key : verify_sig hasher verifier sig key = Ok true <-> valid sig key.
Proof.
  destruct (snoc_cases sig) as [->|(der & ht & ->)].
  - split; [discriminate|]. intros (d & t & h & E & _). destruct d; discriminate.
  - rewrite verify_sig_snoc. split.
    + intros H. apply rbind_ok in H. destruct H as (h & Hh & V). exists der, ht, h. split; [reflexivity|]. split; [exact Hh|].
      destruct (verifier h der key) as [[]| |]; try discriminate. reflexivity.
    + intros (d & t & h & E & Hh & V). apply app_inj_tail in E. destruct E as [<- <-]. rewrite Hh. cbn [rbind]. now rewrite V.
Qed.

(** Oracles that always return; the hasher without an error. *)
Definition oracles_return : Prop := (forall t, exists h, hasher t = Ok h) /\ (forall h s k, verifier h s k <> Panic).

Lemma verify_sig_dec (sig key : bytes) : oracles_return -> sig <> [] ->
  verify_sig hasher verifier sig key = Ok true /\ valid sig key \/ verify_sig hasher verifier sig key = Ok false /\ ~ valid sig key.
Proof.
  intros [Ho Vo] Ne. destruct (verify_sig hasher verifier sig key) as [[|]|e|] eqn:E.
  - left. split; [reflexivity|]. now apply verify_sig_true.
  - right. split; [reflexivity|]. intros V. apply verify_sig_true in V. congruence.
  - exfalso. destruct (snoc_cases sig) as [->|(der & ht & ->)]; [congruence|]. rewrite verify_sig_snoc in E. destruct (Ho ht) as (h & Hh). rewrite Hh in E.
    cbn [rbind] in E. destruct (verifier h der key); discriminate.
  - exfalso. destruct (snoc_cases sig) as [->|(der & ht & ->)]; [congruence|]. rewrite verify_sig_snoc in E. destruct (Ho ht) as (h & Hh). rewrite Hh in E.
    cbn [rbind] in E. specialize (Vo h der key). destruct (verifier h der key); congruence.
Qed.

(** ** C24: the greedy scan decides whether a matching exists. *)
Lemma multisig_loop_spec keys : oracles_return -> forall sigs : list bytes, Forall (fun s => s <> []) sigs -> len sigs <= len keys ->
  multisig_loop (Some hasher) (Some verifier) keys sigs = Ok true /\ matched valid sigs keys \/
  multisig_loop (Some hasher) (Some verifier) keys sigs = Ok false /\ ~ matched valid sigs keys.
Proof.
  intros Or. induction keys as [|key keys IH]; intros sigs Ne L.
  - destruct sigs as [|sg sigs]; [left; split; [reflexivity|constructor]|]. rewrite len_cons in L. change (len (@nil bytes)) with 0 in L. pose proof (len_nonneg sigs). lia.
  - destruct sigs as [|sg sigs]; [left; split; [reflexivity|constructor]|]. cbn [multisig_loop]. inversion Ne as [|? ? Nsg Nsigs]; subst.
    rewrite !len_cons in L.
    destruct (verify_sig_dec sg key Or Nsg) as [[E V]|[E V]]; rewrite E; cbn [rbind].
    + match goal with |- context [if ?c then _ else _] => destruct c eqn:C end; [exfalso; clear - C L; lia|]. rewrite (matched_take valid sg sigs key keys V). apply IH; [exact Nsigs|lia].
    + rewrite (matched_drop valid sg sigs key keys V). destruct (len keys <? len (sg :: sigs)) eqn:C; [|apply IH; [exact Ne|lia]].
      right. split; [reflexivity|]. intros M. apply matched_len in M. lia.
Qed.

Lemma checkmultisig H (keys sigs : list bytes) nb mb dummy rest c : oracles_return -> skipping c = false ->
  num_item nb (len keys) -> num_item mb (len sigs) -> len sigs <= len keys -> Forall (fun s => s <> []) sigs ->
  exists b, step H (Some hasher) (Some verifier) (Instr 0xae []) (Vm (nb :: rev keys ++ mb :: rev sigs ++ dummy :: rest) c) = Ok (Vm (b :: rest) c) /\
    (b = [1] /\ matched valid sigs keys \/ b = [] /\ ~ matched valid sigs keys).
Proof.
  intros Or Sk Hn Hm L Ne. rewrite step_active by exact Sk. known. unfold opCheckMultiSig, on_stack. cbn [dstack].
  rewrite (pop_int_item nb _ _ Hn). cbn [rbind]. rewrite Int32_id by (eapply num_item_range; eauto).
  pose proof (len_nonneg keys). pose proof (len_nonneg sigs). replace (len keys <? 0) with false by lia.
  rewrite to_nat_len. rewrite <- (rev_length keys). rewrite pop_items_app. cbn [rbind].
  rewrite (pop_int_item mb _ _ Hm). cbn [rbind]. rewrite Int32_id by (eapply num_item_range; eauto).
  replace (len keys <? len sigs) with false by lia. replace (len sigs <? 0) with false by lia.
  rewrite to_nat_len. rewrite <- (rev_length sigs). rewrite pop_items_app. cbn [rbind]. rewrite pop_cons. cbn [rbind].
  destruct (multisig_loop_spec (rev keys) Or (rev sigs)) as [[E M]|[E M]]; [now apply Forall_rev|unfold len in *; rewrite !rev_length; lia| |]; rewrite E; cbn [rbind]; rewrite matched_rev_iff in M.
  - exists [1]. split; [reflexivity|left; auto].
  - exists []. split; [reflexivity|right; auto].
Qed.

(** The number of signatures is compared before any of them is taken. *)
Lemma checkmultisig_more H (keys : list bytes) nb mb m rest c : skipping c = false -> num_item nb (len keys) -> num_item mb m -> len keys < m ->
  exists e, step H (Some hasher) (Some verifier) (Instr 0xae []) (Vm (nb :: rev keys ++ mb :: rest) c) = Err e.
Proof.
  intros Sk Hn Hm L. rewrite step_active by exact Sk. known. unfold opCheckMultiSig, on_stack. cbn [dstack].
  rewrite (pop_int_item nb _ _ Hn). cbn [rbind]. rewrite Int32_id by (eapply num_item_range; eauto).
  pose proof (len_nonneg keys). replace (len keys <? 0) with false by lia.
  rewrite to_nat_len. rewrite <- (rev_length keys). rewrite pop_items_app. cbn [rbind].
  rewrite (pop_int_item mb _ _ Hm). cbn [rbind]. rewrite Int32_id by (eapply num_item_range; eauto).
  replace (len keys <? m) with true by lia. cbn [rbind]. eexists. reflexivity.
Qed.

(** ** C22: when CHECKMULTISIG panics. *)
(** A negative count, or an empty signature that the scan reaches. *)
Definition hazard (s : list bytes) : Prop := exists nb n s1, s = nb :: s1 /\ num_item nb n /\
  (n < 0 \/ exists keys mb m s3, s1 = keys ++ mb :: s3 /\ len keys = n /\ num_item mb m /\ m <= n /\
    (m < 0 \/ exists (a b : list bytes) dummy s4 keys1 keys2, s3 = (a ++ [] :: b) ++ dummy :: s4 /\ len (a ++ [] :: b) = m /\
      keys = keys1 ++ keys2 /\ matched valid a keys1 /\ 1 + len b <= len keys2)).

Lemma nonempty_of_valid a k : valid a k -> a <> [].
Proof. intros (d & t & h & -> & _). destruct d; discriminate. Qed.

Lemma loop_panics keys : oracles_return -> forall sigs : list bytes, len sigs <= len keys ->
  (multisig_loop (Some hasher) (Some verifier) keys sigs = Panic <->
   exists (a b : list bytes) keys1 keys2, sigs = a ++ [] :: b /\ keys = keys1 ++ keys2 /\ matched valid a keys1 /\ 1 + len b <= len keys2).
Proof.
  intros Or. induction keys as [|key keys IH]; intros sigs L.
  - destruct sigs as [|sg sigs].
    + split; [discriminate|]. intros (a & b & _ & _ & E & _). destruct a; discriminate.
    + rewrite len_cons in L. change (len (@nil bytes)) with 0 in L. pose proof (len_nonneg sigs). lia.
  - destruct sigs as [|sg sigs]. { split; [discriminate|]. intros (a & b & _ & _ & E & _). destruct a; discriminate. }
    cbn [multisig_loop]. rewrite !len_cons in L. destruct sg as [|z0 sg0].
    + rewrite verify_sig_nil. split; [|reflexivity]. intros _. exists [], sigs, [], (key :: keys). repeat split; [constructor|]. len_simpl. lia.
    + set (sg := z0 :: sg0) in *. assert (Nsg : sg <> []) by discriminate.
      assert (Hd : forall a b, sg :: sigs = a ++ [] :: b -> exists a', a = sg :: a' /\ sigs = a' ++ [] :: b).
      { intros a b E. destruct a as [|s0 a']; [discriminate|]. cbn [app] in E. injection E as <- E. eauto. }
      destruct (verify_sig_dec sg key Or Nsg) as [[E V]|[E V]]; rewrite E; cbn [rbind].
      * match goal with |- context [if ?c then _ else _] => destruct c eqn:C end; [exfalso; clear - C L; lia|]. rewrite IH by lia. split.
        -- intros (a & b & k1 & k2 & -> & -> & M & Lk). exists (sg :: a), b, (key :: k1), k2. repeat split; [now constructor|exact Lk].
        -- intros (a & b & k1 & k2 & Es & Ek & M & Lk). destruct (Hd a b Es) as (a' & -> & ->).
           destruct k1 as [|k0 k1]; [apply matched_nil_r in M; discriminate|]. cbn [app] in Ek. injection Ek as <- ->. apply (matched_take valid sg a' key k1 V) in M.
           exists a', b, k1, k2. repeat split; assumption.
      * match goal with |- context [if ?c then _ else _] => destruct c eqn:C end.
        -- split; [discriminate|]. intros (a & b & k1 & k2 & Es & Ek & M & Lk). exfalso. destruct (Hd a b Es) as (a' & -> & Es').
           destruct k1 as [|k0 k1]; [apply matched_nil_r in M; discriminate|]. cbn [app] in Ek. injection Ek as <- Ek. apply (matched_drop valid sg a' key k1 V) in M.
           apply matched_len in M. subst keys. rewrite Es' in C. unfold len in *. cbn [length] in *. rewrite ?app_length in *. cbn [length] in *. idtac. lia.
        -- rewrite IH by lia. split.
           ++ intros (a & b & k1 & k2 & Es & -> & M & Lk). exists a, b, (key :: k1), k2. repeat split; [exact Es|now constructor|exact Lk].
           ++ intros (a & b & k1 & k2 & Es & Ek & M & Lk). destruct (Hd a b Es) as (a' & -> & Es').
              destruct k1 as [|k0 k1]; [apply matched_nil_r in M; discriminate|]. cbn [app] in Ek. injection Ek as <- Ek. apply (matched_drop valid sg a' key k1 V) in M.
              exists (sg :: a'), b, k1, k2. repeat split; auto.
Qed.

Lemma num_item_fun v n m : num_item v n -> num_item v m -> n = m.
Proof. intros ((_ & <- & _) & _) ((_ & <- & _) & _). reflexivity. Qed.

Lemma multisig_panics_iff s c : oracles_return -> Forall bytes_ok s ->
  (opCheckMultiSig (Some hasher) (Some verifier) (Vm s c) = Panic <-> hazard s).
Proof.
  intros Or F. unfold opCheckMultiSig, on_stack. cbn [dstack]. unfold hazard.
  destruct (pop_int_cases s F) as [(nb & n & s1 & -> & Hn & E)|((e & E) & N)]; rewrite E; cbn [rbind].
  2:{ split; [discriminate|]. intros (nb & n & s1 & -> & Hn & _). exfalso. eapply N; eauto. }
  inversion F as [|? ? _ F1]; subst. rewrite Int32_id by (eapply num_item_range; eauto).
  destruct (n <? 0) eqn:En. { split; [|reflexivity]. intros _. exists nb, n, s1. repeat split; try apply Hn. left. lia. }
  transitivity (exists keys mb m s3, s1 = keys ++ mb :: s3 /\ len keys = n /\ num_item mb m /\ m <= n /\
    (m < 0 \/ exists (a b : list bytes) dummy s4 keys1 keys2, s3 = (a ++ [] :: b) ++ dummy :: s4 /\ len (a ++ [] :: b) = m /\
      keys = keys1 ++ keys2 /\ matched valid a keys1 /\ 1 + len b <= len keys2)).
  2:{ split.
      - intros X. exists nb, n, s1. split; [reflexivity|]. split; [exact Hn|]. now right.
      - intros (nb' & n' & s1' & Eq & Hn' & [X|X]); injection Eq as <- <-; rewrite <- (num_item_fun nb n n' Hn Hn') in X; [lia|exact X]. }
  destruct (pop_items_any (Z.to_nat n) s1) as [(keys & s2 & -> & Lk & P)|[Ls (e & P)]]; rewrite P; cbn [rbind].
  2:{ split; [discriminate|]. intros (keys & mb & m & s3 & -> & Lk & _). exfalso. rewrite app_length in Ls. unfold len in Lk. lia. }
  assert (Lk' : len keys = n) by (unfold len; lia). apply Forall_app in F1. destruct F1 as [_ F2].
  destruct (pop_int_cases s2 F2) as [(mb & m & s3 & -> & Hm & E2)|((e & E2) & N)]; rewrite E2; cbn [rbind].
  2:{ split; [discriminate|]. intros (keys' & mb & m & s3 & Eq & Lk2 & Hm & _). exfalso. apply app_inj_len in Eq; [|unfold len in *; lia]. destruct Eq as [_ ->]. eapply N; eauto. }
  rewrite Int32_id by (eapply num_item_range; eauto). 
  transitivity (m <= n /\ (m < 0 \/ exists (a b : list bytes) dummy s4 keys1 keys2, s3 = (a ++ [] :: b) ++ dummy :: s4 /\ len (a ++ [] :: b) = m /\
      keys = keys1 ++ keys2 /\ matched valid a keys1 /\ 1 + len b <= len keys2)).
  2:{ split.
      - intros [X Y]. exists keys, mb, m, s3. repeat split; auto; apply Hm.
      - intros (keys' & mb' & m' & s3' & Eq & Lk2 & Hm' & Lmn & X). apply app_inj_len in Eq; [|unfold len in *; lia]. destruct Eq as [<- Eq]. injection Eq as <- <-.
        rewrite (num_item_fun mb m m' Hm Hm'). auto. }
  destruct (n <? m) eqn:Enm. { split; [discriminate|]. lia. }
  destruct (m <? 0) eqn:Em. { split; [|reflexivity]. intros _. split; [lia|]. left. lia. }
  destruct (pop_items_any (Z.to_nat m) s3) as [(sigs & s4 & -> & Lsg & P2)|[Ls (e & P2)]]; rewrite P2; cbn [rbind].
  2:{ split; [discriminate|]. intros (_ & [X|(a & b & dm & s4 & k1 & k2 & -> & Lm & _)]); [lia|]. exfalso. rewrite app_length in Ls. unfold len in Lm. lia. }
  destruct s4 as [|dummy s4].
  { destruct pop_nil as (e & Pn). rewrite Pn. split; [discriminate|]. intros (_ & [X|(a & b & dm & s4 & k1 & k2 & Eq & Lm & _)]); [lia|]. exfalso.
    apply (f_equal (@length bytes)) in Eq. rewrite !app_length in Eq. unfold len in Lm. rewrite app_length in Lm. cbn [length] in *. lia. }
  rewrite pop_cons. cbn [rbind]. assert (Ls' : len sigs = m) by (unfold len; lia).
  assert (LP : multisig_loop (Some hasher) (Some verifier) keys sigs = Panic <-> exists (a b : list bytes) keys1 keys2, sigs = a ++ [] :: b /\ keys = keys1 ++ keys2 /\ matched valid a keys1 /\ 1 + len b <= len keys2)
    by (apply loop_panics; [exact Or|lia]).
  split.
  - intros X. split; [lia|]. right. destruct (multisig_loop (Some hasher) (Some verifier) keys sigs) eqn:ML; try discriminate.
    apply proj1 in LP. destruct (LP eq_refl) as (a & b & k1 & k2 & -> & -> & M & Lkk). exists a, b, dummy, s4, k1, k2. repeat split; auto.
  - intros (_ & [X|(a & b & dm & s4' & k1 & k2 & Eq & Lm & -> & M & Lkk)]); [lia|]. apply app_inj_len in Eq; [|unfold len in *; lia]. destruct Eq as [-> _].
    rewrite (proj2 LP); [reflexivity|]. exists a, b, k1, k2. auto.
Qed.
End Oracles.
