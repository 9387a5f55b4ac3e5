(** C109, C110: where new mnemonics come from, and the package-wide word list. *)
From Verif Require Import GoBase BaseLemmas Sha256 Sha256Proofs Bip39Model Bip39Spec Bip39Proofs Bip39More Bip39Words Bip39Lists Bip39Props SeedModel RandModel.
From Coq Require Import ZArith Lia.
Local Open Scope Z_scope.

(** The generator fills what it is asked to fill, with octets. *)
Definition fills (gen : Z -> Z -> bytes) : Prop := forall s n, 0 <= n -> len (gen s n) = n /\ bytes_ok (gen s n).
Definition digest32 (sha256 : bytes -> bytes) : Prop := forall b, length (sha256 b) = 32%nat /\ bytes_ok (sha256 b).

Lemma list_good l : good_list (words_of l).
Proof. destruct l; [exact english_good|exact chinese_good|exact japanese_good]. Qed.
Lemma seed_range now : 1 <= rng_seed now <= 2147483646.
Proof.
  unfold rng_seed. cbv zeta. pose proof (Z.rem_bound_abs now 2147483647 ltac:(lia)) as B. set (r := Z.rem now 2147483647) in *. clearbody r.
  destruct (Z.ltb_spec r 0); destruct (Z.eqb_spec (if true then r else r) 0); cbn in *; try (destruct (Z.eqb_spec (r + 2147483647) 0)); try (destruct (Z.eqb_spec r 0)); lia.
Qed.
Lemma new_bip39 sha256 gen l now : digest32 sha256 -> fills gen ->
  let e := gen (rng_seed now) 16 in
  bytes_ok e /\ length e = 16%nat /\ NewBIP39 sha256 gen l now = (Ok {| b39_entropy := e; b39_mnemonic := sentence (bip39_words sha256 (words_of l) e) |}, words_of l).
Proof.
  intros H F e. destruct (F (rng_seed now) 16 ltac:(lia)) as [L B]. fold e in L, B. assert (L' : length e = 16%nat) by (unfold len in L; lia). split; [exact B|]. split; [exact L'|].
  unfold NewBIP39, NewEntropyAt, NewEntropy. change (validateEntropyBitSize 128) with true. cbv iota. change (Z.quot 128 8) with 16. fold e. cbn [rbind].
  destruct (C58_mnemonic_roundtrip sha256 H (words_of l) (list_good l) e B) as [R _]. rewrite L' in R. destruct R as (R & _); [cbn; tauto|]. rewrite R. reflexivity.
Qed.

(** C109: a new mnemonic is twelve words of the chosen list that encode the sixteen drawn octets ... *)
Theorem C109_new : forall sha256 gen l now, digest32 sha256 -> fills gen ->
  exists e, fst (NewBIP39 sha256 gen l now) = Ok {| b39_entropy := e; b39_mnemonic := sentence (bip39_words sha256 (words_of l) e) |} /\
  bytes_ok e /\ length e = 16%nat /\ length (bip39_words sha256 (words_of l) e) = 12%nat /\
  EntropyFromMnemonic sha256 (words_of l) (sentence (bip39_words sha256 (words_of l) e)) = Ok e.
Proof.
  intros sha256 gen l now H F. destruct (new_bip39 sha256 gen l now H F) as (B & L & E). exists (gen (rng_seed now) 16). rewrite E. split; [reflexivity|]. split; [exact B|]. split; [exact L|].
  destruct (C58_mnemonic_roundtrip sha256 H (words_of l) (list_good l) _ B) as [R _]. rewrite L in R. destruct R as (_ & N & _ & D); [cbn; tauto|]. split; [exact N|exact D].
Qed.
Print Assumptions C109_new.

(** More pigeons than holes: some pigeon is in none. *)
Lemma missed (A B : list bytes) : NoDup A -> (length B < length A)%nat -> exists a, In a A /\ ~ In a B.
Proof.
  intros N L. destruct (existsb (fun a => negb (existsb (list_Z_eqb a) B)) A) eqn:E.
  - apply existsb_exists in E. destruct E as (a & I & Q). exists a. split; [exact I|]. intros J. apply negb_true_iff in Q.
    assert (T : existsb (list_Z_eqb a) B = true) by (apply existsb_exists; exists a; split; [exact J|apply list_Z_eqb_refl]). congruence.
  - exfalso. apply (Nat.lt_irrefl (length A)). apply Nat.le_lt_trans with (length B); [|exact L]. apply NoDup_incl_length; [exact N|]. intros a I.
    destruct (existsb (list_Z_eqb a) B) eqn:T.
    + apply existsb_exists in T. destruct T as (b & J & Q). apply list_Z_eqb_spec in Q. now subst.
    + assert (existsb (fun a => negb (existsb (list_Z_eqb a) B)) A = true) by (apply existsb_exists; exists a; split; [exact I|now rewrite T]). congruence.
Qed.
Definition spread (i : nat) : bytes := let z := Z.of_nat i in [z mod 256; z / 256 mod 256; z / 65536 mod 256; z / 16777216 mod 256] ++ repeat 0 12.
Lemma spread_inj i j : Z.of_nat i < 4294967296 -> Z.of_nat j < 4294967296 -> spread i = spread j -> i = j.
Proof.
  intros I J E. unfold spread in E. cbv zeta in E. apply app_inv_tail in E.
  set (a := Z.of_nat i) in *. set (b := Z.of_nat j) in *. assert (0 <= a /\ 0 <= b) by (unfold a, b; lia).
  assert (Q : a = b). { injection E as E0 E1 E2 E3. Z.div_mod_to_equations. lia. }
  unfold a, b in Q. lia.
Qed.
Lemma spread_ok i : bytes_ok (spread i) /\ length (spread i) = 16%nat.
Proof.
  split; [|reflexivity]. unfold spread. cbv zeta. unfold bytes_ok. cbn [app]. do 4 (apply Forall_cons; [apply Z.mod_pos_bound; lia|]).
  apply Forall_forall. intros x X. apply repeat_spec in X. subst. unfold is_byte. lia.
Qed.
Lemma map_distinct (A B : Type) (f : A -> B) : forall l, NoDup l -> (forall a b, In a l -> In b l -> f a = f b -> a = b) -> NoDup (map f l).
Proof.
  induction 1 as [|a l Na _ IH]; intros J; cbn [map]; constructor.
  - intros I. apply in_map_iff in I. destruct I as (b & E & I). apply Na. rewrite (J a b); [exact I|now left|now right|now symmetry].
  - apply IH. intros x y X Y. apply J; now right.
Qed.
Lemma few (f : Z -> bytes) (N : nat) : Z.of_nat N < 4294967295 -> exists e, bytes_ok e /\ length e = 16%nat /\ forall x, 1 <= x <= Z.of_nat N -> f x <> e.
Proof.
  intros B. destruct (missed (map spread (seq 0 (S N))) (map (fun i => f (Z.of_nat i)) (seq 1 N))) as (e & I & O).
  - apply map_distinct; [apply seq_NoDup|]. intros i j Hi Hj. apply in_seq in Hi, Hj. apply spread_inj; lia.
  - rewrite !map_length, !seq_length. lia.
  - exists e. apply in_map_iff in I. destruct I as (i & <- & _). destruct (spread_ok i) as [K L]. split; [exact K|]. split; [exact L|].
    intros x X E. apply O. apply in_map_iff. exists (Z.to_nat x). split; [rewrite Z2Nat.id by lia; exact E|]. apply in_seq. lia.
Qed.

(** ... but only 2^31 - 2 of the 2^128 entropies can be drawn, whatever the clock says and whatever the generator does
    with its seed: for each generator there is an entropy that no call ever uses ... *)
Theorem C109_every_entropy_refuted : forall sha256 gen, digest32 sha256 -> fills gen ->
  (exists candidates : list bytes, (Z.of_nat (length candidates) <= 2147483646) /\
     forall l now b, fst (NewBIP39 sha256 gen l now) = Ok b -> In (b39_entropy b) candidates) /\
  exists e, bytes_ok e /\ length e = 16%nat /\ forall l now b, fst (NewBIP39 sha256 gen l now) = Ok b -> b39_entropy b <> e.
Proof.
  intros sha256 gen H F.
  assert (E : forall l now b, fst (NewBIP39 sha256 gen l now) = Ok b -> b39_entropy b = gen (rng_seed now) 16).
  { intros l now b Q. destruct (new_bip39 sha256 gen l now H F) as (_ & _ & E). rewrite E in Q. cbn [fst] in Q. assert (X : {| b39_entropy := gen (rng_seed now) 16; b39_mnemonic := sentence (bip39_words sha256 (words_of l) (gen (rng_seed now) 16)) |} = b) by congruence. rewrite <- X. reflexivity. }
  assert (G : exists N, Z.of_nat N = 2147483646) by (exists (Z.to_nat 2147483646); apply Z2Nat.id; discriminate). destruct G as (N & G). split.
  - exists (map (fun i => gen (Z.of_nat i) 16) (seq 1 N)). split.
    + rewrite map_length, seq_length, G. discriminate.
    + intros l now b Q. rewrite (E l now b Q). pose proof (seed_range now). apply in_map_iff. exists (Z.to_nat (rng_seed now)). split; [rewrite Z2Nat.id by lia; reflexivity|]. apply in_seq. lia.
  - destruct (few (fun x => gen x 16) N ltac:(lia)) as (e & B & L & O). exists e. split; [exact B|]. split; [exact L|]. intros l now b Q. rewrite (E l now b Q). apply O. rewrite G. apply seed_range.
Qed.
Print Assumptions C109_every_entropy_refuted.

(** ... and two calls whose clocks differ by a multiple of 2147483647 ns draw the same wallet. *)
Theorem C109_two_wallets_refuted : forall sha256 gen l now k, digest32 sha256 -> fills gen -> 0 <= now -> 0 <= k ->
  NewBIP39 sha256 gen l (now + k * 2147483647) = NewBIP39 sha256 gen l now.
Proof.
  intros sha256 gen l now k H F N K. unfold NewBIP39, NewEntropyAt.
  assert (E : rng_seed (now + k * 2147483647) = rng_seed now).
  { unfold rng_seed. rewrite !Z.rem_mod_nonneg by nia. rewrite Z_mod_plus_full. reflexivity. }
  now rewrite E.
Qed.
Print Assumptions C109_two_wallets_refuted.
(** A generator, two clocks two seconds apart, one wallet. *)
Definition toy (s n : Z) : bytes := repeat (s mod 256) (Z.to_nat n).
Lemma toy_fills : fills toy.
Proof.
  intros s n H. unfold toy, len. rewrite repeat_length. split; [lia|]. apply Forall_forall. intros x X. apply repeat_spec in X. subst. apply Z.mod_pos_bound. lia.
Qed.
Example C109_example : digest32 sha256 /\ fills toy /\
  fst (NewBIP39 sha256 toy ENGLISH 127) = Ok {| b39_entropy := repeat 127 16; b39_mnemonic := legal |} /\
  fst (NewBIP39 sha256 toy ENGLISH 2147483774) = Ok {| b39_entropy := repeat 127 16; b39_mnemonic := legal |}.
Proof. split; [exact real_sha_ok|]. split; [exact toy_fills|]. split; vm_compute; reflexivity. Qed.

(** The three lists share no word: their first octets are in different ranges. *)
Definition script_of (w : bytes) : Z := match w with c :: _ => if c <? 128 then 0 else if c =? 227 then 2 else 1 | [] => 3 end.
Definition number_of (l : Wordlists) : Z := match l with ENGLISH => 0 | CHINESE => 1 | JAPANESE => 2 end.
Lemma scripts_apart l : Forall (fun w => script_of w = number_of l) (words_of l).
Proof. apply Forall_forall. intros w I. apply Z.eqb_eq. revert w I. apply forallb_forall. destruct l; vm_compute; reflexivity. Qed.
Lemma no_common_word l l' w : In w (words_of l) -> In w (words_of l') -> l = l'.
Proof.
  intros A B. pose proof (proj1 (Forall_forall _ _) (scripts_apart l) w A) as E. pose proof (proj1 (Forall_forall _ _) (scripts_apart l') w B) as E'. cbv beta in E, E'. rewrite E in E'. destruct l, l'; try reflexivity; discriminate.
Qed.

(** C110: a new mnemonic stays valid, and decodes to its entropy, as long as nobody changes the list ... *)
Theorem C110_stays_valid_partial : forall sha256 gen l now b W cs, digest32 sha256 -> fills gen ->
  NewBIP39 sha256 gen l now = (Ok b, W) ->
  Forall (fun c => match c with CSet W' => W' = words_of l | CNew l' _ => l' = l end) cs ->
  IsMnemonicValid (run sha256 gen W cs) (b39_mnemonic b) = true /\ EntropyFromMnemonic sha256 (run sha256 gen W cs) (b39_mnemonic b) = Ok (b39_entropy b).
Proof.
  intros sha256 gen l now b W cs H F E C. destruct (new_bip39 sha256 gen l now H F) as (B & L & E'). rewrite E in E'.
  set (e := gen (rng_seed now) 16) in *. clearbody e.
  assert (W = words_of l /\ b = {| b39_entropy := e; b39_mnemonic := sentence (bip39_words sha256 (words_of l) e) |}) as [-> ->] by (split; congruence). cbn [b39_mnemonic b39_entropy].
  assert (R : run sha256 gen (words_of l) cs = words_of l).
  { clear - C. unfold run. induction C as [|c cs Hc _ IH]; [reflexivity|]. cbn [fold_left]. destruct c as [W'|l' now']; cbn [step NewBIP39 snd]; rewrite Hc; exact IH. }
  rewrite R. destruct (C58_mnemonic_roundtrip sha256 H (words_of l) (list_good l) e B) as [K _]. rewrite L in K. destruct K as (_ & N & I & D); [cbn; tauto|]. split; [|exact D].
  set (ws := bip39_words sha256 (words_of l) e) in *. clearbody ws. unfold IsMnemonicValid.
  assert (SF : Forall space_free ws). { apply Forall_forall. intros w J. pose proof (proj1 (Forall_forall _ _) I w J) as J'. destruct (list_good l) as (_ & _ & Q). exact (proj1 (Forall_forall _ _) Q w J'). }
  rewrite <- sentence_join, fields_join by exact SF. unfold len. rewrite N. apply andb_true_iff. split; [reflexivity|]. apply forallb_forall. intros w J. unfold GetWordIndex.
  destruct (last_index 0 (words_of l) w) eqn:Q; [reflexivity|]. apply last_index_none in Q. elim Q. exact (proj1 (Forall_forall _ _) I w J).
Qed.
Print Assumptions C110_stays_valid_partial.

(** ... but asking for a wallet in another language makes every mnemonic of the first language invalid. *)
Theorem C110_stays_valid_refuted : forall sha256 gen l now b W l' now', digest32 sha256 -> fills gen -> l <> l' ->
  NewBIP39 sha256 gen l now = (Ok b, W) ->
  IsMnemonicValid (run sha256 gen W [CNew l' now']) (b39_mnemonic b) = false /\
  exists err, EntropyFromMnemonic sha256 (run sha256 gen W [CNew l' now']) (b39_mnemonic b) = Err err.
Proof.
  intros sha256 gen l now b W l' now' H F D E. destruct (new_bip39 sha256 gen l now H F) as (B & L & E'). rewrite E in E'.
  set (e := gen (rng_seed now) 16) in *. clearbody e.
  assert (W = words_of l /\ b = {| b39_entropy := e; b39_mnemonic := sentence (bip39_words sha256 (words_of l) e) |}) as [-> ->] by (split; congruence). cbn [b39_mnemonic b39_entropy].
  assert (R : run sha256 gen (words_of l) [CNew l' now'] = words_of l') by reflexivity. rewrite R.
  destruct (C58_mnemonic_roundtrip sha256 H (words_of l) (list_good l) e B) as [K _]. rewrite L in K. destruct K as (_ & N & I & _); [cbn; tauto|].
  set (ws := bip39_words sha256 (words_of l) e) in *. clearbody ws.
  assert (SF : Forall space_free ws). { apply Forall_forall. intros w J. pose proof (proj1 (Forall_forall _ _) I w J) as J'. destruct (list_good l) as (_ & _ & Q). exact (proj1 (Forall_forall _ _) Q w J'). }
  assert (X : Fields (sentence ws) = ws) by (rewrite <- sentence_join; apply fields_join; exact SF).
  assert (G : forall w, In w ws -> GetWordIndex (words_of l') w = None).
  { intros w J. unfold GetWordIndex. apply last_index_none. intros J'. apply D. apply (no_common_word l l' w); [exact (proj1 (Forall_forall _ _) I w J)|exact J']. }
  destruct ws as [|w ws]; [discriminate|]. split.
  - unfold IsMnemonicValid. rewrite X. cbn [forallb]. rewrite (G w) by now left. cbn [andb]. apply andb_false_r.
  - assert (Y : decode_words (words_of l') (w :: ws) 0 = Err "word not found in reverse map") by (cbn [decode_words]; now rewrite (G w) by now left).
    assert (C : count_ok (len (w :: ws)) = true) by (unfold len; rewrite N; reflexivity).
    exists "word not found in reverse map"%string. unfold EntropyFromMnemonic, splitMnemonicWords. rewrite X. cbv zeta. rewrite C. rewrite Y. reflexivity.
Qed.
Print Assumptions C110_stays_valid_refuted.
Example C110_example : NewBIP39 sha256 toy ENGLISH 127 = (Ok {| b39_entropy := repeat 127 16; b39_mnemonic := legal |}, English) /\
  IsMnemonicValid (run sha256 toy English [CNew ENGLISH 5; CSet English]) legal = true /\
  IsMnemonicValid (run sha256 toy English [CNew JAPANESE 5]) legal = false /\
  IsMnemonicValid (run sha256 toy English [CNew JAPANESE 5; CNew ENGLISH 6]) legal = true.
Proof. split; [vm_compute; reflexivity|]. repeat split; vm_compute; reflexivity. Qed.
