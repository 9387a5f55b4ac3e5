(** Size estimates and multisig scripts. *)
From Verif Require Import GoBase BaseLemmas BufferModel BufferSpec BufferProofs ScriptNumModel ScriptModel ScriptSpec ScriptProofs LockModel LockSpec LockProofs
  TxModel TxSpec TxProofs TxSig BuilderModel BuilderProofs.
From Coq Require Import ZifyBool ZifyNat ZifyN.

(** ** C49: the size estimate. *)
(** What an input costs on the wire beyond the 149 bytes foreseen. *)
Definition over (i : TxIn) : Z := len (compact (len (ti_unlock i))) + len (ti_unlock i) - 109.
Definition script_prefix (o : TxOut) : Z := len (compact (len (to_script o))).

Lemma sum_pointwise {A} (f g : A -> Z) l : Forall (fun x => f x <= g x) l -> sumZ (map f l) <= sumZ (map g l).
Proof. induction 1 as [|x l H _ IH]; [reflexivity|]. cbn [map]. change (sumZ (?a :: ?r)) with (a + sumZ r). lia. Qed.
Lemma sum_eq {A} (f g : A -> Z) l : Forall (fun x => f x = g x) l -> sumZ (map f l) = sumZ (map g l).
Proof. induction 1 as [|x l H _ IH]; [reflexivity|]. cbn [map]. change (sumZ (?a :: ?r)) with (a + sumZ r). lia. Qed.
Lemma none_witness l : Forall (fun i => ti_code i = None) l -> existsb in_has_witness l = false.
Proof. induction 1 as [|i l H _ IH]; [reflexivity|]. cbn [existsb]. rewrite IH. unfold in_has_witness. now rewrite H. Qed.
Lemma all_witness l : l <> [] -> Forall (fun i => ti_code i <> None) l -> existsb in_has_witness l = true.
Proof. intros N F. destruct F as [|i l H _]; [congruence|]. cbn [existsb]. unfold in_has_witness at 1. destruct (ti_code i); [reflexivity|congruence]. Qed.
Lemma compact_pos n : 1 <= len (compact n).
Proof. rewrite compact_len. unfold VarIntSerializeSize. repeat match goal with |- context [if ?c then _ else _] => destruct c end; lia. Qed.

Lemma estimate_legacy t : tx_ok t -> Forall (fun i => ti_code i = None) (tx_ins t) ->
  len (Serialize t) = EstimateSize (tx_ins t) (tx_outs t) + sumZ (map script_prefix (tx_outs t)) + sumZ (map over (tx_ins t)).
Proof.
  intros T N. pose proof (total_size t T) as S. assert (W : HasWitness t = false) by (apply none_witness; exact N). rewrite W in S.
  rewrite no_excess in S by (eapply Forall_impl; [|exact N]; cbn; tauto). unfold Size, WitnessSize in S. rewrite W in S.
  destruct T as (_ & _ & Mi & Mo & Fi & Fo). assert (Li : u64 (len (tx_ins t)) = len (tx_ins t)) by (unfold u64; rewrite Z.mod_small; [reflexivity|]; pose proof (mem1_lt _ _ Mi); pose proof (len_nonneg (tx_ins t)); lia).
  assert (Lo : u64 (len (tx_outs t)) = len (tx_outs t)) by (unfold u64; rewrite Z.mod_small; [reflexivity|]; pose proof (mem1_lt _ _ Mo); pose proof (len_nonneg (tx_outs t)); lia).
  unfold EstimateSize. rewrite Li, Lo, (none_witness _ N).
  match goal with |- context [Z.quot (?b * (4 - 1) + (?b + 0)) 4] => replace (b * (4 - 1) + (b + 0)) with (b * 4) by lia end. rewrite Z.quot_mul by lia.
  unfold BaseSize in S. rewrite (sum_eq _ (fun i => 149 + over i) (tx_ins t)) in S.
  2: { rewrite Forall_forall in *. intros i Hi. destruct (Fi i Hi) as (H32 & _). unfold over. rewrite compact_len. lia. }
  rewrite (sum_eq (fun i => if in_has_witness i then 0 else 149) (fun _ => 149) (tx_ins t)).
  2: { eapply Forall_impl; [|exact N]. intros i Hi. unfold in_has_witness. now rewrite Hi. }
  rewrite (sumZ_add (fun _ => 149) over) in S.
  rewrite (sum_eq _ (fun o => (8 + len (to_script o)) + script_prefix o) (tx_outs t)) in S.
  2: { apply Forall_forall. intros o _. unfold script_prefix. rewrite compact_len. lia. }
  rewrite sumZ_add in S. lia.
Qed.
Lemma compact_small n : 0 <= n < 253 -> len (compact n) = 1.
Proof. intros H. rewrite compact_len. unfold VarIntSerializeSize. replace (n <? 253) with true by lia. reflexivity. Qed.
Lemma over_le i : len (ti_unlock i) <= 108 -> over i <= 0.
Proof. intros H. unfold over. pose proof (len_nonneg (ti_unlock i)). rewrite compact_small by lia. lia. Qed.
Lemma estimate_worst t : tx_ok t -> Forall (fun i => ti_code i = None /\ len (ti_unlock i) <= 108) (tx_ins t) ->
  len (Serialize t) <= EstimateSize (tx_ins t) (tx_outs t) + sumZ (map script_prefix (tx_outs t)).
Proof.
  intros T F. rewrite estimate_legacy by first [exact T|eapply Forall_impl; [|exact F]; cbn; tauto]. pose proof (sum_pointwise over (fun _ => 0) (tx_ins t)) as P.
  rewrite (sumZ_zero (fun _ => 0)) in P by (apply Forall_forall; auto). specialize (P ltac:(eapply Forall_impl; [|exact F]; intros i [_ H]; now apply over_le)). lia.
Qed.
(** A signature of the largest size in every input: the estimate is always too small. *)
Lemma estimate_short t : tx_ok t -> tx_outs t <> [] -> Forall (fun i => ti_code i = None /\ len (ti_unlock i) = 108) (tx_ins t) ->
  EstimateSize (tx_ins t) (tx_outs t) < len (Serialize t).
Proof.
  intros T No F. rewrite estimate_legacy by first [exact T|eapply Forall_impl; [|exact F]; cbn; tauto].
  rewrite (sumZ_zero over) by (eapply Forall_impl; [|exact F]; intros i [_ H]; unfold over; rewrite H; reflexivity).
  destruct (tx_outs t) as [|o l]; [congruence|]. cbn [map]. change (sumZ (?a :: ?r)) with (a + sumZ r). unfold script_prefix at 1. pose proof (compact_pos (len (to_script o))).
  pose proof (sumZ_nonneg (map script_prefix l)) as P. rewrite Forall_map in P. specialize (P ltac:(apply Forall_forall; intros x _; unfold script_prefix; pose proof (compact_pos (len (to_script x))); lia)). lia.
Qed.
(** Only witness coins: the estimate is below the virtual size whatever the signatures. *)
Lemma estimate_witness_short t : tx_ok t -> tx_ins t <> [] -> Forall (fun i => ti_code i <> None) (tx_ins t) -> EstimateSize (tx_ins t) (tx_outs t) + 40 * len (tx_ins t) < Vsize t.
Proof.
  intros T Ni F. destruct T as (_ & _ & Mi & Mo & Fi & Fo). assert (Li : u64 (len (tx_ins t)) = len (tx_ins t)) by (unfold u64; rewrite Z.mod_small; [reflexivity|]; pose proof (mem1_lt _ _ Mi); pose proof (len_nonneg (tx_ins t)); lia).
  assert (Lo : u64 (len (tx_outs t)) = len (tx_outs t)) by (unfold u64; rewrite Z.mod_small; [reflexivity|]; pose proof (mem1_lt _ _ Mo); pose proof (len_nonneg (tx_outs t)); lia).
  unfold EstimateSize. rewrite Li, Lo, (all_witness _ Ni F).
  rewrite (sum_eq (fun i => if in_has_witness i then 0 else 149) (fun _ => 0) (tx_ins t)) by (eapply Forall_impl; [|exact F]; cbv beta; intros i Hi; unfold in_has_witness; destruct (ti_code i); [reflexivity|now elim Hi]).
  rewrite (sum_eq (fun i => if in_has_witness i then _ else _) (fun _ => 3) (tx_ins t)) by (eapply Forall_impl; [|exact F]; cbv beta; intros i Hi; unfold in_has_witness; destruct (ti_code i); [reflexivity|now elim Hi]).
  rewrite (sumZ_zero (fun _ => 0)) by (apply Forall_forall; auto).
  assert (K : forall (c : Z) (l : list TxIn), sumZ (map (fun _ => c) l) = c * len l). { intros c l. induction l as [|x l IH]; [change (len (@nil TxIn)) with 0; cbn; lia|]. cbn [map]. change (sumZ (?a :: ?r)) with (a + sumZ r). rewrite IH, len_cons. lia. }
  rewrite K. unfold Vsize, Weight, BaseSize.
  assert (I1 : 41 * len (tx_ins t) <= sumZ (map (fun i => len (ti_hash i) + 4 + VarIntSerializeSize (len (ti_unlock i)) + len (ti_unlock i) + 4) (tx_ins t))).
  { rewrite <- (K 41). apply sum_pointwise. eapply Forall_impl; [|exact Fi]. intros i (H & _). pose proof (compact_pos (len (ti_unlock i))) as Q. rewrite compact_len in Q. pose proof (len_nonneg (ti_unlock i)). lia. }
  assert (O1 : sumZ (map (fun o => 8 + len (to_script o)) (tx_outs t)) <= sumZ (map (fun o => 8 + VarIntSerializeSize (len (to_script o)) + len (to_script o)) (tx_outs t))).
  { apply sum_pointwise. apply Forall_forall. intros o _. pose proof (compact_pos (len (to_script o))) as Q. rewrite compact_len in Q. lia. }
  assert (W1 : 0 <= WitnessSize t). { rewrite witness_size. destruct (HasWitness t); [apply len_nonneg|lia]. }
  assert (Lp : 1 <= len (tx_ins t)). { destruct (tx_ins t); [congruence|]. rewrite len_cons. pose proof (len_nonneg l). lia. }
  set (e := 4 + VarIntSerializeSize (len (tx_ins t)) + 0 + VarIntSerializeSize (len (tx_outs t)) + sumZ (map (fun o => 8 + len (to_script o)) (tx_outs t)) + 4).
  assert (Pe : 0 <= e). { unfold e. pose proof (compact_pos (len (tx_ins t))) as Q1. pose proof (compact_pos (len (tx_outs t))) as Q2. rewrite compact_len in Q1, Q2. pose proof (sumZ_nonneg (map (fun o => 8 + len (to_script o)) (tx_outs t))) as P. rewrite Forall_map in P. specialize (P ltac:(apply Forall_forall; intros x _; pose proof (len_nonneg (to_script x)); lia)). lia. }
  set (bs := 4 + VarIntSerializeSize (len (tx_ins t)) + _ + _ + _ + 4).
  assert (Hb : e + 41 * len (tx_ins t) <= bs) by (unfold e, bs; lia). clearbody e bs. rewrite Z.quot_div_nonneg by lia. set (w := WitnessSize t) in *. clearbody w.
  enough ((e * (4 - 1) + (e + 3 * len (tx_ins t))) / 4 + 40 * len (tx_ins t) + 1 <= (bs * 3 + (bs + w)) / 4) by lia.
  apply Z.div_le_lower_bound; [lia|]. pose proof (Z.mul_div_le (e * (4 - 1) + (e + 3 * len (tx_ins t))) 4 ltac:(lia)). lia.
Qed.

(** ** C50: multisig scripts. *)
Definition small_op (n : Z) : Z := if n =? 0 then 0 else 0x50 + n.
Definition multisig_bytes (m : Z) (keys : list bytes) : bytes := [small_op m] ++ concat (map (fun k => len k :: k) keys) ++ [small_op (len keys); 0xae].
Definition multisig_instrs (m : Z) (keys : list bytes) : list instruction := Instr (small_op m) [] :: map (fun k => Instr (len k) k) keys ++ [Instr (small_op (len keys)) []; Instr 0xae []].
Definition key_sized (k : bytes) : Prop := len k = 33 \/ len k = 65.

Lemma add_small n b : 0 <= n <= 16 -> exists b', AddInt64 n b = Ok b' /\ bdata b' = bdata b ++ [small_op n].
Proof.
  intros H. unfold AddInt64, small_op. destruct (n =? 0) eqn:E; [eexists; split; reflexivity|]. replace ((n =? -1) || ((1 <=? n) && (n <=? 16))) with true by lia.
  eexists. split; [reflexivity|]. unfold WriteU8. cbn [bdata]. f_equal. f_equal. unfold u8. rewrite Z.mod_small; lia.
Qed.
Lemma add_keys keys : Forall key_sized keys -> forall b, bdata (fold_left (fun b k => AddData k b) keys b) = bdata b ++ concat (map (fun k => len k :: k) keys).
Proof.
  induction 1 as [|k keys H _ IH]; intros b; cbn [fold_left map concat]; [now rewrite app_nil_r|]. rewrite IH, AddData_mid by (unfold key_sized in H; lia). unfold WriteBytes, WriteU8. cbn [bdata]. rewrite <- !app_assoc. reflexivity.
Qed.
Lemma gen_multisig m keys : 0 <= m <= len keys -> len keys <= 16 -> Forall key_sized keys -> GenMultiSigScript m keys = Ok (multisig_bytes m keys).
Proof.
  intros Hm Hn F. unfold GenMultiSigScript. replace (len keys <? m) with false by lia. destruct (add_small m NewScriptBuilder ltac:(lia)) as (b1 & -> & D1). cbn [rbind].
  destruct (add_small (len keys) (fold_left (fun b k => AddData k b) keys b1) ltac:(lia)) as (b2 & -> & D2). cbn [rbind]. unfold AddOp, Script, Bytes, WriteU8. cbn [bdata]. rewrite D2, add_keys, D1 by exact F.
  change (bdata NewScriptBuilder) with (@nil Z). unfold multisig_bytes. rewrite <- !app_assoc. reflexivity.
Qed.
Lemma enc_small n : 0 <= n <= 16 -> encodes (Instr (small_op n) []) [small_op n].
Proof.
  intros H. apply enc_plain. unfold small_op. assert (In n (map Z.of_nat (seq 0 17))) as I. { apply in_map_iff. exists (Z.to_nat n). split; [lia|]. apply in_seq. lia. }
  vm_compute in I. repeat (destruct I as [<-|I]; [vm_compute; tauto|]). destruct I.
Qed.
Lemma multisig_script_of m keys : 0 <= m <= 16 -> len keys <= 16 -> Forall key_sized keys -> script_of (multisig_instrs m keys) (multisig_bytes m keys).
Proof.
  intros Hm Hn F. pose proof (len_nonneg keys) as Hp. unfold multisig_instrs, multisig_bytes. apply so_cons; [now apply enc_small|]. apply script_of_app.
  - clear Hn Hp. induction F as [|k keys H _ IH]; cbn [map concat]; [constructor|]. apply so_cons; [|exact IH]. apply enc_direct; [unfold key_sized in H; lia|reflexivity].
  - change [small_op (len keys); 0xae] with ([small_op (len keys)] ++ [0xae]). apply so_cons; [apply enc_small; lia|]. change [0xae] with ([0xae] ++ []). apply so_cons; [|constructor]. apply enc_plain. vm_compute. tauto.
Qed.
Lemma multisig_parses m keys : 0 <= m <= 16 -> len keys <= 16 -> Forall (fun k => key_sized k /\ bytes_ok k) keys -> AllInstructions (multisig_bytes m keys) = Ok (multisig_instrs m keys).
Proof.
  intros Hm Hn F. pose proof (len_nonneg keys) as Hp. apply all_of; [|apply multisig_script_of; [exact Hm|exact Hn|]; eapply Forall_impl; [|exact F]; cbn; tauto].
  assert (So : forall n, 0 <= n <= 16 -> is_byte (small_op n)) by (intros n H; unfold small_op, is_byte; destruct (n =? 0); lia).
  assert (C : bytes_ok (concat (map (fun k => len k :: k) keys)) /\ len (concat (map (fun k => len k :: k) keys)) <= 66 * len keys).
  { clear Hn Hp. induction F as [|k keys [H O] _ IH]; [split; [constructor|vm_compute; discriminate]|]. cbn [map concat]. rewrite bytes_ok_app, bytes_ok_cons, len_app, !len_cons. unfold key_sized in H. unfold is_byte. destruct IH. split; [|lia]. repeat split; auto; lia. }
  destruct C as [C1 C2]. unfold multisig_bytes. split.
  - rewrite !bytes_ok_app. split; [apply bytes_ok_cons; split; [auto|constructor]|]. split; [exact C1|]. apply bytes_ok_cons. split; [apply So; lia|]. apply bytes_ok_cons. split; [unfold is_byte; lia|constructor].
  - rewrite !len_app. change (len [small_op m]) with 1. change (len [small_op (len keys); 174]) with 2. lia.
Qed.

(** What isMultiSig accepts. *)
Lemma small_int i : isSmallInt i = true <-> exists n, 0 <= n <= 16 /\ iop i = small_op n.
Proof.
  unfold isSmallInt, small_op. split.
  - intros H. destruct (iop i =? 0) eqn:E; [exists 0; split; [lia|now apply Z.eqb_eq]|]. exists (iop i - 0x50). split; [lia|]. destruct (iop i - 0x50 =? 0) eqn:Q; lia.
  - intros (n & Hn & E). rewrite E. destruct (n =? 0) eqn:Q; lia.
Qed.
Lemma as_small i n : 0 <= n <= 16 -> iop i = small_op n -> asSmallInt i = n.
Proof. unfold asSmallInt, small_op. intros H ->. destruct (n =? 0) eqn:E; [symmetry; now apply Z.eqb_eq|]. replace (0x50 + n =? 0) with false by lia. unfold u8. rewrite Z.mod_small; lia. Qed.
Lemma split_last2 {A} (l : list A) : (2 <= length l)%nat -> exists m a b, l = m ++ [a; b].
Proof.
  intros H. destruct (exists_last (l := l)) as (m1 & b & ->); [destruct l; [cbn in H; lia|congruence]|]. rewrite app_length in H. cbn [length] in H.
  destruct (exists_last (l := m1)) as (m & a & ->); [destruct m1; [cbn in H; lia|congruence]|]. exists m, a, b. now rewrite <- app_assoc.
Qed.
Lemma is_multisig is : isMultiSig is = true <-> exists m f ks n c, is = f :: ks ++ [n; c] /\ 0 <= m <= 16 /\ iop f = small_op m /\ 1 <= len ks <= 16 /\ iop n = small_op (len ks) /\ iop c = 0xae /\ Forall (fun i => key_sized (idata i)) ks.
Proof.
  assert (K : forall f ks n c, 1 <= len ks -> isMultiSig (f :: ks ++ [n; c]) = isSmallInt f && (isSmallInt n && ((iop c =? 0xae) && ((len ks =? asSmallInt n) && forallb (fun i => (len (idata i) =? 33) || (len (idata i) =? 65)) ks)))).
  { intros f ks n c Hk. unfold isMultiSig. assert (L : len (f :: ks ++ [n; c]) = len ks + 3) by (rewrite len_cons, len_app; change (len [n; c]) with 2; lia). rewrite L.
    replace (len ks + 3 <? 4) with false by lia. cbv zeta.
    change (nth (Z.to_nat 0) (f :: ks ++ [n; c]) (Instr 0 [])) with f.
    replace (Z.to_nat (len ks + 3 - 2)) with (S (length ks)) by (unfold len in *; lia). replace (Z.to_nat (len ks + 3 - 1)) with (S (S (length ks))) by (unfold len in *; lia).
    replace (Z.to_nat (len ks + 3 - 3)) with (length ks) by (unfold len in *; lia). cbn [nth skipn].
    rewrite !app_nth2 by lia. rewrite Nat.sub_diag. replace (S (length ks) - length ks)%nat with 1%nat by lia. cbn [nth].
    rewrite firstn_app, Nat.sub_diag, firstn_all. cbn [firstn]. rewrite app_nil_r. replace (len ks + 3 - 2 - 1) with (len ks) by lia.
    destruct (isSmallInt f), (isSmallInt n), (iop c =? 174), (len ks =? asSmallInt n); reflexivity. }
  assert (FB : forall ks, forallb (fun i => (len (idata i) =? 33) || (len (idata i) =? 65)) ks = true <-> Forall (fun i => key_sized (idata i)) ks).
  { intros ks. rewrite forallb_forall, Forall_forall. unfold key_sized. split; intros H x Hx; specialize (H x Hx); lia. }
  split.
  - intros H. assert (L4 : (4 <= length is)%nat). { unfold isMultiSig in H. unfold len in H. destruct (Z.of_nat (length is) <? 4) eqn:E; [discriminate|lia]. }
    destruct is as [|f is]; [cbn in L4; lia|]. cbn [length] in L4. destruct (split_last2 is ltac:(lia)) as (ks & n & c & ->). rewrite app_length in L4. cbn [length] in L4.
    rewrite K in H by (unfold len; lia). repeat (apply andb_prop in H; destruct H as [? H]). destruct (proj1 (small_int f) ltac:(assumption)) as (m & Hm & Fm). destruct (proj1 (small_int n) ltac:(assumption)) as (k & Hk & Fk).
    rewrite (as_small n k Hk Fk) in *. assert (len ks = k) by lia. subst k. exists m, f, ks, n, c. split; [reflexivity|]. split; [exact Hm|]. split; [exact Fm|]. split; [unfold len in *; lia|]. split; [exact Fk|]. split; [lia|]. now apply FB.
  - intros (m & f & ks & n & c & -> & Hm & Fm & Hk & Fk & Hc & F). rewrite K by lia. rewrite (proj2 (small_int f)) by eauto. rewrite (proj2 (small_int n)) by (exists (len ks); split; [lia|exact Fk]). rewrite Hc, (as_small n (len ks)) by (auto; lia). rewrite !Z.eqb_refl, (proj2 (FB ks) F). reflexivity.
Qed.

Lemma multisig_recognised m keys : 0 <= m <= len keys -> 1 <= len keys <= 16 -> Forall (fun k => key_sized k /\ bytes_ok k) keys ->
  exists is, AllInstructions (multisig_bytes m keys) = Ok is /\ isMultiSig is = true /\ asSmallInt (hd (Instr 0 []) is) = m /\ map idata (firstn (length keys) (tl is)) = keys /\ (forall m' keys', 0 <= m' <= len keys' -> 1 <= len keys' <= 16 -> Forall (fun k => key_sized k /\ bytes_ok k) keys' ->
    GenMultiSigScript m' keys' = GenMultiSigScript m keys -> m' = m /\ keys' = keys).
Proof.
  intros Hm Hn F. exists (multisig_instrs m keys). split; [apply multisig_parses; auto; lia|]. assert (Fk : forall l, Forall (fun k => key_sized k /\ bytes_ok k) l -> Forall key_sized l) by (intros l; apply Forall_impl; tauto).
  assert (Hd : forall m, 0 <= m <= 16 -> forall keys, asSmallInt (hd (Instr 0 []) (multisig_instrs m keys)) = m) by (intros; apply as_small; auto).
  assert (Tl : forall m keys, map idata (firstn (length keys) (tl (multisig_instrs m keys))) = keys).
  { intros m0 ks. cbn [multisig_instrs tl]. rewrite <- (map_length (fun k => Instr (len k) k) ks) at 1. rewrite firstn_app, Nat.sub_diag, firstn_all. cbn [firstn]. rewrite app_nil_r, map_map. cbn [idata]. apply map_id. }
  split.
  - apply is_multisig. exists m, (Instr (small_op m) []), (map (fun k => Instr (len k) k) keys), (Instr (small_op (len keys)) []), (Instr 0xae []). assert (L : len (map (fun k => Instr (len k) k) keys) = len keys) by (unfold len; now rewrite map_length). rewrite L.
    split; [reflexivity|]. split; [lia|]. split; [reflexivity|]. split; [lia|]. split; [reflexivity|]. split; [reflexivity|]. apply Forall_map. eapply Forall_impl; [|apply Fk, F]. cbn. auto.
  - split; [apply Hd; lia|]. split; [apply Tl|]. intros m' keys' Hm' Hn' F' E. rewrite !gen_multisig in E by (auto; lia). assert (E' : multisig_bytes m' keys' = multisig_bytes m keys) by congruence. clear E. rename E' into E.
    assert (X : multisig_instrs m' keys' = multisig_instrs m keys).
    { pose proof (multisig_parses m keys ltac:(lia) ltac:(lia) F) as P1. pose proof (multisig_parses m' keys' ltac:(lia) ltac:(lia) F') as P2. rewrite E in P2. congruence. }
    split; [rewrite <- (Hd m' ltac:(lia) keys'), X; apply Hd; lia|]. assert (Lk : length keys' = length keys). { apply (f_equal (@length instruction)) in X. unfold multisig_instrs in X. cbn [length] in X. rewrite !app_length, !map_length in X. cbn [length] in X. lia. }
    rewrite <- (Tl m' keys'), X, Lk. apply Tl.
Qed.
