(** The object after a read: agreement with TxModel, truncated data, and digests kept from the last use. *)
From Verif Require Import GoBase BaseLemmas BufferModel BufferSpec BufferProofs BufferMore Codec ScriptModel LockModel VmModel VmCalls TxModel TxSpec TxProofs UsedModel UsedSpec.
From Coq Require Import ZifyBool ZifyNat ZifyN.

Lemma update_app {A} (l : list A) x r f : update (length l) f (l ++ x :: r) = l ++ f x :: r.
Proof. induction l as [|a l IH]; cbn [length update app]; [reflexivity|]. now rewrite IH. Qed.
Lemma map_Some_snoc {A} (l : list A) x r : map Some l ++ Some x :: r = map Some (l ++ [x]) ++ r.
Proof. rewrite map_app, <- app_assoc. reflexivity. Qed.

Lemma update_nil {A} (l : list A) x n : update (length l) (fun _ => Some x) (map Some l ++ None :: repeat None n) = map Some (l ++ [x]) ++ repeat None n.
Proof. rewrite <- (map_length Some l) at 1. rewrite update_app. apply map_Some_snoc. Qed.

Lemma fill_ins_spec : forall n b done o, ob_ins o = map Some done ++ repeat None n ->
  match read_n n read_in b with
  | (Ok xs, b') => fill_ins n (length done) o b = (Ok tt, ob_set_ins (map Some (done ++ xs)) o, b')
  | (Err e, b') => exists xs k, fill_ins n (length done) o b = (Err e, ob_set_ins (map Some xs ++ None :: repeat None k) o, b')
  | (Panic, b') => exists o', fill_ins n (length done) o b = (Panic, o', b')
  end.
Proof.
  induction n as [|n IH]; intros b done o E; cbn [read_n fill_ins].
  - unfold bret, oret. cbn [repeat] in E. rewrite app_nil_r in *. rewrite <- E. now destruct o.
  - cbn [repeat] in E. unfold bbind, obind, olift, oset, bret. destruct (read_in b) as [[x|e|] b1].
    + rewrite E, update_nil. specialize (IH b1 (done ++ [x]) (ob_set_ins (map Some (done ++ [x]) ++ repeat None n) o) eq_refl).
      rewrite app_length, Nat.add_1_r in IH. destruct (read_n n read_in b1) as [[xs|e|] b2].
      * rewrite <- app_assoc in IH. exact IH.
      * exact IH.
      * exact IH.
    + exists done, n. rewrite <- E. now destruct o.
    + eexists. reflexivity.
Qed.
Lemma fill_outs_spec : forall n b done o, ob_outs o = map Some done ++ repeat None n ->
  match read_n n read_out b with
  | (Ok xs, b') => fill_outs n (length done) o b = (Ok tt, ob_set_outs (map Some (done ++ xs)) o, b')
  | (Err e, b') => exists xs k, fill_outs n (length done) o b = (Err e, ob_set_outs (map Some xs ++ None :: repeat None k) o, b')
  | (Panic, b') => exists o', fill_outs n (length done) o b = (Panic, o', b')
  end.
Proof.
  induction n as [|n IH]; intros b done o E; cbn [read_n fill_outs].
  - unfold bret, oret. cbn [repeat] in E. rewrite app_nil_r in *. rewrite <- E. now destruct o.
  - cbn [repeat] in E. unfold bbind, obind, olift, oset, bret. destruct (read_out b) as [[x|e|] b1].
    + rewrite E, update_nil. specialize (IH b1 (done ++ [x]) (ob_set_outs (map Some (done ++ [x]) ++ repeat None n) o) eq_refl).
      rewrite app_length, Nat.add_1_r in IH. destruct (read_n n read_out b1) as [[xs|e|] b2].
      * rewrite <- app_assoc in IH. exact IH.
      * exact IH.
      * exact IH.
    + exists done, n. rewrite <- E. now destruct o.
    + eexists. reflexivity.
Qed.

(** The two lists. *)
Lemma into_ins_spec old o b : ob_ins o = map Some old ->
  match read_ins old b with
  | (Ok xs, b') => into_ins o b = (Ok tt, ob_set_ins (map Some xs) o, b')
  | (Err e, b') => exists l, into_ins o b = (Err e, ob_set_ins l o, b')
  | (Panic, b') => exists o', into_ins o b = (Panic, o', b')
  end.
Proof.
  intros E. unfold read_ins, into_ins, bbind, obind, olift, oset, bmake, bret. destruct (ReadVarInt b) as [[n|e|] b1].
  - destruct (0 <? n) eqn:P; [|unfold oret; rewrite <- E; now destruct o].
    destruct (make_ok n 8) eqn:M; [|unfold bpanic; eexists; reflexivity].
    assert (i64 n = n) as -> by (apply i64_id; unfold make_ok in M; lia).
    pose proof (fill_ins_spec (Z.to_nat n) b1 [] (ob_set_ins (repeat None (Z.to_nat n)) o) eq_refl) as F. cbn [length app] in F. destruct (read_n (Z.to_nat n) read_in b1) as [[xs|e|] b2]; [exact F| |exact F].
    destruct F as (xs & k & F). eexists. exact F.
  - exists (ob_ins o). now destruct o.
  - eexists. reflexivity.
Qed.
Lemma into_outs_spec old o b : ob_outs o = map Some old ->
  match read_outs old b with
  | (Ok xs, b') => into_outs o b = (Ok tt, ob_set_outs (map Some xs) o, b')
  | (Err e, b') => exists l, into_outs o b = (Err e, ob_set_outs l o, b')
  | (Panic, b') => exists o', into_outs o b = (Panic, o', b')
  end.
Proof.
  intros E. unfold read_outs, into_outs, bbind, obind, olift, oset, bmake, bret. destruct (ReadVarInt b) as [[n|e|] b1].
  - destruct (0 <? n) eqn:P; [|unfold oret; rewrite <- E; now destruct o].
    destruct (make_ok n 8) eqn:M; [|unfold bpanic; eexists; reflexivity].
    assert (i64 n = n) as -> by (apply i64_id; unfold make_ok in M; lia).
    pose proof (fill_outs_spec (Z.to_nat n) b1 [] (ob_set_outs (repeat None (Z.to_nat n)) o) eq_refl) as F. cbn [length app] in F. destruct (read_n (Z.to_nat n) read_out b1) as [[xs|e|] b2]; [exact F| |exact F].
    destruct F as (xs & k & F). eexists. exact F.
  - exists (ob_outs o). now destruct o.
  - eexists. reflexivity.
Qed.

(** The witness of one input, and of all. *)
Definition at_slot (l : list TxIn) (i : TxIn) (r : list TxIn) : list (option TxIn) := map Some (l ++ i :: r).
Lemma on_slot f l i r o : ob_ins o = at_slot l i r -> on_witness (length l) f o = ob_set_ins (at_slot l (with_witness (f (ti_witness i)) i) r) o.
Proof. intros E. unfold on_witness. rewrite E. unfold at_slot. rewrite !map_app. cbn [map]. rewrite <- (map_length Some l) at 1. now rewrite update_app. Qed.
Lemma fill_items_spec : forall n b l i r done o, ob_ins o = at_slot l (with_witness (done ++ repeat [] n) i) r ->
  match read_n n read_item b with
  | (Ok xs, b') => fill_items (length l) n (length done) o b = (Ok tt, ob_set_ins (at_slot l (with_witness (done ++ xs) i) r) o, b')
  | (Err e, b') => exists ws, fill_items (length l) n (length done) o b = (Err e, ob_set_ins (at_slot l (with_witness ws i) r) o, b')
  | (Panic, b') => exists o', fill_items (length l) n (length done) o b = (Panic, o', b')
  end.
Proof.
  induction n as [|n IH]; intros b l i r done o E; cbn [read_n fill_items].
  - unfold bret, oret. cbn [repeat] in E. rewrite <- E. now destruct o.
  - cbn [repeat] in E. unfold bbind, obind, olift, oset, bret. destruct (read_item b) as [[x|e|] b1].
    + rewrite (on_slot _ l _ r o E). cbn [with_witness ti_witness]. rewrite update_app.
      specialize (IH b1 l i r (done ++ [x]) (ob_set_ins (at_slot l (with_witness (done ++ x :: repeat [] n) i) r) o)). rewrite <- app_assoc in IH. specialize (IH eq_refl).
      rewrite app_length, Nat.add_1_r in IH. unfold with_witness in *. cbn [ti_hash ti_index ti_value ti_seq ti_sighash ti_redeem ti_code ti_rawlock ti_finallock ti_unlock] in *.
      destruct (read_n n read_item b1) as [[xs|e|] b2].
      * rewrite <- app_assoc in IH. exact IH.
      * exact IH.
      * exact IH.
    + eexists. rewrite <- E. now destruct o.
    + eexists. reflexivity.
Qed.
Lemma fill_witness_spec : forall rest b l o, ob_ins o = map Some (l ++ rest) ->
  match read_each read_witness rest b with
  | (Ok xs, b') => fill_witness (length rest) (length l) o b = (Ok tt, ob_set_ins (map Some (l ++ xs)) o, b')
  | (Err e, b') => exists xs, fill_witness (length rest) (length l) o b = (Err e, ob_set_ins (map Some xs) o, b') /\ map stripped xs = map stripped (l ++ rest)
  | (Panic, b') => exists o', fill_witness (length rest) (length l) o b = (Panic, o', b')
  end.
Proof.
  induction rest as [|i rest IH]; intros b l o E; cbn [read_each fill_witness length].
  - unfold bret, oret. rewrite <- E. now destruct o.
  - unfold bbind, obind, olift, read_witness at 1, oset, bmake, bret, oderef, bbind. destruct (ReadVarInt b) as [[c|e|] b1]; [| |eexists; reflexivity].
    2:{ exists (l ++ i :: rest). split; [|reflexivity]. rewrite <- E. now destruct o. }
    destruct (make_ok c 24) eqn:M; [|unfold bpanic; eexists; reflexivity].
    rewrite E, nth_error_map, nth_error_app2, Nat.sub_diag by lia. cbn [nth_error option_map].
    rewrite (on_slot _ l i rest o E).
    pose proof (fill_items_spec (Z.to_nat c) b1 l i rest [] (ob_set_ins (at_slot l (with_witness (repeat [] (Z.to_nat c)) i) rest) o) eq_refl) as F. cbn [length app] in F.
    destruct (read_n (Z.to_nat c) read_item b1) as [[ws|e|] b2].
    + rewrite F. specialize (IH b2 (l ++ [with_witness ws i]) (ob_set_ins (at_slot l (with_witness ws i) rest) o)). rewrite <- app_assoc in IH. specialize (IH eq_refl).
      rewrite app_length, Nat.add_1_r in IH. cbn [ob_set_ins] in *. destruct (read_each read_witness rest b2) as [[xs|e|] b3].
      * rewrite <- app_assoc in IH. exact IH.
      * destruct IH as (xs & IH & Sx). exists xs. split; [exact IH|]. rewrite Sx. rewrite !map_app. reflexivity.
      * exact IH.
    + destruct F as (ws & F). rewrite F. exists (l ++ with_witness ws i :: rest). split; [reflexivity|]. rewrite !map_app. reflexivity.
    + destruct F as (o' & F). rewrite F. eexists. reflexivity.
Qed.

Definition agrees (r : res transaction) (x : res unit * txobj) : Prop :=
  match r with Ok t => x = (Ok tt, of_tx t) | Err e => fst x = Err e | Panic => fst x = Panic end.
Lemma into_agrees d t : agrees (Deserialize d t) (DeserializeInto d (of_tx t)) /\ agrees (DeserializeNoWitness d t) (DeserializeNoWitnessInto d (of_tx t)).
Proof.
  unfold agrees, Deserialize, DeserializeInto, DeserializeNoWitness, DeserializeNoWitnessInto. unfold bbind, obind, ofield, olift. destruct (ReadU32 (NewBufferReader d)) as [[v|e|] b1]; [|split; reflexivity|split; reflexivity]. split.
  - destruct (ReadU8 b1) as [[m|e|] b2]; [|reflexivity|reflexivity]. destruct (m =? 0); cbn [bassert]; unfold bret, bfail; [|reflexivity].
    destruct (ReadU8 b2) as [[f|e|] b3]; [|reflexivity|reflexivity]. destruct (f =? 1); cbn [bassert]; unfold bret, bfail; [|reflexivity].
    pose proof (into_ins_spec (tx_ins t) (ob_set_version v (of_tx t)) b3 eq_refl) as I. destruct (read_ins (tx_ins t) b3) as [[ins|e|] b4]; [rewrite I| |]; [|destruct I as (l & ->); reflexivity|destruct I as (l & ->); reflexivity].
    pose proof (into_outs_spec (tx_outs t) (ob_set_ins (map Some ins) (ob_set_version v (of_tx t))) b4 eq_refl) as O. destruct (read_outs (tx_outs t) b4) as [[outs|e|] b5]; [rewrite O| |]; [|destruct O as (l & ->); reflexivity|destruct O as (l & ->); reflexivity].
    unfold count_ins. cbn [ob_set_outs ob_set_ins ob_ins]. rewrite map_length.
    match goal with |- context [fill_witness _ 0 ?o _] => pose proof (fill_witness_spec ins b5 [] o eq_refl) as W end. cbn [length app] in W.
    destruct (read_each read_witness ins b5) as [[ws|e|] b6]; [rewrite W| |]; [|destruct W as (l & -> & _); reflexivity|destruct W as (l & ->); reflexivity].
    destruct (ReadU32 b6) as [[k|e|] b7]; reflexivity.
  - pose proof (into_ins_spec (tx_ins t) (ob_set_version v (of_tx t)) b1 eq_refl) as I. destruct (read_ins (tx_ins t) b1) as [[ins|e|] b4]; [rewrite I| |]; [|destruct I as (l & ->); reflexivity|destruct I as (l & ->); reflexivity].
    pose proof (into_outs_spec (tx_outs t) (ob_set_ins (map Some ins) (ob_set_version v (of_tx t))) b4 eq_refl) as O. destruct (read_outs (tx_outs t) b4) as [[outs|e|] b5]; [rewrite O| |]; [|destruct O as (l & ->); reflexivity|destruct O as (l & ->); reflexivity].
    destruct (ReadU32 b5) as [[k|e|] b7]; reflexivity.
Qed.

(** ** Truncated data. *)
Definition short {A} (rd : BM A) (e : bytes) : Prop :=
  forall pre n, (n < length e)%nat -> fits pre e -> exists er b', rd (rbuf pre (firstn n e)) = (Err er, b').
Lemma firstn_short {A} n (e1 e2 : list A) : (n < length e1)%nat -> firstn n (e1 ++ e2) = firstn n e1.
Proof. intros L. rewrite firstn_app. replace (n - length e1)%nat with 0%nat by lia. cbn [firstn]. apply app_nil_r. Qed.
Lemma firstn_long {A} n (e1 e2 : list A) : (length e1 <= n)%nat -> firstn n (e1 ++ e2) = e1 ++ firstn (n - length e1) e2.
Proof. intros L. rewrite firstn_app. now rewrite firstn_all2 by lia. Qed.
Lemma fits_firstn pre n e : fits pre e -> fits pre (firstn n e).
Proof. unfold fits. rewrite !len_app. unfold len. rewrite firstn_length. lia. Qed.
Lemma fits_l pre e1 e2 : fits pre (e1 ++ e2) -> fits pre e1.
Proof. unfold fits. rewrite !len_app. pose proof (len_nonneg e2). lia. Qed.
Lemma short_bind {A B} (m : BM A) (f : A -> BM B) e1 e2 x : reads m e1 x -> short m e1 -> short (f x) e2 -> short (bbind m f) (e1 ++ e2).
Proof.
  intros R S1 S2 pre n L F. unfold bbind. destruct (Nat.lt_ge_cases n (length e1)) as [H|H].
  - rewrite firstn_short by exact H. destruct (S1 pre n H (fits_l _ _ _ F)) as (er & b' & ->). eauto.
  - rewrite app_length in L. rewrite firstn_long by exact H. assert (F2 : fits pre (e1 ++ firstn (n - length e1) e2)) by (unfold fits in *; rewrite !len_app in *; unfold len in *; rewrite firstn_length; lia).
    rewrite R by exact F2. apply S2; [lia|now apply fits_shift].
Qed.
Lemma short_last {A B} (m : BM A) (f : A -> BM B) e : short m e -> short (bbind m f) e.
Proof. intros S pre n L F. unfold bbind. destruct (S pre n L F) as (er & b' & ->). eauto. Qed.
Lemma short_nil {A} (m : BM A) : short m [].
Proof. intros pre n L. cbn in L. lia. Qed.
Lemma cut_check pre e n : (n < length e)%nat -> fits pre e -> check (rbuf pre (firstn n e)) (len e) = false.
Proof. intros L F. apply check_rbuf_short; [now apply fits_firstn|]. unfold fits in F. rewrite len_app in F. pose proof (len_nonneg pre). unfold len in *. rewrite firstn_length. lia. Qed.
Lemma short_U8 v : short ReadU8 [v].
Proof. intros pre n L F. unfold ReadU8. change 1 with (len [v]). rewrite cut_check by assumption. eauto. Qed.
Lemma short_U16 v : short ReadU16 (le_bytes 2 v).
Proof. intros pre n L F. unfold ReadU16. change 2 with (len (le_bytes 2 v)) at 1. rewrite cut_check by assumption. eauto. Qed.
Lemma short_U32 v : short ReadU32 (le_bytes 4 v).
Proof. intros pre n L F. unfold ReadU32. change 4 with (len (le_bytes 4 v)) at 1. rewrite cut_check by assumption. eauto. Qed.
Lemma short_U64 v : short ReadU64 (le_bytes 8 v).
Proof. intros pre n L F. unfold ReadU64. change 8 with (len (le_bytes 8 v)) at 1. rewrite cut_check by assumption. eauto. Qed.
Lemma short_bytes v k : len v = k -> short (ReadBytes k) v.
Proof. intros <- pre n L F. unfold ReadBytes. replace (len v =? 0) with false by (unfold len; lia). rewrite cut_check by assumption. eauto. Qed.
Lemma short_varint v : 0 <= v < 2 ^ 64 -> short ReadVarInt (varint_bytes v).
Proof.
  intros H. unfold ReadVarInt, varint_bytes. destruct (v <? 253) eqn:A; [apply short_last, short_U8|].
  destruct (v <=? 65535); [|destruct (v <=? 4294967295)].
  - change (253 :: le_bytes 2 v) with ([253] ++ le_bytes 2 v). eapply short_bind; [apply reads_U8|apply short_U8|apply short_U16].
  - change (254 :: le_bytes 4 v) with ([254] ++ le_bytes 4 v). eapply short_bind; [apply reads_U8|apply short_U8|apply short_U32].
  - change (255 :: le_bytes 8 v) with ([255] ++ le_bytes 8 v). eapply short_bind; [apply reads_U8|apply short_U8|apply short_U64].
Qed.
Lemma short_varbytes v : len v <= 2 ^ 48 -> short ReadVarBytes (varbytes v).
Proof.
  intros L. unfold ReadVarBytes, varbytes. pose proof (len_nonneg v). eapply short_bind; [apply reads_varint; lia|apply short_varint; lia|]. rewrite i64_id by lia. now apply short_bytes.
Qed.
Lemma short_mem {A} (rd : BM A) e : (len e <= 2 ^ 48 -> short rd e) -> short rd e.
Proof. intros H pre n L F. apply H; auto. unfold fits in F. rewrite len_app in F. pose proof (len_nonneg pre). lia. Qed.
Lemma varbytes_len v : len v <= len (varbytes v).
Proof. unfold varbytes. rewrite len_app. pose proof (len_nonneg (varint_bytes (len v))). lia. Qed.
Lemma short_in i : in_ok i -> short read_in (wire_in i).
Proof.
  intros (L & I & S & _). apply short_mem. intros M. unfold read_in, wire_in in *. rewrite prefixed_eq, !le_eq in *. rewrite !len_app in M. pose proof (varbytes_len (script_sig i)).
  pose proof (len_nonneg (ti_hash i)). pose proof (len_nonneg (le_bytes 4 (ti_index i))). pose proof (len_nonneg (le_bytes 4 (ti_seq i))).
  eapply short_bind; [apply reads_bytes; exact L|now apply short_bytes|]. eapply short_bind; [now apply reads_U32|apply short_U32|]. eapply short_bind; [apply reads_varbytes|apply short_varbytes; lia|].
  apply short_last, short_U32.
Qed.
Lemma short_out o : out_ok o -> short read_out (wire_out o).
Proof.
  intros [V _]. apply short_mem. intros M. unfold read_out, wire_out in *. rewrite prefixed_eq, !le_eq in *. rewrite !len_app in M. pose proof (varbytes_len (to_script o)). pose proof (len_nonneg (le_bytes 8 (to_value o))).
  eapply short_bind; [now apply reads_U64|apply short_U64|]. apply short_last, short_varbytes. lia.
Qed.
Lemma short_item w : short read_item (prefixed w).
Proof. rewrite prefixed_eq. apply short_mem. intros M. pose proof (varbytes_len w). apply short_last, short_varbytes. lia. Qed.
Lemma short_n {A B} (rd : BM B) (enc : A -> bytes) (dec : A -> B) l : Forall (fun x => reads rd (enc x) (dec x) /\ short rd (enc x)) l -> short (read_n (length l) rd) (concat (map enc l)).
Proof.
  induction 1 as [|x l [Rx Sx] _ IH]; cbn [length read_n map concat]; [apply short_nil|]. eapply short_bind; [exact Rx|exact Sx|]. now apply short_last.
Qed.
Lemma short_make n k {B} (m : BM B) e : make_ok n k = true -> short m e -> short (do _ <- bmake n k; m) e.
Proof. intros M S pre j L F. unfold bbind, bmake. rewrite M. now apply S. Qed.
Lemma short_witness i j : in_ok i -> short (read_witness j) (wire_witness i).
Proof.
  intros (_ & _ & _ & _ & _ & W & _). unfold read_witness, wire_witness. rewrite compact_eq. unfold fits_memory in W. pose proof (len_nonneg (ti_witness i)).
  eapply short_bind; [apply reads_varint; lia|apply short_varint; lia|]. apply short_make; [unfold make_ok; lia|]. rewrite to_nat_len. apply short_last. apply (short_n read_item prefixed (fun w => w)).
  apply Forall_forall. intros w _. split; [apply reads_item|apply short_item].
Qed.
Lemma short_each l : Forall in_ok l -> short (read_each read_witness (map stripped l)) (concat (map wire_witness l)).
Proof.
  induction 1 as [|x l Hx _ IH]; cbn [read_each map concat]; [apply short_nil|]. eapply short_bind; [now apply (reads_witness x (stripped x))|now apply short_witness|]. now apply short_last.
Qed.

(** The object in the same way. *)
Definition oreads {A} (m : OM A) (o : txobj) (e : bytes) (x : A) (o' : txobj) : Prop :=
  forall pre rest, fits pre (e ++ rest) -> m o (rbuf pre (e ++ rest)) = (Ok x, o', rbuf (pre ++ e) rest).
Definition oshort {A} (m : OM A) (o : txobj) (e : bytes) (P : nat -> txobj -> Prop) : Prop :=
  forall pre n, (n < length e)%nat -> fits pre e -> exists er o' b', m o (rbuf pre (firstn n e)) = (Err er, o', b') /\ P n o'.
Lemma oshort_bind {A B} (m : OM A) (f : A -> OM B) o e1 e2 x o1 P : oreads m o e1 x o1 -> oshort m o e1 P -> oshort (f x) o1 e2 (fun n => P (length e1 + n)%nat) -> oshort (obind m f) o (e1 ++ e2) P.
Proof.
  intros R S1 S2 pre n L F. unfold obind. destruct (Nat.lt_ge_cases n (length e1)) as [H|H].
  - rewrite firstn_short by exact H. destruct (S1 pre n H (fits_l _ _ _ F)) as (er & o' & b' & -> & Hp). eauto 6.
  - rewrite app_length in L. rewrite firstn_long by exact H. assert (F2 : fits pre (e1 ++ firstn (n - length e1) e2)) by (unfold fits in *; rewrite !len_app in *; unfold len in *; rewrite firstn_length; lia).
    rewrite R by exact F2. destruct (S2 (pre ++ e1) (n - length e1)%nat ltac:(lia) (fits_shift _ _ _ F)) as (er & o' & b' & E & Hp). rewrite E.
    replace (length e1 + (n - length e1))%nat with n in Hp by lia. eauto 6.
Qed.
Lemma oreads_bind {A B} (m : OM A) (f : A -> OM B) o e1 e2 x o1 y o2 : oreads m o e1 x o1 -> oreads (f x) o1 e2 y o2 -> oreads (obind m f) o (e1 ++ e2) y o2.
Proof. intros R1 R2 pre rest F. unfold obind. rewrite <- app_assoc in *. rewrite R1 by exact F. rewrite R2 by now apply fits_shift. now rewrite <- app_assoc. Qed.
Lemma oreads_lift {A} (m : BM A) o e x : reads m e x -> oreads (olift m) o e x o.
Proof. intros R pre rest F. unfold olift. now rewrite R. Qed.
Lemma oshort_lift {A} (m : BM A) o e (P : nat -> txobj -> Prop) : short m e -> (forall n, (n < length e)%nat -> P n o) -> oshort (olift m) o e P.
Proof. intros S Hp pre n L F. unfold olift. destruct (S pre n L F) as (er & b' & ->). eauto 6. Qed.
Lemma oreads_field v set o : 0 <= v < 2 ^ 32 -> oreads (ofield ReadU32 set) o (le_bytes 4 v) tt (set v o).
Proof. intros H pre rest F. unfold ofield. now rewrite reads_U32. Qed.
Lemma oshort_field v set o (P : nat -> txobj -> Prop) : (forall n, (n < 4)%nat -> P n (set 0 o)) -> oshort (ofield ReadU32 set) o (le_bytes 4 v) P.
Proof. intros Hp pre n L F. unfold ofield. destruct (short_U32 v pre n L F) as (er & b' & ->). eauto 6. Qed.
Lemma oreads_skip {A} (m : BM unit) (k : OM A) o e x o' : (forall b, m b = (Ok tt, b)) -> oreads k o e x o' -> oreads (obind (olift m) (fun _ => k)) o e x o'.
Proof. intros E R pre rest F. unfold obind, olift. rewrite E. now apply R. Qed.
Lemma oshort_skip {A} (m : BM unit) (k : OM A) o e P : (forall b, m b = (Ok tt, b)) -> oshort k o e P -> oshort (obind (olift m) (fun _ => k)) o e P.
Proof. intros E R pre n L F. unfold obind, olift. rewrite E. now apply R. Qed.
Lemma oreads_set {A} f (k : OM A) o e x o' : oreads k (f o) e x o' -> oreads (obind (oset f) (fun _ => k)) o e x o'.
Proof. intros R pre rest F. unfold obind, oset. now apply R. Qed.
Lemma oshort_set {A} f (k : OM A) o e P : oshort k (f o) e P -> oshort (obind (oset f) (fun _ => k)) o e P.
Proof. intros R pre n L F. unfold obind, oset. now apply R. Qed.
Lemma make_skip n k : make_ok n k = true -> forall b, bmake n k b = (Ok tt, b).
Proof. intros M b. unfold bmake. now rewrite M. Qed.

Definition has_nil (o : txobj) : Prop := all_set (ob_ins o) = None \/ all_set (ob_outs o) = None.
Lemma all_set_some {A} (l : list A) : all_set (map Some l) = Some l.
Proof. induction l as [|x l IH]; cbn [map all_set]; [reflexivity|]. now rewrite IH. Qed.
Lemma all_set_none {A} (l : list A) r : all_set (map Some l ++ None :: r) = None.
Proof. induction l as [|x l IH]; cbn [map app all_set]; [reflexivity|]. now rewrite IH. Qed.
Lemma id_panics o : IDBytes o = Panic <-> has_nil o.
Proof. unfold IDBytes, deref, has_nil. destruct (all_set (ob_ins o)), (all_set (ob_outs o)); cbn [rbind]; split; intros H; try discriminate; auto; destruct H; congruence. Qed.
Definition whole (o : txobj) : Prop := exists ins outs, ob_ins o = map Some ins /\ ob_outs o = map Some outs.
Lemma whole_no_nil o : whole o -> ~ has_nil o.
Proof. intros (ins & outs & Ei & Eo) [H|H]; [rewrite Ei in H|rewrite Eo in H]; rewrite all_set_some in H; discriminate. Qed.

Section Cut.
Variable l : list TxIn.
Hypothesis F : Forall in_ok l.
Hypothesis M : fits_memory 8 l.
Lemma both_in : Forall (fun x => reads read_in (wire_in x) (stripped x) /\ short read_in (wire_in x)) l.
Proof. apply (Forall_impl _ (P := in_ok)); [|exact F]. intros i H. split; [now apply reads_in|now apply short_in]. Qed.
Lemma oreads_into_ins o : l <> [] -> oreads into_ins o (compact (len l) ++ concat (map wire_in l)) tt (ob_set_ins (map Some (map stripped l)) o).
Proof.
  intros N. unfold into_ins. rewrite compact_eq. unfold fits_memory in M. pose proof (len_nonneg l).
  assert (P : 0 < len l) by (destruct l; [congruence|rewrite len_cons; pose proof (len_nonneg l0); lia]).
  eapply oreads_bind; [apply oreads_lift, reads_varint; lia|]. replace (0 <? len l) with true by lia. apply oreads_skip; [apply make_skip; unfold make_ok; lia|]. apply oreads_set.
  rewrite i64_id, to_nat_len by lia. intros pre rest Ff. pose proof (fill_ins_spec (length l) (rbuf pre (concat (map wire_in l) ++ rest)) [] (ob_set_ins (repeat None (length l)) o) eq_refl) as X. cbn [length app] in X.
  rewrite (reads_n read_in wire_in stripped l) in X; [exact X| |exact Ff]. apply (Forall_impl _ (P := in_ok)); [|exact F]. apply reads_in.
Qed.
Lemma oshort_into_ins o (P : nat -> txobj -> Prop) : l <> [] -> (forall n, (n < length (compact (len l)))%nat -> P n o) -> (forall n xs k, (length (compact (len l)) <= n < length (compact (len l)) + length (concat (map wire_in l)))%nat -> P n (ob_set_ins (map Some xs ++ None :: repeat None k) o)) ->
  oshort into_ins o (compact (len l) ++ concat (map wire_in l)) P.
Proof.
  intros N P1 P2. unfold into_ins. rewrite compact_eq in *. unfold fits_memory in M. pose proof (len_nonneg l).
  assert (P0 : 0 < len l) by (destruct l; [congruence|rewrite len_cons; pose proof (len_nonneg l0); lia]).
  eapply oshort_bind; [apply oreads_lift, reads_varint; lia|apply oshort_lift; [apply short_varint; lia|exact P1]|]. replace (0 <? len l) with true by lia. apply oshort_skip; [apply make_skip; unfold make_ok; lia|]. apply oshort_set.
  rewrite i64_id, to_nat_len by lia. intros pre n L Ff. pose proof (fill_ins_spec (length l) (rbuf pre (firstn n (concat (map wire_in l)))) [] (ob_set_ins (repeat None (length l)) o) eq_refl) as X. cbn [length app] in X.
  destruct (short_n read_in wire_in stripped l both_in pre n L Ff) as (er & b' & Es). rewrite Es in X. destruct X as (xs & k & X). rewrite X. eexists _, _, _. split; [reflexivity|]. apply (P2 _ xs k). lia.
Qed.
End Cut.
Section CutOuts.
Variable l : list TxOut.
Hypothesis F : Forall out_ok l.
Hypothesis M : fits_memory 8 l.
Lemma both_out : Forall (fun x => reads read_out (wire_out x) x /\ short read_out (wire_out x)) l.
Proof. apply (Forall_impl _ (P := out_ok)); [|exact F]. intros i H. split; [now apply reads_out|now apply short_out]. Qed.
Lemma oreads_into_outs o : oreads into_outs o (compact (len l) ++ concat (map wire_out l)) tt (if 0 <? len l then ob_set_outs (map Some l) o else o).
Proof.
  unfold into_outs. rewrite compact_eq. unfold fits_memory in M. pose proof (len_nonneg l).
  eapply oreads_bind; [apply oreads_lift, reads_varint; lia|]. destruct (0 <? len l) eqn:P.
  - apply oreads_skip; [apply make_skip; unfold make_ok; lia|]. apply oreads_set.
    rewrite i64_id, to_nat_len by lia. intros pre rest Ff. pose proof (fill_outs_spec (length l) (rbuf pre (concat (map wire_out l) ++ rest)) [] (ob_set_outs (repeat None (length l)) o) eq_refl) as X. cbn [length app] in X.
    rewrite (reads_n read_out wire_out (fun x => x) l) in X; [rewrite map_id in X; exact X| |exact Ff]. apply (Forall_impl _ (P := out_ok)); [|exact F]. apply reads_out.
  - assert (l = []) as -> by (apply len_zero; lia). intros pre rest Ff. cbn [map concat app]. unfold oret. now rewrite app_nil_r.
Qed.
Lemma oshort_into_outs o (P : nat -> txobj -> Prop) : (forall n, (n < length (compact (len l)))%nat -> P n o) -> (forall n xs k, (length (compact (len l)) <= n < length (compact (len l)) + length (concat (map wire_out l)))%nat -> P n (ob_set_outs (map Some xs ++ None :: repeat None k) o)) ->
  oshort into_outs o (compact (len l) ++ concat (map wire_out l)) P.
Proof.
  intros P1 P2. unfold into_outs. rewrite compact_eq in *. unfold fits_memory in M. pose proof (len_nonneg l).
  eapply oshort_bind; [apply oreads_lift, reads_varint; lia|apply oshort_lift; [apply short_varint; lia|exact P1]|]. destruct (0 <? len l) eqn:P0.
  - apply oshort_skip; [apply make_skip; unfold make_ok; lia|]. apply oshort_set.
    rewrite i64_id, to_nat_len by lia. intros pre n L Ff. pose proof (fill_outs_spec (length l) (rbuf pre (firstn n (concat (map wire_out l)))) [] (ob_set_outs (repeat None (length l)) o) eq_refl) as X. cbn [length app] in X.
    destruct (short_n read_out wire_out (fun x => x) l both_out pre n L Ff) as (er & b' & Es). rewrite Es in X. destruct X as (xs & k & X). rewrite X. eexists _, _, _. split; [reflexivity|]. apply (P2 _ xs k). lia.
  - assert (l = []) as -> by (apply len_zero; lia). intros pre n L. cbn in L. lia.
Qed.
End CutOuts.

Lemma oreads_fill o l outs : ob_ins o = map Some (map stripped l) -> ob_outs o = map Some outs -> Forall in_ok l ->
  oreads (run n <- count_ins; fill_witness n 0) o (concat (map wire_witness l)) tt (ob_set_ins (map Some (map carried l)) o).
Proof.
  intros E Eo F pre rest Ff. unfold obind, count_ins. rewrite E, map_length.
  pose proof (fill_witness_spec (map stripped l) (rbuf pre (concat (map wire_witness l) ++ rest)) [] o E) as X. cbn [length app] in X. rewrite (read_each_stripped l F) in X by exact Ff. exact X.
Qed.
Lemma oshort_fill o l outs (P : nat -> txobj -> Prop) : ob_ins o = map Some (map stripped l) -> ob_outs o = map Some outs -> Forall in_ok l -> (forall n xs, P n (ob_set_ins (map Some xs) o)) ->
  oshort (run n <- count_ins; fill_witness n 0) o (concat (map wire_witness l)) P.
Proof.
  intros E Eo F Hp pre n L Ff. unfold obind, count_ins. rewrite E, map_length.
  pose proof (fill_witness_spec (map stripped l) (rbuf pre (firstn n (concat (map wire_witness l)))) [] o E) as X. cbn [length app] in X.
  destruct (short_each l F pre n L Ff) as (er & b' & Es). rewrite Es in X. destruct X as (xs & X & _). rewrite X. eexists _, _, _. split; [reflexivity|]. apply Hp.
Qed.
Lemma obind_assoc {A B C} (m : OM A) (f : A -> OM B) (g : B -> OM C) o b : obind m (fun x => obind (f x) g) o b = obind (obind m f) g o b.
Proof. unfold obind. destruct (m o b) as [[[x|e|] o'] b']; reflexivity. Qed.

Definition nil_iff (w : bool) (t : transaction) (off n : nat) (o : txobj) : Prop := has_nil o <-> in_lists w t (off + n).
Ltac region := unfold in_lists, upto_outs, before_outs, upto_ins, before_ins; rewrite ?app_length, ?le_eq in *; cbn [length le_bytes] in *.
Lemma whole_iff w t off n o : whole o -> ~ in_lists w t (off + n) -> nil_iff w t off n o.
Proof. intros W N. split; [intros H; now apply whole_no_nil in W|easy]. Qed.
Definition rest_of (w : bool) : OM unit := run _ <- into_ins; run _ <- into_outs; run _ <- (if w then run n <- count_ins; fill_witness n 0 else oret tt); ofield ReadU32 ob_set_locktime.
Definition rest_wire (w : bool) (t : transaction) : bytes :=
  (compact (len (tx_ins t)) ++ concat (map wire_in (tx_ins t))) ++ (compact (len (tx_outs t)) ++ concat (map wire_out (tx_outs t))) ++
  (if w then concat (map wire_witness (tx_ins t)) else []) ++ le_bytes 4 (tx_locktime t).
Lemma oshort_rest w t old v : tx_ok t -> tx_ins t <> [] -> oshort (rest_of w) (ob_set_version v (of_tx old)) (rest_wire w t) (nil_iff w t (if w then 6 else 4)).
Proof.
  intros (V & K & Mi & Mo & Fi & Fo) N. unfold rest_of, rest_wire.
  eapply oshort_bind; [apply oreads_into_ins; assumption|apply oshort_into_ins; try assumption|].
  { intros n L. apply whole_iff; [eexists _, _; split; reflexivity|]. region. destruct w; cbn [length]; lia. }
  { intros n xs k L. split; [intros _|intros _; left; apply all_set_none]. region. destruct w; cbn [length]; lia. }
  set (o1 := ob_set_ins _ _). assert (W1 : forall outs, whole (ob_set_outs (map Some outs) o1)) by (intros outs; eexists _, _; split; reflexivity).
  eapply oshort_bind; [now apply oreads_into_outs|apply oshort_into_outs; try assumption|].
  { intros n L. apply whole_iff; [apply (W1 (tx_outs old))|]. region. destruct w; cbn [length]; lia. }
  { intros n xs k L. split; [intros _|intros _; right; apply all_set_none]. region. destruct w; cbn [length]; lia. }
  set (o2 := if 0 <? len (tx_outs t) then _ else _).
  assert (W2 : exists outs, ob_outs o2 = map Some outs /\ ob_ins o2 = map Some (map stripped (tx_ins t))) by (unfold o2; destruct (0 <? len (tx_outs t)); eexists; split; reflexivity). destruct W2 as (outs & Eo & Ei).
  assert (Nr : forall n, ~ in_lists w t ((if w then 6 else 4) + (length (compact (len (tx_ins t)) ++ concat (map wire_in (tx_ins t))) + (length (compact (len (tx_outs t)) ++ concat (map wire_out (tx_outs t))) + n))))
    by (intros n; region; destruct w; cbn [length]; lia).
  destruct w.
  - eapply oshort_bind; [now apply (oreads_fill o2 (tx_ins t) outs)|apply (oshort_fill o2 (tx_ins t) outs); try assumption|].
    { intros n xs. apply whole_iff; [eexists _, _; split; [reflexivity|exact Eo]|apply Nr]. }
    apply oshort_field. intros n L. apply whole_iff; [eexists _, _; split; [reflexivity|exact Eo]|apply Nr].
  - eapply oshort_bind with (x := tt) (o1 := o2); [intros pre rest _; unfold oret; now rewrite app_nil_r|intros pre n L; cbn in L; lia|].
    apply oshort_field. intros n L. apply whole_iff; [eexists _, _; split; [exact Ei|exact Eo]|apply Nr].
Qed.
Lemma oshort_start {A} (k : Z -> OM A) w t old e : 0 <= tx_version t < 2 ^ 32 -> oshort (run _ <- oret tt; k (tx_version t)) (ob_set_version (tx_version t) (of_tx old)) e (nil_iff w t 4) ->
  oshort (run _ <- ofield ReadU32 ob_set_version; k (tx_version t)) (of_tx old) (le_bytes 4 (tx_version t) ++ e) (nil_iff w t 0).
Proof.
  intros V S. eapply oshort_bind; [now apply oreads_field| |].
  - apply oshort_field. intros n L. apply whole_iff; [eexists _, _; split; reflexivity|]. region. lia.
  - intros pre n L F. exact (S pre n L F).
Qed.
Lemma truncated_legacy t n old : tx_ok t -> tx_ins t <> [] -> len (wire_legacy t) <= 2 ^ 48 -> (n < length (wire_legacy t))%nat ->
  exists er o, DeserializeNoWitnessInto (firstn n (wire_legacy t)) (of_tx old) = (Err er, o) /\ (IDBytes o = Panic <-> in_lists false t n).
Proof.
  intros T N Ln L. assert (Ew : wire_legacy t = le_bytes 4 (tx_version t) ++ rest_wire false t) by (unfold wire_legacy, wire_body, rest_wire; rewrite !le_eq, <- !app_assoc; reflexivity).
  pose proof (oshort_start (fun _ => rest_of false) false t old (rest_wire false t) (proj1 T) (oshort_rest false t old (tx_version t) T N)) as S.
  rewrite <- Ew in S. destruct (S [] n L Ln) as (er & o & b' & E & I). exists er, o. split; [|rewrite id_panics; exact I].
  unfold DeserializeNoWitnessInto. rewrite NewBufferReader_rbuf.
  change (fst ((run _ <- ofield ReadU32 ob_set_version; rest_of false) (of_tx old) (rbuf [] (firstn n (wire_legacy t)))) = (Err er, o)). now rewrite E.
Qed.
Definition start144 : OM unit := run marker <- olift ReadU8; run _ <- olift (bassert (marker =? 0x00) "witness.marker.error"); run flag <- olift ReadU8;
  run _ <- olift (bassert (flag =? 0x01) "witness.flag.error"); rest_of true.
Lemma truncated_bip144 t n old : tx_ok t -> tx_ins t <> [] -> len (wire_bip144 t) <= 2 ^ 48 -> (n < length (wire_bip144 t))%nat ->
  exists er o, DeserializeInto (firstn n (wire_bip144 t)) (of_tx old) = (Err er, o) /\ (IDBytes o = Panic <-> in_lists true t n).
Proof.
  intros T N Ln L. assert (Ew : wire_bip144 t = le_bytes 4 (tx_version t) ++ [0] ++ [1] ++ rest_wire true t) by (unfold wire_bip144, wire_body, rest_wire; rewrite !le_eq, <- !app_assoc; reflexivity).
  assert (S : oshort (run _ <- ofield ReadU32 ob_set_version; start144) (of_tx old) (wire_bip144 t) (nil_iff true t 0)).
  { rewrite Ew. apply (oshort_start (fun _ => start144)); [apply T|]. unfold start144.
    enough (S2 : oshort start144 (ob_set_version (tx_version t) (of_tx old)) ([0] ++ [1] ++ rest_wire true t) (nil_iff true t 4)) by exact S2.
    unfold start144. eapply oshort_bind; [apply oreads_lift, reads_U8|apply oshort_lift; [apply short_U8|]|].
    { intros k Lk. apply whole_iff; [eexists _, _; split; reflexivity|]. cbn [length] in Lk. region. lia. }
    apply oshort_skip; [reflexivity|]. eapply oshort_bind; [apply oreads_lift, reads_U8|apply oshort_lift; [apply short_U8|]|].
    { intros k Lk. apply whole_iff; [eexists _, _; split; reflexivity|]. cbn [length] in Lk. region. lia. }
    apply oshort_skip; [reflexivity|]. exact (oshort_rest true t old (tx_version t) T N). }
  destruct (S [] n L Ln) as (er & o & b' & E & I). exists er, o. split; [|rewrite id_panics; exact I].
  unfold DeserializeInto. rewrite NewBufferReader_rbuf.
  transitivity (fst ((run _ <- ofield ReadU32 ob_set_version; start144) (of_tx old) (rbuf [] (firstn n (wire_bip144 t))))); [|now rewrite E].
  unfold start144, rest_of, obind, count_ins. cbn. reflexivity.
Qed.
