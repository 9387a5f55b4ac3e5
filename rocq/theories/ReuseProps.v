(** C118: using a buffer or script builder again. *)
From Verif Require Import GoBase BaseLemmas BufferModel ScriptNumModel ScriptModel ScriptSpec LockModel LockSpec MemModel MemSpec MemProofs ReuseModel ReuseSpec ReuseProofs.

(** The chunks a method appends are what the value model of the buffer says it writes. *)
Theorem C118_writers : forall b,
  (forall v, bdata (WriteU8 v b) = bdata b ++ concat (w_u8 v)) /\ (forall v, bdata (WriteU16 v b) = bdata b ++ concat (w_u16 v)) /\
  (forall v, bdata (WriteU32 v b) = bdata b ++ concat (w_u32 v)) /\ (forall v, bdata (WriteU64 v b) = bdata b ++ concat (w_u64 v)) /\
  (forall v, bdata (WriteVarInt v b) = bdata b ++ concat (w_varint v)) /\ (forall v, bdata (WriteBytes v b) = bdata b ++ concat (w_bytes v)) /\
  (forall v, bdata (WriteVarBytes v b) = bdata b ++ concat (w_varbytes v)) /\ (forall v, bdata (AddData v b) = bdata b ++ concat (w_data v)) /\
  (forall v, bdata (AddOp v b) = bdata b ++ concat (w_op v)).
Proof.
  intros b. split; [intros; apply bdata_u8|]. split; [intros; apply bdata_u16|]. split; [intros; apply bdata_u32|]. split; [intros; apply bdata_u64|].
  split; [intros; apply bdata_varint|]. split; [intros; apply bdata_bytes|]. split; [intros; apply bdata_varbytes|]. split; [intros; apply bdata_data|intros; apply bdata_u8].
Qed.
Print Assumptions C118_writers.

Definition start : world := World [] [] [].
Lemma start_sound : sound (w_heap start) (w_bufs start).
Proof. split; intros; destruct i; discriminate. Qed.

(** Any number of buffers, created and used in any order, hold what lists would hold: they never get in each other's way. *)
Theorem C118_contents : forall grow os, let w := buf_run grow start os in
  map (read (w_heap w)) (w_bufs w) = fold_left list_buf_op os [].
Proof. intros grow os w. destruct (run_sound grow os start start_sound) as [_ R]. exact R. Qed.
Print Assumptions C118_contents.

(** What Bytes or Script returned keeps its contents, as long as that buffer is not reset afterwards. *)
Theorem C118_kept_partial : forall grow os, tidy [] os -> kept (buf_run grow start os).
Proof. intros grow os T. apply (run_intact grow os start [] start_sound); [|exact T]. intros s c []. Qed.
Print Assumptions C118_kept_partial.

(** A reset and new content of at most the same length always overwrite what was returned before. *)
Theorem C118_reset_overwrites : forall grow os i c cs, let w := buf_run grow start os in
  nth_error (fold_left list_buf_op os []) i = Some c -> (length (concat cs) <= length c)%nat ->
  let w' := buf_run grow w [BTake i; BReset i; BWrite i cs] in
  exists s, hd_error (w_out w') = Some (s, c) /\ read (w_heap w') s = concat cs ++ skipn (length (concat cs)) c.
Proof.
  intros grow os i c cs w N L w'. destruct (run_sound grow os start start_sound) as [[A B] R]. fold w in A, B, R. change (map (read (w_heap start)) (w_bufs start)) with (@nil bytes) in R.
  rewrite <- R, nth_error_map in N. unfold w'. clearbody w. clear R w'. destruct w as [h bs out]. cbn [w_heap w_bufs] in *.
  unfold buf_run. cbn [fold_left buf_op]. destruct (nth_error bs i) as [s|] eqn:E; [|discriminate N]. cbn [option_map] in N. injection N as <-.
  cbn [buf_op]. rewrite E. cbn [buf_op]. pose proof (nth_error_Some bs i) as NL. rewrite E in NL. assert (Li : (i < length bs)%nat) by (apply NL; discriminate).
  rewrite nth_upd, Nat.eqb_refl by exact Li. destruct (appends grow h (slice_to s 0) cs) as [h' s'] eqn:E2. cbn [w_out w_heap hd_error].
  exists s. split; [reflexivity|]. pose proof (read_length h s (A _ _ E)) as RL.
  rewrite (appends_over grow cs h s 0 h' s' (A _ _ E) ltac:(lia) E2). reflexivity.
Qed.
Print Assumptions C118_reset_overwrites.

(** So "the scripts a builder returned stay as they are" is false: a builder used for the locking script of one key hash
    and then for that of another leaves two copies of the second script. *)
Definition p2pkh_chunks (h : bytes) : list bytes := w_op 0x76 ++ w_op 0xa9 ++ w_data h ++ w_op 0x88 ++ w_op 0xac.
Theorem C118_kept_refuted : forall grow a b, length a = 20%nat -> length b = 20%nat -> a <> b ->
  let w := buf_run grow start [BNew; BWrite 0 (p2pkh_chunks a); BTake 0; BReset 0; BWrite 0 (p2pkh_chunks b)] in
  exists s, w_out w = [(s, p2pkh_script a)] /\ read (w_heap w) s = p2pkh_script b /\ ~ kept w.
Proof.
  intros grow a b La Lb Nab w.
  assert (C : forall x, length x = 20%nat -> concat (p2pkh_chunks x) = p2pkh_script x).
  { intros x Lx. unfold p2pkh_chunks, p2pkh_script. destruct x as [|x0 [|x1 r]]; try discriminate Lx. unfold w_data, w_op, w_u8, w_bytes.
    replace (len (x0 :: x1 :: r)) with 20 by (unfold len; rewrite Lx; reflexivity). cbn [Z.ltb Z.compare Pos.compare Pos.compare_cont app concat].
    rewrite ?concat_app, ?app_nil_r. cbn [concat app]. rewrite ?app_nil_r. reflexivity. }
  assert (LC : forall x, length x = 20%nat -> length (p2pkh_script x) = 25%nat) by (intros x Lx; unfold p2pkh_script; rewrite !app_length, Lx; reflexivity).
  destruct (C118_reset_overwrites grow [BNew; BWrite 0 (p2pkh_chunks a)] 0 (p2pkh_script a) (p2pkh_chunks b)) as (s & O & R).
  - cbn [fold_left list_buf_op nth_error app upd]. rewrite (C a La). reflexivity.
  - rewrite (C b Lb), !LC by assumption. lia.
  - unfold buf_run in O, R. rewrite <- fold_left_app in O, R. cbn [app] in O, R. fold (buf_run grow start [BNew; BWrite 0 (p2pkh_chunks a); BTake 0; BReset 0; BWrite 0 (p2pkh_chunks b)]) in O, R. fold w in O, R.
    exists s. assert (O' : w_out w = [(s, p2pkh_script a)]).
    { revert O. unfold w, buf_run, start. cbn [fold_left buf_op app nth_error]. destruct (appends grow [] empty_slice (p2pkh_chunks a)) as [h1 s1]. cbn [upd nth_error].
      cbn [buf_op nth_error upd]. destruct (appends grow h1 (slice_to s1 0) (p2pkh_chunks b)) as [h2 s2]. intros O; change (Some (s1, read h1 s1) = Some (s, p2pkh_script a)) in O; change ([(s1, read h1 s1)] = [(s, p2pkh_script a)]); congruence. }
    split; [exact O'|]. assert (R' : read (w_heap w) s = p2pkh_script b).
    { rewrite R, (C b Lb). rewrite skipn_all2 by (rewrite !LC by assumption; lia). apply app_nil_r. }
    split; [exact R'|]. intros K. specialize (K s (p2pkh_script a)). rewrite O' in K. specialize (K (or_introl eq_refl)). rewrite R' in K.
    unfold p2pkh_script in K. apply app_inv_head in K. apply app_inv_tail in K. congruence.
Qed.
Print Assumptions C118_kept_refuted.

Example C118_example : forall grow, let w := buf_run grow start [BNew; BNew; BWrite 0 (w_u32 0x01020304); BWrite 1 (w_data [7; 8; 9]); BTake 0; BWrite 0 (w_op 0xac); BTake 0; BReset 1; BWrite 1 (w_varint 300)] in
  tidy [] [BNew; BNew; BWrite 0 (w_u32 0x01020304); BWrite 1 (w_data [7; 8; 9]); BTake 0; BWrite 0 (w_op 0xac); BTake 0; BReset 1; BWrite 1 (w_varint 300)] /\
  map (read (w_heap w)) (w_bufs w) = [[4; 3; 2; 1; 0xac]; [0xfd; 0x2c; 1]].
Proof.
  intros grow w. split; [cbn; intuition discriminate|]. unfold w. rewrite C118_contents. reflexivity.
Qed.
