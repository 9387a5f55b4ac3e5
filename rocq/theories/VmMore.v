(** The properties of scripts and of the engine. *)
From Verif Require Import GoBase BaseLemmas BufferModel BufferSpec BufferProofs BufferMore ScriptNumModel ScriptNumSpec ScriptNumProofs
  ScriptModel ScriptSpec ScriptProofs VmModel VmSpec VmProofs LockSpec.
From Coq Require Import ZifyBool ZifyNat.

(** ** C18, C19: the builder. *)
Lemma encodes_script i e : encodes i e -> script_of [i] e.
Proof. intros H. rewrite <- (app_nil_r e). constructor; [exact H|constructor]. Qed.
Lemma encodes_len_push d b e : Script (AddData d b) = Script b ++ e -> len d < 2 ^ 32 -> len e <= len d + 5.
Proof.
  intros E L. assert (A : len (Script (AddData d b)) <= len (Script b) + len d + 5); [|rewrite E, len_app in A; lia].
  clear E. unfold Script, Bytes, AddData. pose proof (len_nonneg d).
  repeat match goal with |- context [match ?x with _ => _ end] => destruct x; cbn [WriteU8 WriteU16 WriteU32 WriteBytes bdata]; len_simpl; try lia
    | |- context [if ?x then _ else _] => destruct x; cbn [WriteU8 WriteU16 WriteU32 WriteBytes bdata]; len_simpl; try lia end.
Qed.

Lemma add_data_runs H hs vf d s c : bytes_ok d -> len d < 2 ^ 32 -> d <> [0] -> d <> [0x81] -> skipping c = false ->
  execute H hs vf (Script (AddData d NewScriptBuilder)) false (Vm s c) = Ok (Vm (d :: s) c).
Proof.
  intros O L N0 N1 Sk. destruct (AddData_spec d NewScriptBuilder O L N1) as (i & e & E & Oe & En & P).
  replace (list_Z_eqb d [0]) with false in P by (symmetry; now apply list_Z_eqb_neq).
  pose proof (encodes_len_push d NewScriptBuilder e E L) as Le.
  rewrite E. change (Script NewScriptBuilder) with (@nil Z). cbn [app].
  rewrite (exec_of H hs vf [i] e false (Vm s c) (conj Oe (ltac:(lia) : len e <= 2 ^ 48)) (encodes_script i e En)).
  cbn [run]. rewrite (step_push H hs vf i d s c P Sk). reflexivity.
Qed.
Lemma add_data_zero H hs vf s c : skipping c = false ->
  execute H hs vf (Script (AddData [0] NewScriptBuilder)) false (Vm s c) = Ok (Vm ([] :: s) c).
Proof.
  intros Sk. change (Script (AddData [0] NewScriptBuilder)) with [0].
  rewrite (exec_of H hs vf [Instr 0 []] [0]).
  - cbn [run]. rewrite (step_push H hs vf _ [] s c push_empty Sk). reflexivity.
  - split; [bytes_ok_tac|vm_compute; discriminate].
  - apply encodes_script. constructor. vm_compute. tauto.
Qed.
Lemma next_unknown op r : op_length op = None -> len (op :: r) <= 2 ^ 48 -> exists e b, NextInstruction (NewBufferReader (op :: r)) = (Err e, b).
Proof. intros E L. rewrite NewBufferReader_rbuf, next_cons by exact L. unfold after_op. rewrite E. do 2 eexists. reflexivity. Qed.
Lemma execute_unknown H hs vf op r f st : op_length op = None -> len (op :: r) <= 2 ^ 48 -> exists e, execute H hs vf (op :: r) f st = Err e.
Proof.
  intros E L. unfold execute. cbn [exec_loop]. destruct (next_unknown op r E L) as (e & b & ->). eexists. reflexivity.
Qed.
Lemma add_data_0x81 H hs vf f st : exists e, execute H hs vf (Script (AddData [0x81] NewScriptBuilder)) f st = Err e.
Proof. apply (execute_unknown H hs vf 0x4f []); [reflexivity|vm_compute; discriminate]. Qed.

Lemma AddInt64_spec n b : - 2 ^ 63 < n < 2 ^ 63 -> n <> -1 -> exists b' i e v, AddInt64 n b = Ok b' /\ Script b' = Script b ++ e /\
  bytes_ok e /\ len e <= 20 /\ encodes i e /\ pushes i v /\ enc_num v n.
Proof.
  intros Hn N. unfold AddInt64. destruct (num_bytes_enc n Hn) as (v & Ev & Hv).
  destruct (n =? 0) eqn:E0.
  { exists (WriteU8 0 b), (Instr 0 []), [0], []. split; [reflexivity|]. split; [reflexivity|]. split; [bytes_ok_tac|]. split; [vm_compute; discriminate|].
    split; [constructor; vm_compute; tauto|]. split; [constructor|]. replace n with 0 in * by lia. vm_compute in Ev. injection Ev as <-. exact Hv. }
  destruct ((n =? -1) || (1 <=? n) && (n <=? 16)) eqn:E1.
  { assert (1 <= n <= 16) by lia. exists (WriteU8 (u8 (81 + n - 1)) b), (Instr (80 + n) []), [80 + n], [n].
    replace (81 + n - 1) with (80 + n) by lia. rewrite u8_id by lia. split; [reflexivity|]. split; [reflexivity|].
    split; [constructor; [unfold is_byte; lia|constructor]|]. split; [len_simpl; lia|]. split; [constructor; unfold plain_opcodes; cbn [In]; lia|].
    split; [now constructor|]. rewrite num_bytes_small in Ev by lia. injection Ev as <-. exact Hv. }
  rewrite Ev. cbn [rbind]. destruct (num_bytes_spec n Hn) as (w & Ew & Hw & L8 & T & V). rewrite Ev in Ew. injection Ew as <-.
  assert (N81 : v <> [129]). { intros ->. apply N. rewrite <- V. reflexivity. }
  destruct (AddData_spec v b Hw ltac:(lia) N81) as (i & e & E & Oe & En & P).
  assert (N0 : v <> [0]). { intros ->. vm_compute in V. lia. }
  replace (list_Z_eqb v [0]) with false in P by (symmetry; now apply list_Z_eqb_neq).
  pose proof (encodes_len_push v b e E ltac:(lia)).
  exists (AddData v b), i, e, v. split; [reflexivity|]. split; [exact E|]. split; [exact Oe|]. split; [lia|]. split; [exact En|]. split; [exact P|exact Hv].
Qed.
Lemma add_int_runs H hs vf n s c : - 2 ^ 63 < n < 2 ^ 63 -> n <> -1 -> skipping c = false -> exists b v,
  AddInt64 n NewScriptBuilder = Ok b /\ execute H hs vf (Script b) false (Vm s c) = Ok (Vm (v :: s) c) /\ enc_num v n.
Proof.
  intros Hn N Sk. destruct (AddInt64_spec n NewScriptBuilder Hn N) as (b & i & e & v & E & Eb & Oe & Le & En & P & V).
  exists b, v. split; [exact E|]. split; [|exact V]. rewrite Eb. change (Script NewScriptBuilder) with (@nil Z). cbn [app].
  rewrite (exec_of H hs vf [i] e false (Vm s c) (conj Oe (ltac:(lia) : len e <= 2 ^ 48)) (encodes_script i e En)).
  cbn [run]. rewrite (step_push H hs vf i v s c P Sk). reflexivity.
Qed.
Lemma add_int_minus_one H hs vf f st : exists b e, AddInt64 (-1) NewScriptBuilder = Ok b /\ execute H hs vf (Script b) f st = Err e.
Proof.
  destruct (execute_unknown H hs vf 0x4f [] f st) as (e & E); [reflexivity|vm_compute; discriminate|].
  exists (WriteU8 79 NewBuffer), e. split; [reflexivity|exact E].
Qed.

(** ** C21. *)
Lemma filter_script_of p is d : script_of is d -> bytes_ok d -> script_of (filter p is) (concat (map instr_bytes (filter p is))).
Proof.
  induction 1 as [|i e is d He Hs IH]; intros O; [constructor|]. apply bytes_ok_app in O. destruct O as [Oe Od]. cbn [filter].
  destruct (p i); [|now apply IH]. cbn [map concat]. rewrite (encodes_bytes i e Oe He). constructor; auto.
Qed.
Lemma remove_parsed d is op : in_memory d -> script_of is d ->
  exists d', RemoveOpcode d op = Ok d' /\ script_of (filter (fun i => negb (iop i =? op)) is) d'.
Proof.
  intros M S. unfold RemoveOpcode. rewrite (all_of is d M S). eexists. split; [reflexivity|]. rewrite fold_filter. cbn [app].
  apply (filter_script_of _ is d S). apply M.
Qed.
Lemma encodes_known i e : encodes i e -> op_length (iop i) <> None.
Proof.
  destruct 1 as [op H|op data H L|n data L H|l data L Hl V|l data L Hl V]; cbn [iop]; try discriminate.
  - destruct (plain_byte op H) as [_ ->]. discriminate.
  - destruct (op_length_cases op) as [[E _]|[[E _]|[[E _]|[[E _]|[[E _]|[E H']]]]]]; try congruence. lia.
Qed.
Lemma remove_unknown d op : in_memory d -> op_length op = None -> RemoveOpcode d op = Ok d.
Proof.
  intros M E. unfold RemoveOpcode. destruct (all_any d M) as [(is & A & S)|(m & A)]; rewrite A; [|reflexivity].
  rewrite fold_filter. cbn [app]. f_equal. rewrite <- (script_of_bytes is d (proj1 M) S). f_equal. f_equal.
  clear A. destruct M as [O _]. induction S as [|i e is d He Hs IH]; [reflexivity|]. apply bytes_ok_app in O. destruct O as [Oe Od]. cbn [filter].
  replace (iop i =? op) with false; [cbn [negb]; now rewrite IH by exact Od|].
  pose proof (encodes_known i e He). symmetry. apply Z.eqb_neq. congruence.
Qed.

(** ** C23: data opcodes. *)
Lemma eq_cases (x y : bytes) : x = y /\ list_Z_eqb x y = true \/ x <> y /\ list_Z_eqb x y = false.
Proof. destruct (list_Z_eqb x y) eqn:E; [left|right]; split; auto; [now apply list_Z_eqb_spec|now apply list_Z_eqb_neq]. Qed.

Lemma effect_fun H op s a b : effect H op s a -> effect H op s b -> a = b.
Proof.
  intros A B. destruct A; inversion B; subst; try congruence; try lia.
  - f_equal. eapply enc_num_unique; eauto.
  - repeat match goal with X : num_item _ _ |- _ => destruct X as [(_ & <- & _) _] end. f_equal. eapply enc_num_unique; eauto.
  - f_equal. f_equal. lia.
Qed.

Definition items_ok (s : list bytes) : Prop := Forall (fun x => bytes_ok x /\ len x <= 2 ^ 48) s.

Ltac known := unfold opfunc; cbn [iop idata]; cbv [Z.eqb Pos.eqb Z.leb Z.compare Pos.compare Pos.compare_cont andb].

Lemma data_opcode H hs vf op s c : In op data_opcodes -> items_ok s -> skipping c = false ->
  (exists s', effect H op s s' /\ step H hs vf (Instr op []) (Vm s c) = Ok (Vm s' c)) \/
  ((forall s', ~ effect H op s s') /\ exists e, step H hs vf (Instr op []) (Vm s c) = Err e).
Proof.
  intros I F Sk. rewrite step_active by exact Sk.
  assert (Const : 81 <= op <= 96 -> (exists s', effect H op s s' /\ opfunc H hs vf (Instr op []) (Vm s c) = Ok (Vm s' c))).
  { intros Ho. exists ([op - 80] :: s). split; [replace op with (80 + (op - 80)) at 1 by lia; constructor; lia|].
    rewrite <- step_active by exact Sk. apply step_push; [|exact Sk]. replace op with (80 + (op - 80)) at 1 by lia. constructor. lia. }
  assert (Fb : Forall bytes_ok s) by (eapply Forall_impl; [|exact F]; intros a [A _]; exact A).
  unfold data_opcodes in I. cbn [In] in I.
  repeat (destruct I as [<-|I]; [|]); try contradiction; try (left; apply Const; lia); clear Const; known.
  - destruct s as [|x s]; [right; split; [inversion 1; lia|eexists; reflexivity]|left; exists (x :: x :: s); split; [constructor|]].
    unfold opDup, on_stack, DupN. change (1 <? 1) with false. cbv iota. change (Z.to_nat 1) with 1%nat. cbn [dup_loop dstack]. unfold PeekByteArray.
    rewrite len_cons. pose proof (len_nonneg s). replace ((1 - 1 <? 0) || (1 + len s - (1 - 1) - 1 <? 0)) with false by lia. reflexivity.
  - unfold op2Dup, on_stack, DupN. change (2 <? 1) with false. cbv iota. change (Z.to_nat 2) with 2%nat. cbn [dup_loop dstack]. unfold PeekByteArray.
    destruct s as [|x [|y s]]; [right; split; [inversion 1; lia|eexists; reflexivity]..|left]. exists (x :: y :: x :: y :: s). split; [constructor|].
    rewrite !len_cons. pose proof (len_nonneg s). replace ((2 - 1 <? 0) || (1 + (1 + len s) - (2 - 1) - 1 <? 0)) with false by lia. change (index (x :: y :: s) (2 - 1)) with (Ok y). cbn [rbind].
    unfold PushByteArray. rewrite !len_cons. replace ((2 - 1 <? 0) || (1 + (1 + (1 + len s)) - (2 - 1) - 1 <? 0)) with false by lia. reflexivity.
  - unfold op3Dup, on_stack, DupN. change (3 <? 1) with false. cbv iota. change (Z.to_nat 3) with 3%nat. cbn [dup_loop dstack]. unfold PeekByteArray.
    destruct s as [|x [|y [|z s]]]; [right; split; [inversion 1; lia|eexists; reflexivity]..|left]. exists (x :: y :: z :: x :: y :: z :: s). split; [constructor|].
    rewrite !len_cons. pose proof (len_nonneg s). replace ((3 - 1 <? 0) || (1 + (1 + (1 + len s)) - (3 - 1) - 1 <? 0)) with false by lia. change (index (x :: y :: z :: s) (3 - 1)) with (Ok z). cbn [rbind].
    unfold PushByteArray. rewrite !len_cons. replace ((3 - 1 <? 0) || (1 + (1 + (1 + (1 + len s))) - (3 - 1) - 1 <? 0)) with false by lia.
    change (index (z :: x :: y :: z :: s) (3 - 1)) with (Ok y). cbn [rbind]. rewrite !len_cons.
    replace ((3 - 1 <? 0) || (1 + (1 + (1 + (1 + (1 + len s)))) - (3 - 1) - 1 <? 0)) with false by lia. reflexivity.
  - unfold opDrop, on_stack, DropN. change (1 <? 1) with false. cbv iota. change (Z.to_nat 1) with 1%nat. cbn [drop_loop dstack].
    destruct s as [|x s]; [right; split; [inversion 1; lia|eexists; reflexivity]|left]. exists s. split; [constructor|]. rewrite pop_cons. reflexivity.
  - unfold opSwap, on_stack, SwapN. change (1 <? 1) with false. cbv iota. change (Z.to_nat 1) with 1%nat. cbn [swap_loop dstack]. unfold nipN.
    destruct s as [|x [|y s]]; [right; split; [inversion 1; lia|eexists; reflexivity]..|left]. exists (y :: x :: s). split; [constructor|].
    rewrite !len_cons. pose proof (len_nonneg s). replace ((2 * 1 - 1 <? 0) || (1 + (1 + len s) - (2 * 1 - 1) - 1 <? 0)) with false by lia. reflexivity.
  - unfold opSize, on_stack. cbn [dstack]. unfold PeekByteArray.
    destruct s as [|x s]; [right; split; [inversion 1; lia|eexists; reflexivity]|left].
    rewrite !len_cons. pose proof (len_nonneg s). replace ((0 <? 0) || (1 + len s - 0 - 1 <? 0)) with false by lia. change (index (x :: s) 0) with (Ok x). cbn [rbind].
    inversion F as [|? ? [Hx Lx] _]. pose proof (len_nonneg x). destruct (num_bytes_enc (len x)) as (v & Ev & Hv); [lia|]. exists (v :: x :: s).
    split; [now constructor|]. unfold PushInt. rewrite Ev. reflexivity.
  - unfold opEqual, on_stack. cbn [dstack].
    destruct s as [|x [|y s]]; [right; split; [inversion 1; lia|eexists; reflexivity]..|left].
    rewrite pop_cons. cbn [rbind]. rewrite pop_cons. cbn [rbind].
    destruct (eq_cases x y) as [[-> E]|[N E]]; rewrite E; eexists; (split; [|reflexivity]); now constructor.
  - unfold opEqualVerify, opEqual, equalVerify, on_stack. cbn [dstack].
    destruct s as [|x [|y s]]; [right; split; [inversion 1; lia|eexists; reflexivity]..|].
    rewrite pop_cons. cbn [rbind]. rewrite pop_cons. cbn [rbind dstack cstack]. unfold PopBool, PushBool, PushByteArray. rewrite pop_cons. cbn [rbind].
    destruct (eq_cases x y) as [[-> E]|[N E]]; rewrite E; [left; exists s; split; [constructor|reflexivity]|].
    right. split; [|eexists; reflexivity]. inversion 1; congruence || lia.
  - unfold opAdd, on_stack. cbn [dstack].
    destruct (pop_int_cases s Fb) as [(x & a & s1 & -> & Hx & Ex)|((e & Ex) & Nx)]; rewrite Ex; cbn [rbind].
    2:{ right. split; [|eexists; reflexivity]. inversion 1; subst; try lia. eapply Nx; eauto. }
    inversion Fb as [|? ? _ Fb1]; subst.
    destruct (pop_int_cases s1 Fb1) as [(y & b & s2 & -> & Hy & Ey)|((e & Ey) & Ny)]; rewrite Ey; cbn [rbind].
    2:{ right. split; [|eexists; reflexivity]. inversion 1; subst; try lia. eapply Ny; eauto. }
    left. pose proof (num_item_range x a Hx). pose proof (num_item_range y b Hy). rewrite i64_id by lia.
    destruct (num_bytes_enc (a + b)) as (v & Ev & Hv); [lia|]. exists (v :: s2). split; [econstructor; eauto|]. unfold PushInt. rewrite Ev. reflexivity.
  - unfold opHash160, on_stack. cbn [dstack].
    destruct s as [|x s]; [right; split; [inversion 1; lia|eexists; reflexivity]|left]. exists (H x :: s). split; [constructor|]. rewrite pop_cons. reflexivity.
  - left. exists ([] :: s). split; [constructor|reflexivity].
Qed.
