(** C117: debugging. *)
From Verif Require Import GoBase BaseLemmas BufferModel BufferSpec BufferProofs ScriptNumModel ScriptNumSpec ScriptModel ScriptSpec ScriptProofs HexModel HexProofs
  Bip39Model AsmModel AsmSpec AsmProofs AsmProps VmModel VmSpec VmProofs VmMore VmSig VmPanic TraceModel TraceSpec TraceProofs.
From Coq Require Import ZifyBool ZifyNat.

(** Switching it on or off, and whatever was recorded before, changes no verdict and no final state. *)
Theorem C117_verdict : forall H hs vf et debug un lock st pc ts, in_memory (un ++ lock) ->
  (forall st1, execute H hs vf un false st = Ok st1 -> Forall in_memory (dstack st1)) ->
  fst (fst (VerifyTraced H hs vf et debug un lock st pc ts)) = Verify H hs vf un lock st.
Proof.
  intros H hs vf et debug un lock st pc ts M I. unfold VerifyTraced, Verify.
  assert (Mu : in_memory un) by (destruct M as [O L]; apply bytes_ok_app in O; unfold len in L; rewrite app_length in L; split; [tauto|unfold len; lia]).
  pose proof (execute_traced_verdict H hs vf et debug un false st pc ts Mu) as V1.
  destruct (execute_traced H hs vf et debug un false st pc ts) as [[r1 pc1] ts1]. cbn [fst] in V1. rewrite <- V1.
  destruct r1 as [st1|e|]; cbn [rbind]; try reflexivity. specialize (I st1 (eq_sym V1)).
  pose proof (execute_traced_verdict H hs vf et debug (un ++ lock) true (Vm [] (cstack st1)) 0 ts1 M) as V2.
  destruct (execute_traced H hs vf et debug (un ++ lock) true _ 0 ts1) as [[r2 pc2] ts2]. cbn [fst] in V2. rewrite <- V2.
  destruct r2 as [st2|e|]; cbn [rbind]; try reflexivity.
  destruct (1 <? len (dstack st2)); [|reflexivity].
  destruct (dstack st1) as [|x s] eqn:D.
  - reflexivity.
  - inversion I as [|? ? Mx _]; subst. rewrite pop_cons. cbn [rbind]. apply execute_traced_verdict. exact Mx.
Qed.
Print Assumptions C117_verdict.
(** The items a run leaves are always that small when the oracles are. *)
Theorem C117_verify_verdict : forall H hasher verifier, (forall x, bytes_ok (H x) /\ len (H x) <= 2 ^ 48) -> oracles_return hasher verifier ->
  forall et debug un lock pc ts, in_memory (un ++ lock) ->
  fst (fst (VerifyTraced H (Some hasher) (Some verifier) et debug un lock NewEngine pc ts)) = Verify H (Some hasher) (Some verifier) un lock NewEngine.
Proof.
  intros H hasher verifier HO Or et debug un lock pc ts M. apply C117_verdict; [exact M|]. intros st1 E.
  assert (Mu : in_memory un) by (destruct M as [O L]; apply bytes_ok_app in O; unfold len in L; rewrite app_length in L; split; [tauto|unfold len; lia]).
  destruct (execute_cases H hasher verifier HO Or un false NewEngine Mu ltac:(constructor)) as [(st' & E' & I)|[(m & E')|(E' & _)]]; [|congruence|congruence].
  assert (st' = st1) by congruence. subst st'. eapply Forall_impl; [|exact I]. intros x [Hx Lx]. split; [exact Hx|exact Lx].
Qed.
Print Assumptions C117_verify_verdict.
Theorem C117_execute_verdict : forall H hs vf et debug d final st pc ts, in_memory d ->
  fst (fst (execute_traced H hs vf et debug d final st pc ts)) = execute H hs vf d final st.
Proof. intros. now apply execute_traced_verdict. Qed.
Print Assumptions C117_execute_verdict.

(** Nothing is recorded without it, or while the unlocking script runs alone. *)
Theorem C117_quiet : forall H hs vf et d st pc ts,
  (forall final, snd (execute_traced H hs vf et false d final st pc ts) = ts) /\
  (forall debug, snd (execute_traced H hs vf et debug d false st pc ts) = ts).
Proof.
  intros. split; [intros final|intros debug]; apply execute_traced_quiet; [reflexivity|apply andb_false_r].
Qed.
Print Assumptions C117_quiet.

(** With it every instruction that returns leaves one row: its number, its name, the stack it leaves and the listing of
    the rest.  The counter ends one past the number of rows. *)
Theorem C117_rows : forall H hasher verifier, (forall x, bytes_ok (H x) /\ len (H x) <= 2 ^ 48) -> oracles_return hasher verifier ->
  forall et is d st pc ts, in_memory d -> script_of is d -> items_ok (dstack st) -> 0 <= pc < 2 ^ 63 ->
  exists r pc' rs, execute_traced H (Some hasher) (Some verifier) et true d true st pc ts = (r, pc', ts ++ rs) /\
    rows (step H (Some hasher) (Some verifier)) is st (pc + 1) rs /\ pc' = pc + len rs + 1.
Proof.
  intros H hasher verifier HO Or et is d st pc ts M S I P.
  destruct (execute_rows H hasher verifier HO Or et is d st pc ts M S I P) as (rs & R1 & R2 & R3).
  destruct (execute_traced _ _ _ _ _ _ _ _ _ _) as [[r pc'] ts']. cbn [fst snd] in *. subst. eauto 6.
Qed.
Print Assumptions C117_rows.

(** The rows of Verify: those of both scripts run together, then those of the redeem script. *)
Theorem C117_verify_rows : forall H hasher verifier, (forall x, bytes_ok (H x) /\ len (H x) <= 2 ^ 48) -> oracles_return hasher verifier ->
  forall et iu il un lock, in_memory (un ++ lock) -> script_of iu un -> script_of il lock ->
  let act := step H (Some hasher) (Some verifier) in
  let ts := snd (VerifyTraced H (Some hasher) (Some verifier) et true un lock NewEngine 0 []) in
  (ts = [] /\ forall st, execute H (Some hasher) (Some verifier) un false NewEngine <> Ok st) \/
  exists s1 c1 rs, execute H (Some hasher) (Some verifier) un false NewEngine = Ok (Vm s1 c1) /\ rows act (iu ++ il) (Vm [] c1) 1 rs /\
    (ts = rs \/
     exists redeem s st2, s1 = redeem :: s /\ execute H (Some hasher) (Some verifier) (un ++ lock) true (Vm [] c1) = Ok st2 /\ 1 < len (dstack st2) /\
       forall ir, script_of ir redeem -> exists rs', rows act ir (Vm s (cstack st2)) (len rs + 2) rs' /\ ts = rs ++ rs').
Proof.
  intros H hasher verifier HO Or et iu il un lock M Su Sl act ts.
  assert (Mu : in_memory un) by (destruct M as [O L]; apply bytes_ok_app in O; unfold len in L; rewrite app_length in L; split; [tauto|unfold len; lia]).
  assert (I0 : items_ok (dstack NewEngine)) by constructor.
  unfold ts. clear ts. unfold VerifyTraced.
  pose proof (execute_traced_verdict H (Some hasher) (Some verifier) et true un false NewEngine 0 [] Mu) as V1.
  pose proof (execute_traced_quiet H (Some hasher) (Some verifier) et true un false NewEngine 0 [] eq_refl) as Q1.
  destruct (execute_traced H _ _ et true un false NewEngine 0 []) as [[r1 pc1] ts1]. cbn [fst snd] in V1, Q1. subst ts1.
  destruct r1 as [[s1 c1]|e|]; [right|left; split; [reflexivity|intros st; congruence]|left; split; [reflexivity|intros st; congruence]].
  assert (I1 : items_ok s1).
  { destruct (execute_cases H hasher verifier HO Or un false NewEngine Mu I0) as [(st' & E & I)|[(m & E)|(E & _)]]; try congruence.
    assert (st' = Vm s1 c1) by congruence. subst st'. exact I. }
  cbn [dstack cstack].
  assert (S : script_of (iu ++ il) (un ++ lock)).
  { clear - Su Sl. induction Su as [|i e is d He _ IH]; [exact Sl|]. rewrite <- app_assoc. cbn [app]. now constructor. }
  destruct (execute_rows H hasher verifier HO Or et (iu ++ il) (un ++ lock) (Vm [] c1) 0 [] M S ltac:(constructor) ltac:(split; [discriminate|reflexivity])) as (rs & R1 & R2 & R3).
  pose proof (execute_traced_verdict H (Some hasher) (Some verifier) et true (un ++ lock) true (Vm [] c1) 0 [] M) as V2.
  destruct (execute_traced H _ _ et true (un ++ lock) true (Vm [] c1) 0 []) as [[r2 pc2] ts2]. cbn [fst snd app] in *. subst ts2 pc2.
  exists s1, c1, rs. split; [congruence|]. split; [exact R2|].
  destruct r2 as [st2|e|]; [|left; reflexivity|left; reflexivity].
  destruct (Z.ltb_spec 1 (len (dstack st2))) as [L2|L2]; [|left; reflexivity].
  destruct s1 as [|redeem s]; [left; reflexivity|]. rewrite pop_cons. right. exists redeem, s, st2. split; [reflexivity|]. split; [congruence|]. split; [exact L2|].
  intros ir Sr. inversion I1 as [|? ? [Ox Lx] Is]; subst.
  assert (Bound : 0 <= 0 + len rs + 1 < 2 ^ 63).
  { assert (B : len rs <= len (iu ++ il)).
    { clear - R2. unfold len. assert ((length rs <= length (iu ++ il))%nat); [|lia]. induction R2; cbn [length]; lia. }
    assert (B2 : len (iu ++ il) <= len (un ++ lock)).
    { clear - S. unfold len. assert ((length (iu ++ il) <= length (un ++ lock))%nat); [|lia]. induction S as [|i e is d He _ IH]; [cbn; lia|].
      rewrite app_length. pose proof (encodes_nonempty _ _ He). destruct e; [congruence|]. cbn [length]. lia. }
    destruct M as [_ ML]. unfold len in *. lia. }
  destruct (execute_rows H hasher verifier HO Or et ir redeem (Vm s (cstack st2)) (0 + len rs + 1) rs (conj Ox Lx) Sr Is Bound) as (rs' & Q & Q2 & _).
  exists rs'. split; [|exact Q]. replace (len rs + 2) with (0 + len rs + 1 + 1) by lia. exact Q2.
Qed.
Print Assumptions C117_verify_rows.

(** The text of a stack determines it, except that an empty stack and a stack with one empty item look alike. *)
Theorem C117_stack_text_partial : forall s s' t, s <> [] -> s' <> [] -> stack_text s t -> stack_text s' t -> s = s'.
Proof. exact stack_text_inj. Qed.
Print Assumptions C117_stack_text_partial.
Theorem C117_stack_text_refuted : exists s s' t, s <> s' /\ stack_text s t /\ stack_text s' t /\ StackString s = StackString s'.
Proof.
  exists [], [[]], (str_bytes " <empty> "). split; [discriminate|]. split; [constructor|]. split; [apply st_one; constructor|reflexivity].
Qed.
Print Assumptions C117_stack_text_refuted.

(** A row does not mean that the instruction was executed: those of a branch not taken have one as well (here OP_DROP,
    which would fail on the empty stack). *)
Theorem C117_executed_refuted : exists d r pc ts row, forall H hs vf et,
  execute_traced H hs vf et true d true NewEngine 0 [] = (r, pc, ts) /\ nth_error ts 2 = Some row /\ tr_op row = str_bytes "OP_DROP" /\
  (exists st, r = Ok st) /\ exists e, opfunc H hs vf (Instr 0x75 []) (Vm [] [1]) = Err e.
Proof.
  exists [0; 0x63; 0x75; 0x68; 0x51]. eexists; eexists; eexists; eexists. intros H hs vf et.
  split; [vm_compute; reflexivity|]. split; [vm_compute; reflexivity|]. split; [vm_compute; reflexivity|]. split; [eexists; reflexivity|].
  eexists. vm_compute. reflexivity.
Qed.
Print Assumptions C117_executed_refuted.

Example C117_example : forall H hs vf et,
  execute_traced H hs vf et true [2; 0xab; 0xcd; 0; 0x52; 0x53; 0x93] true NewEngine 0 [] =
  (Ok (Vm [[]; [0xab; 0xcd]] []), 6,
   [Trace 1 (str_bytes "OP_DATA_2") (str_bytes " <abcd> ") (str_bytes "OP_0 OP_2 OP_3 OP_ADD");
    Trace 2 (str_bytes "OP_0") (str_bytes " <abcd>  <empty> ") (str_bytes "OP_2 OP_3 OP_ADD");
    Trace 3 (str_bytes "OP_2") (str_bytes " <abcd>  <empty>  <02> ") (str_bytes "OP_3 OP_ADD");
    Trace 4 (str_bytes "OP_3") (str_bytes " <abcd>  <empty>  <02>  <03> ") (str_bytes "OP_ADD");
    Trace 5 (str_bytes "OP_ADD") (str_bytes " <abcd>  <empty>  <05> ") []]).
Proof. intros. vm_compute. reflexivity. Qed.
