(** Spending P2PKH and P2SH outputs (C25-C27). *)
From Verif Require Import GoBase BaseLemmas BufferModel BufferSpec BufferProofs BufferMore ScriptNumModel ScriptNumSpec ScriptNumProofs
  ScriptModel ScriptSpec ScriptProofs VmModel VmSpec VmProofs VmMore VmSig VmCond LockSpec.
From Coq Require Import ZifyBool ZifyNat.

Definition p2pkh_instrs (h : bytes) : list instruction := [Instr 0x76 []; Instr 0xa9 []; Instr 0x14 h; Instr 0x88 []; Instr 0xac []].
Definition p2sh_instrs (h : bytes) : list instruction := [Instr 0xa9 []; Instr 0x14 h; Instr 0x87 []].
Lemma p2pkh_parses h : len h = 20 -> script_of (p2pkh_instrs h) (p2pkh_script h).
Proof.
  intros L. unfold p2pkh_instrs, p2pkh_script. cbn [app].
  apply (so_cons _ [0x76] _ (0xa9 :: 0x14 :: h ++ [0x88; 0xac])); [constructor; vm_compute; tauto|].
  apply (so_cons _ [0xa9] _ (0x14 :: h ++ [0x88; 0xac])); [constructor; vm_compute; tauto|].
  apply (so_cons _ (0x14 :: h) _ [0x88; 0xac]); [constructor; lia|].
  apply (so_cons _ [0x88] _ [0xac]); [constructor; vm_compute; tauto|].
  apply (so_cons _ [0xac] _ []); [constructor; vm_compute; tauto|]. constructor.
Qed.
Lemma p2sh_parses h : len h = 20 -> script_of (p2sh_instrs h) (p2sh_script h).
Proof.
  intros L. unfold p2sh_instrs, p2sh_script. cbn [app].
  apply (so_cons _ [0xa9] _ (0x14 :: h ++ [0x87])); [constructor; vm_compute; tauto|].
  apply (so_cons _ (0x14 :: h) _ [0x87]); [constructor; lia|].
  apply (so_cons _ [0x87] _ []); [constructor; vm_compute; tauto|]. constructor.
Qed.

Section Run.
Variable H : bytes -> bytes.
Variable hasher : Z -> res bytes.
Variable verifier : bytes -> bytes -> bytes -> res unit.
Notation step := (step H (Some hasher) (Some verifier)).
Notation execute := (execute H (Some hasher) (Some verifier)).
Notation run := (run H (Some hasher) (Some verifier)).
Notation Verify := (Verify H (Some hasher) (Some verifier)).
Notation valid := (valid_sig hasher verifier).

Lemma step_dup x s : step (Instr 0x76 []) (Vm (x :: s) []) = Ok (Vm (x :: x :: s) []).
Proof.
  rewrite step_active by reflexivity. known. unfold opDup, on_stack, DupN. change (1 <? 1) with false. cbv iota. change (Z.to_nat 1) with 1%nat. cbn [dstack dup_loop].
  unfold PeekByteArray. change (1 - 1) with 0. replace ((0 <? 0) || (len (x :: s) - 0 - 1 <? 0)) with false by (rewrite len_cons; pose proof (len_nonneg s); lia). reflexivity.
Qed.
Lemma step_dup_nil : exists e, step (Instr 0x76 []) (Vm [] []) = Err e.
Proof. eexists. reflexivity. Qed.
Lemma step_hash x s : step (Instr 0xa9 []) (Vm (x :: s) []) = Ok (Vm (H x :: s) []).
Proof. rewrite step_active by reflexivity. known. unfold opHash160, on_stack. cbn [dstack]. rewrite pop_cons. reflexivity. Qed.
Lemma step_hash_nil : exists e, step (Instr 0xa9 []) (Vm [] []) = Err e.
Proof. eexists. reflexivity. Qed.
Lemma step_equal x y s : step (Instr 0x87 []) (Vm (x :: y :: s) []) = Ok (Vm (BoolBytes (list_Z_eqb x y) :: s) []).
Proof. rewrite step_active by reflexivity. known. unfold opEqual, on_stack. cbn [dstack]. rewrite pop_cons. cbn [rbind]. rewrite pop_cons. reflexivity. Qed.
Lemma step_equalverify x y s : step (Instr 0x88 []) (Vm (x :: y :: s) []) = if list_Z_eqb x y then Ok (Vm s []) else Err "opEqualVerify".
Proof.
  rewrite step_active by reflexivity. known. unfold opEqualVerify, opEqual, on_stack. cbn [dstack]. rewrite pop_cons. cbn [rbind]. rewrite pop_cons. cbn [rbind].
  unfold equalVerify, on_stack, PopBool. cbn [dstack]. unfold PushBool, PushByteArray. rewrite pop_cons. destruct (list_Z_eqb x y); reflexivity.
Qed.
Lemma step_checksig k sg s : step (Instr 0xac []) (Vm (k :: sg :: s) []) =
  if len sg <? 1 then Ok (Vm ([] :: s) []) else let! b := verify_sig hasher verifier sg k in Ok (Vm (BoolBytes b :: s) []).
Proof.
  rewrite step_active by reflexivity. known. unfold opCheckSig, on_stack. cbn [dstack]. rewrite pop_cons. cbn [rbind]. rewrite pop_cons. cbn [rbind].
  destruct (len sg <? 1); [reflexivity|]. destruct (verify_sig hasher verifier sg k); reflexivity.
Qed.
Lemma step_checksig_one k : exists e, step (Instr 0xac []) (Vm [k] []) = Err e.
Proof. eexists. reflexivity. Qed.

Lemma finish_bool b s : finish true (Vm (BoolBytes b :: s) []) = if b then Ok (Vm s []) else Err "false.stack.entry.at.end.of.script.execution".
Proof.
  unfold finish. cbn [dstack]. replace (0 <? len (BoolBytes b :: s)) with true by (rewrite len_cons; pose proof (len_nonneg s); lia). cbn [andb].
  unfold PopBool. rewrite pop_cons. cbn [rbind]. destruct b; reflexivity.
Qed.

(** The locking half of P2PKH on any stack. *)
Lemma p2pkh_half h s st' : (let! st := run (p2pkh_instrs h) (Vm s []) in finish true st) = Ok st' <->
  exists key sig rest, s = key :: sig :: rest /\ H key = h /\ valid sig key /\ st' = Vm rest [].
Proof.
  unfold p2pkh_instrs. cbn [VmProofs.run]. destruct s as [|k s].
  { destruct step_dup_nil as (e & ->). split; [discriminate|]. intros (? & ? & ? & E & _). discriminate. }
  rewrite step_dup. cbn [rbind]. rewrite step_hash. cbn [rbind].
  rewrite (step_push H _ _ (Instr 0x14 h) h) by (try constructor; lia). cbn [rbind]. rewrite step_equalverify.
  destruct (eq_cases h (H k)) as [[E ->]|[N ->]]; cbn [rbind].
  2:{ split; [discriminate|]. intros (k' & sg & rest & E & E' & _). injection E as <- _. congruence. }
  destruct s as [|sg s].
  { destruct (step_checksig_one k) as (e & ->). split; [discriminate|]. intros (? & ? & ? & X & _). discriminate. }
  rewrite step_checksig. destruct (len sg <? 1) eqn:Ls; cbn [rbind].
  { change (@nil Z) with (BoolBytes false). rewrite finish_bool. split; [discriminate|]. intros (k' & sg' & rest & X & _ & V & _). injection X as <- <- <-.
    destruct V as (d & t & hh & -> & _). exfalso. rewrite len_app in Ls. change (len [t]) with 1 in Ls. pose proof (len_nonneg d). lia. }
  destruct (verify_sig hasher verifier sg k) as [[|]|e|] eqn:V; cbn [rbind].
  - rewrite finish_bool. apply verify_sig_true in V. split.
    + intros X. injection X as <-. exists k, sg, s. auto.
    + intros (k' & sg' & rest & X & _ & _ & ->). injection X as <- <- <-. reflexivity.
  - rewrite finish_bool. split; [discriminate|]. intros (k' & sg' & rest & X & _ & V' & _). injection X as <- <- <-. apply verify_sig_true in V'. congruence.
  - split; [discriminate|]. intros (k' & sg' & rest & X & _ & V' & _). injection X as <- <- <-. apply verify_sig_true in V'. congruence.
  - split; [discriminate|]. intros (k' & sg' & rest & X & _ & V' & _). injection X as <- <- <-. apply verify_sig_true in V'. congruence.
Qed.

Lemma p2sh_half h s st' : (let! st := run (p2sh_instrs h) (Vm s []) in finish true st) = Ok st' <->
  exists redeem rest, s = redeem :: rest /\ H redeem = h /\ st' = Vm rest [].
Proof.
  unfold p2sh_instrs. cbn [VmProofs.run]. destruct s as [|k s].
  { destruct step_hash_nil as (e & ->). split; [discriminate|]. intros (? & ? & E & _). discriminate. }
  rewrite step_hash. cbn [rbind]. rewrite (step_push H _ _ (Instr 0x14 h) h) by (try constructor; lia). cbn [rbind]. rewrite step_equal. cbn [rbind]. rewrite finish_bool.
  destruct (eq_cases h (H k)) as [[E ->]|[N ->]].
  - split; [intros X; injection X as <-; eauto|]. intros (r & rest & X & _ & ->). injection X as <- <-. reflexivity.
  - split; [discriminate|]. intros (r & rest & X & Y & _). injection X as <- <-. congruence.
Qed.

(** An unlocking script that runs and leaves no open conditional: the second run continues where the first ended. *)
Lemma verify_closed un lock is lis s : in_memory (un ++ lock) -> script_of lis lock ->
  execute un false NewEngine = Ok (Vm s []) -> script_of is un ->
  execute (un ++ lock) true (Vm [] []) = let! st := run lis (Vm s []) in finish true st.
Proof.
  intros M Sl E Su. rewrite (exec_of H _ _ (is ++ lis) (un ++ lock) true _ M) by now apply script_of_app.
  assert (Mu : in_memory un) by (destruct M as [O L]; apply bytes_ok_app in O; rewrite len_app in L; pose proof (len_nonneg lock); split; [tauto|lia]).
  rewrite (exec_of H _ _ is un false _ Mu Su) in E. apply rbind_ok in E. destruct E as (st & R & F). injection F as ->. rewrite run_app. change (Vm [] []) with NewEngine. rewrite R. reflexivity.
Qed.
Lemma in_memory_l a b : in_memory (a ++ b) -> in_memory a.
Proof. intros [O L]. apply bytes_ok_app in O. rewrite len_app in L. pose proof (len_nonneg b). split; [tauto|lia]. Qed.

(** C25 for unlocking scripts with balanced conditionals. *)
Lemma p2pkh_needs_signature un h s st' : in_memory (un ++ p2pkh_script h) -> len h = 20 -> execute un false NewEngine = Ok (Vm s []) ->
  Verify un (p2pkh_script h) NewEngine = Ok st' -> exists key sig rest, s = key :: sig :: rest /\ H key = h /\ valid sig key.
Proof.
  intros M L E V. destruct (exec_ok_parses H _ _ un false NewEngine _ (in_memory_l _ _ M) E) as (is & _ & Su & _ & _).
  unfold VmModel.Verify in V. rewrite E in V. cbn [rbind dstack cstack] in V.
  rewrite (verify_closed un (p2pkh_script h) is (p2pkh_instrs h) s M (p2pkh_parses h L) E Su) in V.
  apply rbind_ok in V. destruct V as (st2 & V & _). apply p2pkh_half in V. destruct V as (k & sg & rest & -> & A & B & _). eauto 6.
Qed.

(** C26. *)
Lemma p2pkh_iff un h i1 i2 sig key : in_memory (un ++ p2pkh_script h) -> len h = 20 -> script_of [i1; i2] un -> pushes i1 sig -> pushes i2 key ->
  ((exists st', Verify un (p2pkh_script h) NewEngine = Ok st') <-> H key = h /\ valid sig key).
Proof.
  intros M L Su P1 P2. assert (E : execute un false NewEngine = Ok (Vm [key; sig] [])).
  { rewrite (exec_of H _ _ [i1; i2] un false _ (in_memory_l _ _ M) Su). cbn [VmProofs.run]. unfold NewEngine. rewrite (step_push H _ _ i1 sig) by auto. cbn [rbind].
    rewrite (step_push H _ _ i2 key) by auto. reflexivity. }
  unfold VmModel.Verify. rewrite E. cbn [rbind dstack cstack]. rewrite (verify_closed un (p2pkh_script h) [i1; i2] (p2pkh_instrs h) _ M (p2pkh_parses h L) E Su).
  split.
  - intros (st' & V). apply rbind_ok in V. destruct V as (st2 & V & _). apply p2pkh_half in V. destruct V as (k & sg & rest & X & A & B & _). injection X as <- <- <-. auto.
  - intros [A B]. exists (Vm [] []). assert (V : (let! st := run (p2pkh_instrs h) (Vm [key; sig] []) in finish true st) = Ok (Vm [] [])).
    { apply p2pkh_half. exists key, sig, []. auto. }
    rewrite V. reflexivity.
Qed.

(** C27 for unlocking scripts with balanced conditionals: the exact condition. *)
Lemma p2sh_iff un h s st' : in_memory (un ++ p2sh_script h) -> len h = 20 -> execute un false NewEngine = Ok (Vm s []) ->
  (Verify un (p2sh_script h) NewEngine = Ok st' <->
   exists redeem rest, s = redeem :: rest /\ H redeem = h /\
     (len rest <= 1 /\ st' = Vm rest [] \/ 2 <= len rest /\ execute redeem true (Vm rest []) = Ok st')).
Proof.
  intros M L E. destruct (exec_ok_parses H _ _ un false NewEngine _ (in_memory_l _ _ M) E) as (is & _ & Su & _ & _).
  unfold VmModel.Verify. rewrite E. cbn [rbind dstack cstack]. rewrite (verify_closed un (p2sh_script h) is (p2sh_instrs h) s M (p2sh_parses h L) E Su).
  split.
  - intros V. apply rbind_ok in V. destruct V as (st2 & V & W). apply p2sh_half in V. destruct V as (r & rest & -> & A & ->). exists r, rest. split; [reflexivity|]. split; [exact A|].
    cbn [dstack cstack] in W. destruct (1 <? len rest) eqn:Lr; [right|left]; (split; [lia|]).
    + rewrite pop_cons in W. exact W.
    + now injection W as <-.
  - intros (r & rest & -> & A & D). assert (V : (let! st := run (p2sh_instrs h) (Vm (r :: rest) []) in finish true st) = Ok (Vm rest [])) by (apply p2sh_half; eauto).
    rewrite V. cbn [rbind dstack cstack]. destruct D as [[Lr ->]|[Lr X]].
    + replace (1 <? len rest) with false by lia. reflexivity.
    + replace (1 <? len rest) with true by lia. rewrite pop_cons. exact X.
Qed.
End Run.
