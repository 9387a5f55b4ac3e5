(** Conditionals (C28), OP_RETURN (C29) and the states in which the engine panics (C22). *)
From Verif Require Import GoBase BaseLemmas BufferModel BufferSpec BufferProofs BufferMore ScriptNumModel ScriptNumSpec ScriptNumProofs
  ScriptModel ScriptSpec ScriptProofs VmModel VmSpec VmProofs VmMore VmSig.
From Coq Require Import ZifyBool ZifyNat.

Section Run.
Variable H : bytes -> bytes.
Variable hs : option (Z -> res bytes).
Variable vf : option (bytes -> bytes -> bytes -> res unit).
Notation step := (step H hs vf).
Notation opfunc := (opfunc H hs vf).
Notation execute := (execute H hs vf).
Notation run := (run H hs vf).

(** ** Plain instructions do not look at the control stack. *)
Definition plain_instr (i : instruction) : Prop := ~ In (iop i) [0x63; 0x64; 0x67; 0x68].
Lemma plain_not_cond i : plain_instr i -> isConditional i = false.
Proof. unfold plain_instr, isConditional. cbn [In]. lia. Qed.

Definition lifts (f : vm -> res vm) : Prop := forall s c, f (Vm s c) = let! st := f (Vm s []) in Ok (Vm (dstack st) c).
Lemma lifts_on_stack f : lifts (on_stack f).
Proof. intros s c. unfold on_stack. cbn [dstack cstack]. destruct (f s); reflexivity. Qed.
Lemma lifts_bind f g : lifts f -> lifts g -> (forall s st, f (Vm s []) = Ok st -> cstack st = []) -> lifts (fun st => let! st' := f st in g st').
Proof.
  intros F G Hf s c. rewrite (F s c). destruct (f (Vm s [])) as [[s1 c1]| |] eqn:E; cbn [rbind dstack]; [|reflexivity|reflexivity].
  apply Hf in E. cbn [cstack] in E. subst c1. rewrite (G s1 c). reflexivity.
Qed.
Lemma on_stack_cstack f s st : on_stack f (Vm s []) = Ok st -> cstack st = [].
Proof. unfold on_stack. cbn [dstack cstack]. destruct (f s); cbn [rbind]; try discriminate. intros E. injection E as <-. reflexivity. Qed.
Lemma opfunc_lifts i : plain_instr i -> lifts (opfunc i).
Proof.
  unfold plain_instr. intros P. unfold VmModel.opfunc.
  repeat match goal with |- lifts (if ?c then _ else _) => destruct c eqn:? end;
    try (apply lifts_on_stack); try (exfalso; cbn [In] in P; lia).
  - intros s c. reflexivity.
  - apply (lifts_bind opEqual _); [apply lifts_on_stack|apply lifts_on_stack|apply on_stack_cstack].
  - apply (lifts_bind (opCheckSig hs vf) _); [apply lifts_on_stack|apply lifts_on_stack|apply on_stack_cstack].
  - apply (lifts_bind (opCheckMultiSig hs vf) _); [apply lifts_on_stack|apply lifts_on_stack|apply on_stack_cstack].
  - intros s c. reflexivity.
Qed.

(** The action of a plain instruction on the data stack. *)
Definition act (i : instruction) (s : stack) : res stack := let! st := step i (Vm s []) in Ok (dstack st).
Definition pop (s : stack) : option (bytes * stack) := match s with [] => None | x :: s' => Some (x, s') end.

Lemma step_plain i s c : plain_instr i -> skipping c = false -> step i (Vm s c) = let! s' := act i s in Ok (Vm s' c).
Proof.
  intros P Sk. rewrite step_active by exact Sk. rewrite (opfunc_lifts i P s c). unfold act. rewrite step_active by reflexivity.
  destruct (opfunc i (Vm s [])); reflexivity.
Qed.
Lemma step_plain_skip i s c : plain_instr i -> skipping c = true -> step i (Vm s c) = Ok (Vm s c).
Proof. intros P Sk. unfold VmModel.step. rewrite skip_eq, Sk, (plain_not_cond i P). reflexivity. Qed.

Lemma step_if (neg : bool) s c : skipping c = false -> step (Instr (if neg then 0x64 else 0x63) []) (Vm s c) =
  match s with
  | [] => step (Instr 0x63 []) (Vm [] c)
  | [] :: s' => Ok (Vm s' ((if neg then 1 else 0) :: c))
  | [x] :: s' => if x =? 1 then Ok (Vm s' ((if neg then 0 else 1) :: c)) else Err "popIfBool.minimal.if"
  | _ :: s' => Err "popIfBool.minimal.if"
  end.
Proof.
  intros Sk. rewrite !step_active by exact Sk.
  assert (P : forall x s', popIfBool (x :: s') = match x with [] => Ok (false, s') | [y] => if y =? 1 then Ok (true, s') else Err "popIfBool.minimal.if" | _ => Err "popIfBool.minimal.if" end).
  { intros x s'. unfold popIfBool. rewrite pop_cons. cbn [rbind]. destruct x as [|y [|z x]].
    - reflexivity.
    - change (1 <? len [y]) with false. cbv iota. destruct (y =? 1) eqn:E; [|reflexivity]. replace y with 1 by lia. reflexivity.
    - replace (1 <? len (y :: z :: x)) with true by (rewrite !len_cons; pose proof (len_nonneg x); lia). reflexivity. }
  destruct neg.
  - change (opfunc (Instr 100 []) (Vm s c)) with (opNotIf (Vm s c)). change (opfunc (Instr 99 []) (Vm [] c)) with (opIf (Vm [] c)).
    unfold opNotIf, opIf. rewrite !skip_eq, Sk. cbn [dstack cstack]. destruct s as [|[|y [|z x]] s']; [reflexivity| | |]; rewrite P; cbn [rbind]; try reflexivity.
    destruct (y =? 1); reflexivity.
  - destruct s as [|x0 s']; [reflexivity|]. change (opfunc (Instr 99 []) (Vm (x0 :: s') c)) with (opIf (Vm (x0 :: s') c)).
    unfold opIf. rewrite !skip_eq, Sk. cbn [dstack cstack]. destruct x0 as [|y [|z x]]; rewrite P; cbn [rbind]; try reflexivity.
    destruct (y =? 1); reflexivity.
Qed.
Lemma step_if_empty c : skipping c = false -> exists e, step (Instr 0x63 []) (Vm [] c) = Err e.
Proof. intros Sk. rewrite step_active by exact Sk. eexists. change (opfunc (Instr 99 []) (Vm [] c)) with (opIf (Vm [] c)). unfold opIf. rewrite skip_eq, Sk. reflexivity. Qed.
Lemma step_if_skip (neg : bool) s c : skipping c = true -> step (Instr (if neg then 0x64 else 0x63) []) (Vm s c) = Ok (Vm s (2 :: c)).
Proof.
  intros Sk. unfold VmModel.step. rewrite skip_eq, Sk. destruct neg; cbn [isConditional iop andb negb].
  - change (opfunc (Instr 100 []) (Vm s c)) with (opNotIf (Vm s c)). unfold opNotIf. now rewrite skip_eq, Sk.
  - change (opfunc (Instr 99 []) (Vm s c)) with (opIf (Vm s c)). unfold opIf. now rewrite skip_eq, Sk.
Qed.
Lemma step_else s x c : step (Instr 0x67 []) (Vm s (x :: c)) = Ok (Vm s ((if x =? 1 then 0 else if x =? 0 then 1 else x) :: c)).
Proof. unfold VmModel.step. change (isConditional (Instr 103 [])) with true. rewrite andb_false_r. reflexivity. Qed.
Lemma step_endif s x c : step (Instr 0x68 []) (Vm s (x :: c)) = Ok (Vm s c).
Proof. unfold VmModel.step. change (isConditional (Instr 104 [])) with true. rewrite andb_false_r. reflexivity. Qed.

(** ** C28. *)
Fixpoint size (p : prog) : nat :=
  match p with PNil => O | POp _ r => S (size r) | PIf _ y no r => S (size y + match no with None => O | Some n => size n end + size r) end.

Lemma run_skipped n : forall p s c, (size p <= n)%nat -> plain_prog p -> skipping c = true -> run (flatten p) (Vm s c) = Ok (Vm s c).
Proof.
  induction n as [|n IH]; intros p s c L P Sk; (destruct p as [|i r|neg y no r]; [reflexivity| |]); cbn [size] in L; try lia.
  - destruct P as [Pi Pr]. cbn [flatten VmProofs.run]. rewrite step_plain_skip by assumption. cbn [rbind]. apply IH; [lia|exact Pr|exact Sk].
  - destruct P as (Py & Pn & Pr). cbn [flatten VmProofs.run]. rewrite step_if_skip by exact Sk. cbn [rbind].
    rewrite run_app, IH by (auto; try lia; reflexivity). cbn [rbind]. destruct no as [no|].
    + cbn [app VmProofs.run]. rewrite step_else. cbn [rbind]. rewrite run_app. change (if 2 =? 1 then 0 else if 2 =? 0 then 1 else 2) with 2.
      rewrite IH by (auto; try lia; reflexivity). cbn [rbind VmProofs.run]. rewrite step_endif. cbn [rbind]. apply IH; [lia|exact Pr|exact Sk].
    + cbn [app VmProofs.run]. rewrite step_endif. cbn [rbind]. apply IH; [lia|exact Pr|exact Sk].
Qed.

(** Agreement of a run with a structured result: same stack, or failure on both sides. *)
Definition agrees (r : res vm) (o : option stack) (c : list Z) : Prop :=
  match o with Some s => r = Ok (Vm s c) | None => forall st, r <> Ok st end.
Lemma agrees_bind r o c (k : vm -> res vm) (f : stack -> option stack) c' :
  agrees r o c -> (forall s, o = Some s -> agrees (k (Vm s c)) (f s) c') -> agrees (let! st := r in k st) (match o with Some s => f s | None => None end) c'.
Proof.
  destruct o as [s|]; cbn [agrees].
  - intros -> K. cbn [rbind]. now apply K.
  - intros N _ st E. apply rbind_ok in E. destruct E as (a & A & _). now apply (N a).
Qed.

Lemma structured_agrees n : forall p s c, (size p <= n)%nat -> plain_prog p -> skipping c = false ->
  agrees (run (flatten p) (Vm s c)) (structured act pop p s) c.
Proof.
  induction n as [|n IH]; intros p s c L P Sk; (destruct p as [|i r|neg y no r]; [reflexivity| |]); cbn [size] in L; try lia.
  - destruct P as [Pi Pr]. cbn [flatten VmProofs.run structured]. rewrite step_plain by assumption.
    destruct (act i s) as [s'|e|]; cbn [rbind agrees]; [|intros st; discriminate..]. apply IH; [lia|exact Pr|exact Sk].
  - destruct P as (Py & Pn & Pr). cbn [flatten VmProofs.run structured]. rewrite step_if by exact Sk.
    assert (T : forall s1, agrees (run (flatten y ++ (match no with None => [] | Some n => Instr 0x67 [] :: flatten n end) ++ Instr 0x68 [] :: flatten r) (Vm s1 (1 :: c)))
                 (match structured act pop y s1 with Some s2 => structured act pop r s2 | None => None end) c).
    { intros s1. rewrite run_app. eapply agrees_bind; [apply IH; [lia|exact Py|reflexivity]|]. intros s2 _. destruct no as [no|]; cbn [app VmProofs.run].
      - rewrite step_else. cbn [rbind]. rewrite run_app. change (if 1 =? 1 then 0 else if 1 =? 0 then 1 else 1) with 0.
        rewrite (run_skipped (size no)) by (auto; lia). cbn [rbind VmProofs.run]. rewrite step_endif. cbn [rbind]. apply IH; [lia|exact Pr|exact Sk].
      - rewrite step_endif. cbn [rbind]. apply IH; [lia|exact Pr|exact Sk]. }
    assert (F : forall s1, agrees (run (flatten y ++ (match no with None => [] | Some n => Instr 0x67 [] :: flatten n end) ++ Instr 0x68 [] :: flatten r) (Vm s1 (0 :: c)))
                 (match (match no with None => Some s1 | Some n => structured act pop n s1 end) with Some s2 => structured act pop r s2 | None => None end) c).
    { intros s1. rewrite run_app. rewrite (run_skipped (size y)) by (auto; lia). cbn [rbind]. destruct no as [no|]; cbn [app VmProofs.run].
      - rewrite step_else. cbn [rbind]. rewrite run_app. change (if 0 =? 1 then 0 else if 0 =? 0 then 1 else 0) with 1.
        eapply agrees_bind; [apply IH; [lia|exact Pn|reflexivity]|]. intros s2 _. cbn [VmProofs.run]. rewrite step_endif. cbn [rbind]. apply IH; [lia|exact Pr|exact Sk].
      - rewrite step_endif. cbn [rbind]. apply IH; [lia|exact Pr|exact Sk]. }
    destruct s as [|[|x [|x2 xs]] s']; cbn [pop].
    + destruct (step_if_empty c Sk) as (e & ->). cbn [rbind]. intros st; discriminate.
    + cbn [rbind]. destruct neg; [apply T|apply F].
    + destruct (x =? 1); cbn [rbind]; [|intros st; discriminate]. destruct neg; [apply F|apply T].
    + cbn [rbind]. intros st; discriminate.
Qed.

Lemma conditionals p d s c st' : plain_prog p -> script_of (flatten p) d -> in_memory d -> skipping c = false ->
  (execute d false (Vm s c) = Ok st' <-> exists s', structured act pop p s = Some s' /\ st' = Vm s' c).
Proof.
  intros P S M Sk. rewrite (exec_of H hs vf (flatten p) d false _ M S). 
  pose proof (structured_agrees (size p) p s c (le_n _) P Sk) as A.
  assert (E : (let! st := run (flatten p) (Vm s c) in finish false st) = run (flatten p) (Vm s c)) by (destruct (run (flatten p) (Vm s c)); reflexivity).
  rewrite E. destruct (structured act pop p s) as [s2|]; cbn [agrees] in A.
  - rewrite A. split; [intros X; injection X as <-; eauto|]. intros (s' & X & ->). congruence.
  - split; [intros X; now apply A in X|]. intros (s' & X & _). discriminate.
Qed.

(** ** C29: OP_RETURN does nothing. *)
Lemma return_noop st : step (Instr 0x6a []) st = Ok st.
Proof. unfold VmModel.step. destruct (branchShouldSkip st && negb (isConditional (Instr 106 []))); reflexivity. Qed.
Lemma return_erased is st : run (filter (fun i => negb (iop i =? 0x6a)) is) st = run is st.
Proof.
  revert st; induction is as [|i is IH]; intros st; [reflexivity|]. cbn [filter]. destruct (iop i =? 0x6a) eqn:E; cbn [negb VmProofs.run].
  - assert (step i st = Ok st) as ->; [|cbn [rbind]; apply IH]. unfold VmModel.step, VmModel.opfunc. destruct (branchShouldSkip st && negb (isConditional i)); [reflexivity|].
    assert (iop i = 106) as -> by lia. reflexivity.
  - destruct (step i st); cbn [rbind]; [apply IH|reflexivity|reflexivity].
Qed.
End Run.
