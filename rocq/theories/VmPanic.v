(** C22: exactly which runs of the engine panic. *)
From Verif Require Import GoBase BaseLemmas BufferModel BufferSpec BufferProofs BufferMore ScriptNumModel ScriptNumSpec ScriptNumProofs
  ScriptModel ScriptSpec ScriptProofs VmModel VmSpec VmProofs VmMore VmSig VmCond.
From Coq Require Import ZifyBool ZifyNat.

Section Run.
Variable H : bytes -> bytes.
Variable hasher : Z -> res bytes.
Variable verifier : bytes -> bytes -> bytes -> res unit.
Hypothesis H_ok : forall x, bytes_ok (H x) /\ len (H x) <= 2 ^ 48.
Hypothesis Or : oracles_return hasher verifier.
Notation step := (step H (Some hasher) (Some verifier)).
Notation opfunc := (opfunc H (Some hasher) (Some verifier)).
Notation execute := (execute H (Some hasher) (Some verifier)).
Notation run := (run H (Some hasher) (Some verifier)).
Notation hazard := (hazard hasher verifier).

Definition item_ok (x : bytes) : Prop := bytes_ok x /\ len x <= 2 ^ 48.
Lemma num_item_len v n : enc_num v n -> - 2 ^ 63 < n < 2 ^ 63 -> item_ok v.
Proof.
  intros E R. destruct (num_bytes_spec n R) as (w & Ew & Hw & Lw & T & V). 
  assert (v = w) as -> by (eapply enc_num_unique; [exact E|repeat split; auto using minimal_of_tight]).
  split; [exact Hw|lia].
Qed.

Lemma effect_items op s s' : effect H op s s' -> items_ok s -> items_ok s'.
Proof.
  unfold items_ok. intros E I. destruct E; repeat match goal with X : Forall _ (_ :: _) |- _ => inversion X; clear X; subst end; repeat (apply Forall_cons); auto.
  - eapply num_item_len; eauto. pose proof (len_nonneg x). match goal with X : _ /\ len x <= _ |- _ => destruct X end. lia.
  - split; [repeat constructor; unfold is_byte; lia|vm_compute; discriminate].
  - split; [constructor|vm_compute; discriminate].
  - eapply num_item_len; eauto. repeat match goal with X : num_item _ _ |- _ => apply num_item_range in X end. lia.
  - split; [constructor|vm_compute; discriminate].
  - split; [constructor; [unfold is_byte; lia|constructor]|vm_compute; discriminate].
Qed.

Lemma encodes_kinds i e : encodes i e -> bytes_ok e -> len e <= 2 ^ 48 -> (exists d, pushes i d /\ item_ok d) \/ (In (iop i) data_opcodes /\ idata i = []) \/
  (In (iop i) [0x63; 0x64; 0x67; 0x68; 0x6a; 0xac; 0xad; 0xae; 0xaf] /\ idata i = []).
Proof.
  intros E O L. destruct E as [op P|op data P Ld|n data Ld Ln|l data Ll Hl V|l data Ll Hl V]; cbn [iop idata].
  - unfold plain_opcodes in P. right. assert (X : In op data_opcodes \/ In op [0x63; 0x64; 0x67; 0x68; 0x6a; 0xac; 0xad; 0xae; 0xaf]) by (unfold data_opcodes; cbn [In] in *; lia).
    destruct X; [left|right]; auto.
  - left. exists data. apply bytes_ok_cons in O. rewrite len_cons in L. split; [constructor; lia|]. split; [tauto|lia].
  - left. exists data. apply bytes_ok_cons in O. destruct O as [_ O]. apply bytes_ok_cons in O. rewrite !len_cons in L. split; [constructor; lia|]. split; [tauto|lia].
  - left. exists data. apply bytes_ok_cons in O. destruct O as [_ O]. apply bytes_ok_app in O. rewrite len_cons, len_app in L. pose proof (len_nonneg l). split; [constructor; lia|]. split; [tauto|lia].
  - left. exists data. apply bytes_ok_cons in O. destruct O as [_ O]. apply bytes_ok_app in O. rewrite len_cons, len_app in L. pose proof (len_nonneg l). split; [constructor; lia|]. split; [tauto|lia].
Qed.

Lemma pushes_op i d : pushes i d -> 0 <= iop i <= 0x60.
Proof. destruct 1; cbn [iop]; lia. Qed.
Lemma items_bytes s : items_ok s -> Forall bytes_ok s.
Proof. apply Forall_impl. intros x [A _]. exact A. Qed.

Lemma bool_item b : item_ok (BoolBytes b).
Proof. destruct b; split; try (vm_compute; discriminate); repeat constructor; unfold is_byte; lia. Qed.

Lemma equalVerify_cases m s c : (exists s', equalVerify m (Vm s c) = Ok (Vm s' c) /\ exists x, s = x :: s') \/ exists e, equalVerify m (Vm s c) = Err e.
Proof.
  unfold equalVerify, on_stack, PopBool. cbn [dstack cstack]. destruct (pop_cases s) as [[-> (e & E)]|(x & s' & -> & E)]; rewrite E; cbn [rbind]; [eauto|].
  destruct (asBool x); cbn [rbind]; [left|right]; eauto.
Qed.

Lemma checksig_cases s c : items_ok s -> (exists s', opCheckSig (Some hasher) (Some verifier) (Vm s c) = Ok (Vm s' c) /\ items_ok s') \/ exists e, opCheckSig (Some hasher) (Some verifier) (Vm s c) = Err e.
Proof.
  intros I. unfold opCheckSig, on_stack. cbn [dstack cstack]. destruct (pop_cases s) as [[-> (e & E)]|(k & s1 & -> & E)]; rewrite E; cbn [rbind]; [eauto|].
  destruct (pop_cases s1) as [[-> (e & E1)]|(sg & s2 & -> & E1)]; rewrite E1; cbn [rbind]; [eauto|].
  inversion I as [|? ? _ I1]; subst. inversion I1 as [|? ? _ I2]; subst.
  destruct (len sg <? 1) eqn:L; cbn [rbind].
  - left. eexists. split; [reflexivity|]. constructor; [apply bool_item|exact I2].
  - assert (N : sg <> []) by (intros ->; discriminate L). destruct (verify_sig_dec hasher verifier sg k Or N) as [[V _]|[V _]]; rewrite V; cbn [rbind]; left; eexists; (split; [reflexivity|]); (constructor; [apply bool_item|exact I2]).
Qed.

Lemma multisig_items s c st : items_ok s -> opCheckMultiSig (Some hasher) (Some verifier) (Vm s c) = Ok st -> exists s', st = Vm s' c /\ items_ok s'.
Proof.
  intros I E. unfold opCheckMultiSig, on_stack in E. cbn [dstack cstack] in E. apply rbind_ok in E. destruct E as (s' & E & X). injection X as <-. exists s'. split; [reflexivity|].
  assert (Pi : forall k s xs s2, items_ok s -> pop_items k s = Ok (xs, s2) -> items_ok s2).
  { intros k s0 xs s2 I0 P. destruct (pop_items_any k s0) as [(ys & s3 & -> & _ & P')|[_ (e & P')]]; [|congruence]. rewrite P in P'. injection P' as <- <-. apply Forall_app in I0. tauto. }
  assert (Pn : forall s n s2, items_ok s -> PopInt s = Ok (n, s2) -> items_ok s2).
  { intros s0 n s2 I0 P. destruct (pop_int_cases s0 (items_bytes _ I0)) as [(x & n' & s3 & -> & _ & P')|[(e & P') _]]; [|congruence]. rewrite P in P'. injection P' as <- <-. now inversion I0. }
  assert (Pb : forall s x s2, items_ok s -> PopByteArray s = Ok (x, s2) -> items_ok s2).
  { intros s0 x s2 I0 P. destruct (pop_cases s0) as [[-> (e & P')]|(y & s3 & -> & P')]; [congruence|]. rewrite P in P'. injection P' as <- <-. now inversion I0. }
  apply rbind_ok in E. destruct E as ((n & s1) & P1 & E). cbv iota beta zeta in E. destruct (Int32 n <? 0); [discriminate|].
  apply rbind_ok in E. destruct E as ((keys & s2) & P2 & E). cbv iota beta in E. apply rbind_ok in E. destruct E as ((m & s3) & P3 & E). cbv iota beta zeta in E.
  destruct (Int32 n <? Int32 m); [discriminate|]. destruct (Int32 m <? 0); [discriminate|].
  apply rbind_ok in E. destruct E as ((sigs & s4) & P4 & E). cbv iota beta in E. apply rbind_ok in E. destruct E as ((dm & s5) & P5 & E). cbv iota beta in E.
  apply rbind_ok in E. destruct E as (b & _ & E). injection E as <-. constructor; [apply bool_item|].
  exact (Pb _ _ _ (Pi _ _ _ _ (Pn _ _ _ (Pi _ _ _ _ (Pn _ _ _ I P1) P2) P3) P4) P5).
Qed.

(** Every step: a new well-formed state, an error, or the hazard. *)
Lemma step_cases i e s c : encodes i e -> bytes_ok e -> len e <= 2 ^ 48 -> items_ok s ->
  let bad := skipping c = false /\ (iop i = 0xae \/ iop i = 0xaf) /\ hazard s in
  (exists s' c', step i (Vm s c) = Ok (Vm s' c') /\ items_ok s' /\ ~ bad) \/ (exists m, step i (Vm s c) = Err m /\ ~ bad) \/ (step i (Vm s c) = Panic /\ bad).
Proof.
  intros E O L I bad. destruct (skipping c) eqn:Sk.
  { assert (Nb : ~ bad) by (unfold bad; intuition congruence). clearbody bad. unfold VmModel.step. rewrite skip_eq, Sk. destruct (isConditional i) eqn:C; cbn [andb negb].
    2:{ left. eauto 6. }
    unfold isConditional in C. unfold VmModel.opfunc. destruct (encodes_kinds i e E O L) as [(d & P & _)|[[K D]|[K D]]].
    { apply pushes_op in P. exfalso. lia. }
    { unfold data_opcodes in K. cbn [In] in K. exfalso; lia. }
    destruct i as [op dt]. cbn [iop idata] in *. cbn [In] in K. repeat (destruct K as [<-|K]; [try discriminate C|]); try contradiction.
    - left. exists s, (2 :: c). split; [|auto]. change (opIf (Vm s c) = Ok (Vm s (2 :: c))). unfold opIf. now rewrite skip_eq, Sk.
    - left. exists s, (2 :: c). split; [|auto]. change (opNotIf (Vm s c) = Ok (Vm s (2 :: c))). unfold opNotIf. now rewrite skip_eq, Sk.
    - destruct c as [|x c]; [discriminate|]. left. do 2 eexists. split; [reflexivity|auto].
    - destruct c as [|x c]; [discriminate|]. left. do 2 eexists. split; [reflexivity|auto]. }
  destruct (encodes_kinds i e E O L) as [(d & P & Id)|[[K D]|[K D]]].
  - left. exists (d :: s), c. rewrite (step_push H _ _ i d s c P Sk). split; [reflexivity|]. split; [constructor; assumption|].
    unfold bad. intros (_ & B & _). apply pushes_op in P. lia.
  - assert (Nb : ~ bad) by (unfold bad; intros (_ & B & _); unfold data_opcodes in K; cbn [In] in K; lia).
    destruct i as [op dt]. cbn [iop idata] in *. subst dt. destruct (data_opcode H (Some hasher) (Some verifier) op s c K I Sk) as [(s' & Ef & St)|[_ (m & St)]].
    + left. exists s', c. split; [exact St|]. split; [now apply (effect_items op s s')|exact Nb].
    + right. left. eauto.
  - destruct i as [op dt]. cbn [iop idata] in *. subst dt.
    assert (Nb : op <> 0xae /\ op <> 0xaf -> ~ bad) by (unfold bad; lia).
    rewrite step_active by exact Sk. cbn [In] in K. repeat (destruct K as [<-|K]; [|]); try contradiction.
    + pose proof (step_if H (Some hasher) (Some verifier) false s c Sk) as St. cbv iota in St. rewrite step_active in St by exact Sk. specialize (Nb ltac:(lia)). clearbody bad.
      destruct s as [|[|x [|y z]] s'].
      * destruct (step_if_empty H (Some hasher) (Some verifier) c Sk) as (m & E1). right. left. exists m. rewrite step_active in E1 by exact Sk. auto.
      * rewrite St. inversion I; subst. left. eauto 6.
      * rewrite St. inversion I; subst. destruct (x =? 1); [left|right; left]; eauto 6.
      * rewrite St. right. left. eauto.
    + pose proof (step_if H (Some hasher) (Some verifier) true s c Sk) as St. cbv iota in St. rewrite step_active in St by exact Sk. specialize (Nb ltac:(lia)). clearbody bad.
      destruct s as [|[|x [|y z]] s'].
      * destruct (step_if_empty H (Some hasher) (Some verifier) c Sk) as (m & E1). right. left. exists m. rewrite St. auto.
      * rewrite St. inversion I; subst. left. eauto 6.
      * rewrite St. inversion I; subst. destruct (x =? 1); [left|right; left]; eauto 6.
      * rewrite St. right. left. eauto.
    + specialize (Nb ltac:(lia)). clearbody bad. destruct c as [|x c]; [right; left; eexists; split; [reflexivity|exact Nb]|left; do 2 eexists; split; [reflexivity|auto]].
    + specialize (Nb ltac:(lia)). clearbody bad. destruct c as [|x c]; [right; left; eexists; split; [reflexivity|exact Nb]|left; do 2 eexists; split; [reflexivity|auto]].
    + specialize (Nb ltac:(lia)). clearbody bad. left; do 2 eexists; split; [reflexivity|auto].
    + specialize (Nb ltac:(lia)). clearbody bad. change (opfunc (Instr 172 []) (Vm s c)) with (opCheckSig (Some hasher) (Some verifier) (Vm s c)).
      destruct (checksig_cases s c I) as [(s' & -> & I')|(m & ->)]; [left|right; left]; eauto 6.
    + specialize (Nb ltac:(lia)). clearbody bad. change (opfunc (Instr 173 []) (Vm s c)) with (let! st := opCheckSig (Some hasher) (Some verifier) (Vm s c) in equalVerify "opCheckSigVerify" st).
      destruct (checksig_cases s c I) as [(s' & -> & I')|(m & ->)]; cbn [rbind]; [|right; left; eauto].
      destruct (equalVerify_cases "opCheckSigVerify" s' c) as [(s2 & -> & x & ->)|(m & ->)]; [left; inversion I'; subst|right; left]; eauto 6.
    + pose proof (multisig_panics_iff hasher verifier s c Or (items_bytes s I)) as MP.
      change (opfunc (Instr 174 []) (Vm s c)) with (opCheckMultiSig (Some hasher) (Some verifier) (Vm s c)).
      destruct (opCheckMultiSig (Some hasher) (Some verifier) (Vm s c)) as [st|m|] eqn:M.
      * destruct (multisig_items s c st I M) as (s' & -> & I'). left. exists s', c. split; [reflexivity|]. split; [exact I'|]. unfold bad. intros (_ & _ & B). apply MP in B. discriminate.
      * right. left. exists m. split; [reflexivity|]. unfold bad. intros (_ & _ & B). apply MP in B. discriminate.
      * right. right. split; [reflexivity|]. unfold bad. split; [reflexivity|]. split; [now left|]. now apply MP.
    + pose proof (multisig_panics_iff hasher verifier s c Or (items_bytes s I)) as MP.
      change (opfunc (Instr 175 []) (Vm s c)) with (let! st := opCheckMultiSig (Some hasher) (Some verifier) (Vm s c) in equalVerify "opCheckMultiSigVerify" st).
      destruct (opCheckMultiSig (Some hasher) (Some verifier) (Vm s c)) as [st|m|] eqn:M; cbn [rbind].
      * assert (Nb' : ~ bad) by (unfold bad; intros (_ & _ & B); apply MP in B; discriminate). clearbody bad.
        destruct (multisig_items s c st I M) as (s' & -> & I'). destruct (equalVerify_cases "opCheckMultiSigVerify" s' c) as [(s2 & -> & x & ->)|(m & ->)]; [left; inversion I'; subst|right; left]; eauto 6.
      * right. left. exists m. split; [reflexivity|]. unfold bad. intros (_ & _ & B). apply MP in B. discriminate.
      * right. right. split; [reflexivity|]. unfold bad. split; [reflexivity|]. split; [now right|]. now apply MP.
Qed.

(** ** Whole scripts. *)
Definition no_multisig (is : list instruction) : Prop := Forall (fun i => iop i <> 0xae /\ iop i <> 0xaf) is.

Lemma run_cases is d : script_of is d -> bytes_ok d -> len d <= 2 ^ 48 -> forall st, items_ok (dstack st) ->
  (exists st', run is st = Ok st' /\ items_ok (dstack st')) \/ (exists m, run is st = Err m) \/
  (run is st = Panic /\ exists is1 i is2 s c, is = is1 ++ i :: is2 /\ run is1 st = Ok (Vm s c) /\ skipping c = false /\ (iop i = 0xae \/ iop i = 0xaf) /\ hazard s).
Proof.
  induction 1 as [|i e is d He Hs IH]; intros O L st I; [left; exists st; split; [reflexivity|exact I]|]. apply bytes_ok_app in O. destruct O as [Oe Od]. rewrite len_app in L. pose proof (len_nonneg e). pose proof (len_nonneg d).
  destruct st as [s c]. cbn [VmProofs.run]. destruct (step_cases i e s c He Oe ltac:(lia) I) as [(s' & c' & St & I' & _)|[(m & St & _)|(St & B)]]; rewrite St; cbn [rbind].
  - destruct (IH Od ltac:(lia) (Vm s' c') I') as [R|[R|(R & is1 & j & is2 & s2 & c2 & -> & R1 & B)]]; [now left|right; now left|].
    right. right. split; [exact R|]. exists (i :: is1), j, is2, s2, c2. split; [reflexivity|]. split; [cbn [VmProofs.run]; rewrite St; exact R1|exact B].
  - right. left. eauto.
  - right. right. split; [reflexivity|]. exists [], i, is, s, c. repeat split; apply B.
Qed.

Lemma run_hazard_panics is d is1 i is2 st s c : script_of is d -> bytes_ok d -> len d <= 2 ^ 48 -> items_ok (dstack st) -> is = is1 ++ i :: is2 ->
  run is1 st = Ok (Vm s c) -> skipping c = false -> (iop i = 0xae \/ iop i = 0xaf) -> hazard s -> run is st = Panic.
Proof.
  intros S O L I -> R Sk Op Hz. rewrite run_app, R. cbn [rbind VmProofs.run].
  assert (X : exists d1 e d2, script_of is1 d1 /\ encodes i e /\ d = d1 ++ e ++ d2).
  { clear - S. revert d S. induction is1 as [|j is1 IH]; intros d S; inversion S as [|j' e' js d' He Hs]; subst.
    - exists [], e', d'. split; [constructor|]. auto.
    - destruct (IH d' Hs) as (d1 & e & d2 & S1 & E & ->). exists (e' ++ d1), e, d2. split; [now constructor|]. split; [exact E|]. now rewrite app_assoc. }
  destruct X as (d1 & e & d2 & S1 & E & ->). apply bytes_ok_app in O. destruct O as [O1 O]. apply bytes_ok_app in O. destruct O as [Oe O2].
  rewrite !len_app in L. pose proof (len_nonneg d1). pose proof (len_nonneg e). pose proof (len_nonneg d2).
  destruct (run_cases is1 d1 S1 O1 ltac:(lia) st I) as [(st' & R' & I')|[(m & R')|[R' _]]]; try congruence. rewrite R in R'. injection R' as <-. cbn [dstack] in I'.
  destruct (step_cases i e s c E Oe ltac:(lia) I') as [(s' & c' & _ & _ & N)|[(m & _ & N)|(St & _)]]; [exfalso; apply N; auto|exfalso; apply N; auto|]. now rewrite St.
Qed.

Lemma finish_no_panic f st : finish f st <> Panic.
Proof.
  unfold finish. destruct (f && (0 <? len (dstack st))) eqn:E; [|discriminate]. unfold PopBool. destruct (pop_cases (dstack st)) as [[_ (e & P)]|(x & s' & _ & P)]; rewrite P; cbn [rbind]; [discriminate|].
  destruct (asBool x); discriminate.
Qed.
Lemma finish_items f st st' : finish f st = Ok st' -> items_ok (dstack st) -> items_ok (dstack st').
Proof.
  unfold finish. destruct (f && (0 <? len (dstack st))); [|intros E; injection E as <-; auto]. unfold PopBool.
  destruct (pop_cases (dstack st)) as [[_ (e & P)]|(x & s' & Es & P)]; rewrite P; cbn [rbind]; [discriminate|]. rewrite Es.
  destruct (asBool x); [|discriminate]. intros E I. injection E as <-. now inversion I.
Qed.

(** The state in which the hazard is met while a prefix of [d] runs. *)
Definition meets_hazard (d : bytes) (st : vm) : Prop :=
  exists d1 e d2 is1 i s c, d = d1 ++ e ++ d2 /\ script_of is1 d1 /\ encodes i e /\ (iop i = 0xae \/ iop i = 0xaf) /\
    run is1 st = Ok (Vm s c) /\ skipping c = false /\ hazard s.

Lemma script_split is1 i is2 d : script_of (is1 ++ i :: is2) d -> exists d1 e d2, script_of is1 d1 /\ encodes i e /\ script_of is2 d2 /\ d = d1 ++ e ++ d2.
Proof.
  revert d; induction is1 as [|j is1 IH]; intros d S; inversion S as [|j' e' js d' He Hs]; subst.
  - exists [], e', d'. split; [constructor|]. auto.
  - destruct (IH d' Hs) as (d1 & e & d2 & S1 & E & S2 & ->). exists (e' ++ d1), e, d2. split; [now constructor|]. split; [exact E|]. split; [exact S2|]. now rewrite app_assoc.
Qed.

Lemma execute_cases d f st : in_memory d -> items_ok (dstack st) ->
  (exists st', execute d f st = Ok st' /\ items_ok (dstack st')) \/ (exists m, execute d f st = Err m) \/ (execute d f st = Panic /\ meets_hazard d st).
Proof.
  intros M I. assert (Pre : forall is e t, d = e ++ t -> script_of is e -> bytes_ok e /\ len e <= 2 ^ 48).
  { intros is e t -> _. destruct M as [O L]. apply bytes_ok_app in O. rewrite len_app in L. pose proof (len_nonneg t). split; [tauto|lia]. }
  destruct (exec_any H (Some hasher) (Some verifier) d f st M) as [(is & S & E)|(is & e & t & m & De & S & E)]; rewrite E.
  - destruct (Pre is d [] ltac:(now rewrite app_nil_r) S) as [O L].
    destruct (run_cases is d S O L st I) as [(st' & R & I')|[(m & R)|(R & is1 & i & is2 & s & c & -> & R1 & Sk & Op & Hz)]]; rewrite R; cbn [rbind]; [| right; left; eauto|].
    + destruct (finish f st') as [st2|m|] eqn:Fi; [left; exists st2; split; [reflexivity|now apply (finish_items f st')]|right; left; eauto|exfalso; now apply (finish_no_panic f st')].
    + right. right. split; [reflexivity|]. destruct (script_split is1 i is2 d S) as (d1 & e & d2 & S1 & En & _ & ->). exists d1, e, d2, is1, i, s, c. auto 10.
  - destruct (Pre is e t De S) as [O L].
    destruct (run_cases is e S O L st I) as [(st' & R & I')|[(m' & R)|(R & is1 & i & is2 & s & c & -> & R1 & Sk & Op & Hz)]]; rewrite R; cbn [rbind]; [right; left; eauto|right; left; eauto|].
    right. right. split; [reflexivity|]. destruct (script_split is1 i is2 e S) as (d1 & e1 & d2 & S1 & En & _ & ->). exists d1, e1, (d2 ++ t), is1, i, s, c. split; [now rewrite De, <- !app_assoc|]. auto 10.
Qed.

Lemma exec_loop_prefix is e : script_of is e -> forall t fuel pre st, bytes_ok (e ++ t) -> fits pre (e ++ t) -> (length (e ++ t) < fuel)%nat ->
  exists fuel', (length t < fuel')%nat /\
  exec_loop H (Some hasher) (Some verifier) fuel (rbuf pre (e ++ t)) st = let! st' := run is st in exec_loop H (Some hasher) (Some verifier) fuel' (rbuf (pre ++ e) t) st'.
Proof.
  induction 1 as [|i e is d He Hs IH]; intros t fuel pre st O F L.
  - cbn [app] in *. exists fuel. split; [lia|]. now rewrite app_nil_r.
  - rewrite <- app_assoc in O, F, L. destruct fuel as [|fuel]; [lia|]. assert (Oe := proj1 (proj1 (bytes_ok_app _ _) O)). assert (Od := proj2 (proj1 (bytes_ok_app _ _) O)).
    assert (L' : (length (d ++ t) < fuel)%nat) by (rewrite app_length in L; pose proof (encodes_nonempty _ _ He); destruct e; [congruence|]; cbn [length] in L; lia).
    destruct (step i st) as [st'|m|] eqn:St.
    + destruct (IH t fuel (pre ++ e) st' Od ltac:(now apply fits_shift) L') as (fuel' & Lf & E). exists fuel'. split; [exact Lf|].
      rewrite <- app_assoc. cbn [VmModel.exec_loop]. rewrite (next_app pre i e (d ++ t) He Oe F). cbn [VmProofs.run]. rewrite St. cbn [rbind]. rewrite E. now rewrite <- app_assoc.
    + exists (S (length t)). split; [lia|]. rewrite <- app_assoc. cbn [VmModel.exec_loop]. rewrite (next_app pre i e (d ++ t) He Oe F). cbn [VmProofs.run]. rewrite St. reflexivity.
    + exists (S (length t)). split; [lia|]. rewrite <- app_assoc. cbn [VmModel.exec_loop]. rewrite (next_app pre i e (d ++ t) He Oe F). cbn [VmProofs.run]. rewrite St. reflexivity.
Qed.

Lemma execute_panics_iff d f st : in_memory d -> items_ok (dstack st) -> (execute d f st = Panic <-> meets_hazard d st).
Proof.
  intros M I. split.
  - intros E. destruct (execute_cases d f st M I) as [(st' & E' & _)|[(m & E')|[_ Hz]]]; try congruence.
  - intros (d1 & e & d2 & is1 & i & s & c & -> & S1 & En & Op & R & Sk & Hz). destruct M as [O L].
    assert (S' : script_of (is1 ++ [i]) (d1 ++ e)) by (apply script_of_app; [exact S1|now apply encodes_script]).
    assert (P : run (is1 ++ [i]) st = Panic).
    { assert (Ox := O). apply bytes_ok_app in Ox. rewrite bytes_ok_app in Ox. rewrite !len_app in L. pose proof (len_nonneg d2).
      eapply run_hazard_panics; [exact S'|apply bytes_ok_app; tauto|rewrite len_app; lia|exact I|reflexivity|exact R|exact Sk|exact Op|exact Hz]. }
    unfold VmModel.execute. rewrite NewBufferReader_rbuf. rewrite app_assoc in *.
    destruct (exec_loop_prefix (is1 ++ [i]) (d1 ++ e) S' d2 (S (length ((d1 ++ e) ++ d2))) [] st O L ltac:(lia)) as (fuel' & _ & E). rewrite E, P. reflexivity.
Qed.

Notation Verify := (Verify H (Some hasher) (Some verifier)).
Lemma verify_no_panic un lock : in_memory (un ++ lock) -> Verify un lock NewEngine = Panic ->
  meets_hazard un NewEngine \/
  (exists s c, execute un false NewEngine = Ok (Vm s c) /\
    (meets_hazard (un ++ lock) (Vm [] c) \/
     exists redeem s' st2, s = redeem :: s' /\ execute (un ++ lock) true (Vm [] c) = Ok st2 /\ meets_hazard redeem (Vm s' (cstack st2)))).
Proof.
  intros M E. assert (Mu : in_memory un).
  { destruct M as [O L]. apply bytes_ok_app in O. rewrite len_app in L. pose proof (len_nonneg lock). split; [tauto|lia]. }
  assert (I0 : items_ok (dstack NewEngine)) by constructor. unfold VmModel.Verify in E.
  destruct (execute_cases un false NewEngine Mu I0) as [([s c] & E1 & I1)|[(m & E1)|[E1 Hz]]]; rewrite E1 in E; cbn [rbind dstack cstack] in E; [|discriminate|now left].
  right. exists s, c. split; [exact E1|]. assert (I0' : items_ok (dstack (Vm [] c))) by constructor.
  destruct (execute_cases (un ++ lock) true (Vm [] c) M I0') as [(st2 & E2 & I2)|[(m & E2)|[E2 Hz]]]; rewrite E2 in E; cbn [rbind] in E; [|discriminate|now left].
  destruct (1 <? len (dstack st2)); [|discriminate]. destruct (pop_cases s) as [[-> (e & P)]|(x & s' & -> & P)]; rewrite P in E; cbn [rbind] in E; [discriminate|].
  right. exists x, s', st2. split; [reflexivity|]. split; [exact E2|]. cbn [dstack] in I1. inversion I1 as [|? ? [Ox Lx] I1']; subst.
  apply (execute_panics_iff x true (Vm s' (cstack st2))) in E; [exact E|split; assumption|exact I1'].
Qed.
End Run.
