(** Proofs about the script engine. *)
From Verif Require Import GoBase BaseLemmas BufferModel BufferSpec BufferProofs BufferMore ScriptNumModel ScriptNumSpec ScriptNumProofs
  ScriptModel ScriptSpec ScriptProofs VmModel VmSpec.
From Coq Require Import ZifyBool ZifyNat.

Lemma rbind_assoc {A B C} (r : res A) (f : A -> res B) (g : B -> res C) :
  rbind (rbind r f) g = rbind r (fun a => rbind (f a) g).
Proof. now destruct r. Qed.
Lemma rbind_ok {A B} (r : res A) (f : A -> res B) b : rbind r f = Ok b -> exists a, r = Ok a /\ f a = Ok b.
Proof. destruct r; cbn; intros H; try discriminate. eauto. Qed.
Lemma rbind_panic {A B} (r : res A) (f : A -> res B) : rbind r f = Panic -> r = Panic \/ exists a, r = Ok a /\ f a = Panic.
Proof. destruct r; cbn; intros H; try discriminate; eauto. Qed.

Lemma pop_cons x s : PopByteArray (x :: s) = Ok (x, s).
Proof.
  unfold PopByteArray, nipN. rewrite len_cons. pose proof (len_nonneg s).
  replace ((0 <? 0) || (1 + len s - 0 - 1 <? 0)) with false by lia. reflexivity.
Qed.
Lemma pop_nil : exists e, PopByteArray [] = Err e.
Proof. eexists. reflexivity. Qed.
Lemma pop_cases s : (s = [] /\ exists e, PopByteArray s = Err e) \/ exists x s', s = x :: s' /\ PopByteArray s = Ok (x, s').
Proof. destruct s as [|x s]; [left; split; [reflexivity|apply pop_nil]|right; exists x, s; split; [reflexivity|apply pop_cons]]. Qed.
Lemma pop_not_panic s : PopByteArray s <> Panic.
Proof. destruct (pop_cases s) as [[_ (e & E)]|(x & s' & _ & E)]; congruence. Qed.

(** Numbers on the stack. *)
Lemma tight_of_minimal v : bytes_ok v -> num_minimal v -> tight v.
Proof.
  intros Hv Hm. destruct (snoc_cases v) as [->|(x & t & ->)]; [exact I|].
  apply bytes_ok_app in Hv. destruct Hv as [Hx Ht]. inversion Ht as [|? ? Ht' _]. unfold tight. rewrite rev_app_distr. cbn [rev app].
  rewrite land_127 by exact Ht'. pose proof Ht' as Hb. unfold is_byte in Hb.
  destruct (Z.eq_dec (if t <? 128 then t else t - 128) 0) as [E|]; [right|now left].
  assert (Et : t = 0 \/ t = 128) by (destruct (t <? 128) eqn:?; lia).
  destruct (snoc_cases x) as [->|(y & p & ->)].
  - exfalso. specialize (Hm [] bytes_ok_nil). rewrite num_value_snoc in Hm. cbn [app] in Hm. rewrite len_cons in Hm. change (len (@nil Z)) with 0 in Hm.
    assert (1 + 0 <= 0); [|lia]. apply Hm. cbn [num_value le_value]. destruct Et as [->| ->]; reflexivity.
  - rewrite rev_app_distr. cbn [rev app]. apply bytes_ok_app in Hx. destruct Hx as [Hy Hp]. inversion Hp as [|? ? Hp' _]. rewrite land_128 by exact Hp'.
    unfold is_byte in Hp'. destruct (p <? 128) eqn:Ep; [exfalso|lia].
    specialize (Hm (y ++ [p + t])). rewrite !num_value_snoc, le_value_snoc in Hm. rewrite !len_app in Hm. change (len [p]) with 1 in Hm. change (len [t]) with 1 in Hm. change (len [p + t]) with 1 in Hm.
    assert (len y + 1 + 1 <= len y + 1); [|lia]. apply Hm.
    + apply bytes_ok_app. split; [exact Hy|]. constructor; [unfold is_byte; lia|constructor].
    + destruct Et as [->| ->].
      * rewrite Z.add_0_r, Ep. change (0 <? 128) with true. cbv iota. lia.
      * replace (p + 128 <? 128) with false by lia. change (128 <? 128) with false. cbv iota. replace (p + 128 - 128) with p by lia. lia.
Qed.
Lemma minimal_of_tight v : bytes_ok v -> tight v -> num_minimal v.
Proof. intros Hv T w Hw E. now apply tight_shortest. Qed.

Lemma num_item_make v n : num_item v n -> MakeScriptNum v 4 = Ok n.
Proof. intros ((Hv & V & M) & L). rewrite make_num by (auto using tight_of_minimal; lia). now rewrite V. Qed.
Lemma make_num_item v n : bytes_ok v -> MakeScriptNum v 4 = Ok n -> num_item v n.
Proof.
  intros Hv E. destruct (num_accepted v 4 n Hv ltac:(lia) E) as [-> _].
  destruct (Z_le_gt_dec (len v) 4) as [L|L]; [|destruct (make_num_reject v 4) as (e & A); [now left|congruence]].
  destruct (check_tight v) as [[_ T]|[_ T]]; [|destruct (make_num_reject v 4) as (e & A); [now right|congruence]].
  repeat split; auto using minimal_of_tight.
Qed.
Lemma make_num_not_panic v : bytes_ok v -> MakeScriptNum v 4 <> Panic.
Proof.
  intros Hv. destruct (Z_le_gt_dec (len v) 4) as [L|L]; [|destruct (make_num_reject v 4) as (e & A); [now left|congruence]].
  destruct (check_tight v) as [[_ T]|[_ T]]; [rewrite make_num by (auto; lia); discriminate|destruct (make_num_reject v 4) as (e & A); [now right|congruence]].
Qed.
Lemma num_item_range v n : num_item v n -> - 2 ^ 31 < n < 2 ^ 31.
Proof.
  intros ((Hv & V & M) & L). destruct v as [|a v']; [cbn in V; lia|]. set (v := a :: v') in *. pose proof (mag_upper v Hv ltac:(discriminate)) as U.
  assert (256 ^ len v <= 256 ^ 4) by (apply Z.pow_le_mono_r; lia). change (256 ^ 4) with (2 ^ 32) in *. unfold mag in U. lia.
Qed.
Lemma num_bytes_enc n : - 2 ^ 63 < n < 2 ^ 63 -> exists v, num_bytes n = Ok v /\ enc_num v n.
Proof. intros H. destruct (num_bytes_spec n H) as (v & E & Hv & _ & T & V). exists v. split; [exact E|]. repeat split; auto using minimal_of_tight. Qed.
Lemma enc_num_unique v w n : enc_num v n -> enc_num w n -> v = w.
Proof. intros (Hv & Vv & Mv) (Hw & Vw & Mw). apply tight_inj; auto using tight_of_minimal. congruence. Qed.
Lemma Int32_id n : - 2 ^ 31 < n < 2 ^ 31 -> Int32 n = n.
Proof. intros H. unfold Int32. replace (2 ^ 31 - 1 <? n) with false by lia. replace (n <? - 2 ^ 31) with false by lia. apply i32_id. lia. Qed.
Lemma num_bytes_small n : 1 <= n <= 16 -> num_bytes n = Ok [n].
Proof.
  intros H. assert (E : match num_bytes n with Ok [x] => x =? n | _ => false end = true).
  { assert (In n [1;2;3;4;5;6;7;8;9;10;11;12;13;14;15;16]) as I by (cbn [In]; lia).
    cbn [In] in I. repeat (destruct I as [<-|I]; [reflexivity|]). contradiction. }
  destruct (num_bytes n) as [[|x [|? ?]]| |]; try discriminate. f_equal. f_equal. lia.
Qed.

Lemma pop_int_cases s : Forall bytes_ok s ->
  (exists x n s', s = x :: s' /\ num_item x n /\ PopInt s = Ok (n, s')) \/
  (exists e, PopInt s = Err e) /\ (forall x s', s = x :: s' -> forall n, ~ num_item x n).
Proof.
  intros F. unfold PopInt. destruct (pop_cases s) as [[-> (e & E)]|(x & s' & -> & E)]; rewrite E; cbn [rbind].
  - right. split; [eauto|]. discriminate.
  - inversion F as [|? ? Hx _]. subst. destruct (MakeScriptNum x 4) as [n|e|] eqn:M; cbn [rbind].
    + left. exists x, n, s'. split; [reflexivity|]. split; [now apply make_num_item|reflexivity].
    + right. split; [eauto|]. intros x0 s0 Eq. injection Eq as <- <-. intros n Hn. apply num_item_make in Hn. congruence.
    + exfalso. now apply (make_num_not_panic x Hx).
Qed.
Lemma pop_int_item x n s : num_item x n -> PopInt (x :: s) = Ok (n, s).
Proof. intros H. unfold PopInt. rewrite pop_cons. cbn [rbind]. now rewrite (num_item_make x n H). Qed.

(** ** Running parsed instructions. *)
Section Run.
Variable Hash160 : bytes -> bytes.
Variable sigHasher : option (Z -> res bytes).
Variable sigVerifier : option (bytes -> bytes -> bytes -> res unit).
Notation step := (step Hash160 sigHasher sigVerifier).
Notation opfunc := (opfunc Hash160 sigHasher sigVerifier).
Notation exec_loop := (exec_loop Hash160 sigHasher sigVerifier).
Notation execute := (execute Hash160 sigHasher sigVerifier).
Notation Verify := (Verify Hash160 sigHasher sigVerifier).

Fixpoint run (is : list instruction) (st : vm) : res vm :=
  match is with [] => Ok st | i :: r => let! st' := step i st in run r st' end.

Lemma run_app is js st : run (is ++ js) st = let! st' := run is st in run js st'.
Proof. revert st; induction is as [|i is IH]; intros st; [reflexivity|]. cbn [run app]. rewrite rbind_assoc. destruct (step i st); cbn; auto. Qed.

Lemma exec_loop_of is d : script_of is d -> bytes_ok d -> forall fuel pre st, fits pre d -> (length d < fuel)%nat ->
  exec_loop fuel (rbuf pre d) st = run is st.
Proof.
  induction 1 as [|i e is d He Hs IH]; intros O fuel pre st F L; (destruct fuel as [|fuel]; [lia|]); cbn [VmModel.exec_loop].
  - unfold NextInstruction. rewrite End_rbuf. reflexivity.
  - apply bytes_ok_app in O. destruct O as [Oe Od]. rewrite (next_app pre i e d He Oe F). cbn [run].
    destruct (step i st); cbn [rbind]; [|reflexivity|reflexivity]. apply IH; [exact Od|now apply fits_shift|].
    rewrite app_length in L. pose proof (encodes_nonempty _ _ He). destruct e; [congruence|]. cbn [length] in L. lia.
Qed.

(** On any input the loop runs the instructions up to the first that cannot be read. *)
Lemma exec_loop_any fuel : forall pre rest st, fits pre rest -> bytes_ok rest -> (length rest < fuel)%nat ->
  (exists is, script_of is rest /\ exec_loop fuel (rbuf pre rest) st = run is st) \/
  (exists is e t m, rest = e ++ t /\ script_of is e /\ exec_loop fuel (rbuf pre rest) st = let! _ := run is st in Err m).
Proof.
  induction fuel as [|fuel IH]; intros pre rest st F O L; [lia|]. cbn [VmModel.exec_loop].
  destruct (next_any pre rest F O) as [[-> R]|[(i & e & t & -> & He & R)|(m & b & R)]]; rewrite R.
  - left. exists []. split; [constructor|reflexivity].
  - apply bytes_ok_app in O. destruct O as [Oe Ot]. pose proof (encodes_nonempty _ _ He) as Ne.
    destruct (step i st) as [st'|x|] eqn:St; cbn [rbind].
    + destruct (IH (pre ++ e) t st') as [(is & S & E)|(is & e' & t' & m & -> & S & E)];
        [now apply fits_shift|exact Ot|rewrite app_length in L; destruct e; [congruence|]; cbn [length] in L; lia| |].
      * left. exists (i :: is). split; [now constructor|]. cbn [run]. now rewrite St.
      * right. exists (i :: is), (e ++ e'), t', m. split; [now rewrite app_assoc|]. split; [now constructor|]. cbn [run]. rewrite St. exact E.
    + right. exists [i], e, t, x. split; [reflexivity|]. split; [rewrite <- (app_nil_r e); constructor; [exact He|constructor]|]. cbn [run]. now rewrite St.
    + right. exists [i], e, t, EmptyString. split; [reflexivity|]. split; [rewrite <- (app_nil_r e); constructor; [exact He|constructor]|]. cbn [run]. now rewrite St.
  - right. exists [], [], rest, m. split; [reflexivity|]. split; [constructor|reflexivity].
Qed.

Lemma exec_of is d final st : in_memory d -> script_of is d -> execute d final st = let! st' := run is st in finish final st'.
Proof. intros [O L] S. unfold VmModel.execute. rewrite NewBufferReader_rbuf, (exec_loop_of is d S O); [reflexivity|exact L|lia]. Qed.
Lemma exec_any d final st : in_memory d ->
  (exists is, script_of is d /\ execute d final st = let! st' := run is st in finish final st') \/
  (exists is e t m, d = e ++ t /\ script_of is e /\ execute d final st = let! _ := run is st in Err m).
Proof.
  intros [O L]. unfold VmModel.execute. rewrite NewBufferReader_rbuf.
  destruct (exec_loop_any (S (length d)) [] d st) as [(is & S & E)|(is & e & t & m & -> & S & E)]; [exact L|exact O|lia| |]; rewrite E.
  - left. eauto.
  - right. exists is, e, t, m. split; [reflexivity|]. split; [exact S|]. now rewrite rbind_assoc.
Qed.
Lemma exec_ok_parses d final st st' : in_memory d -> execute d final st = Ok st' ->
  exists is st1, script_of is d /\ run is st = Ok st1 /\ finish final st1 = Ok st'.
Proof.
  intros M E. destruct (exec_any d final st M) as [(is & S & E')|(is & e & t & m & -> & S & E')]; rewrite E in E'; symmetry in E'; apply rbind_ok in E';
    destruct E' as (st1 & R & Fi); [eauto|discriminate].
Qed.

Lemma script_of_length is d : script_of is d -> (length is <= length d)%nat.
Proof. induction 1 as [|i e is d He Hs IH]; [cbn [length]; lia|]. rewrite app_length. pose proof (encodes_nonempty _ _ He). destruct e; [congruence|]. cbn [length]. lia. Qed.

Definition skipping (c : list Z) : bool := match c with [] => false | x :: _ => negb (x =? 1) end.
Lemma skip_eq s c : branchShouldSkip (Vm s c) = skipping c. Proof. reflexivity. Qed.
Lemma step_active i s c : skipping c = false -> step i (Vm s c) = opfunc i (Vm s c).
Proof. intros H. unfold VmModel.step. now rewrite skip_eq, H. Qed.

(** Pushing instructions. *)
Lemma step_push i d s c : pushes i d -> skipping c = false -> step i (Vm s c) = Ok (Vm (d :: s) c).
Proof.
  intros P H. rewrite step_active by exact H. destruct P as [|op d P|n P]; unfold VmModel.opfunc; cbn [iop idata].
  - reflexivity.
  - replace (op =? 0) with false by lia. replace ((1 <=? op) && (op <=? 78)) with true by lia. reflexivity.
  - replace (80 + n =? 0) with false by lia. replace ((1 <=? 80 + n) && (80 + n <=? 78)) with false by lia. replace ((81 <=? 80 + n) && (80 + n <=? 96)) with true by lia.
    unfold opN, on_stack, PushInt. replace (80 + n - 80) with n by lia. rewrite u8_id by lia. rewrite num_bytes_small by lia. reflexivity.
Qed.
End Run.

(** ** What the builder's output does. *)
Lemma AddData_spec d b : bytes_ok d -> len d < 2 ^ 32 -> d <> [0x81] ->
  exists i e, Script (AddData d b) = Script b ++ e /\ bytes_ok e /\ encodes i e /\ pushes i (if list_Z_eqb d [0] then [] else d).
Proof.
  intros O L N. unfold Script, Bytes, AddData. destruct d as [|d0 [|d1 d']].
  - exists (Instr 0 []), [0]. split; [reflexivity|]. split; [bytes_ok_tac|]. split; constructor. vm_compute. tauto.
  - apply bytes_ok_cons in O. destruct O as [O0 _]. unfold is_byte in O0. cbn [list_Z_eqb]. rewrite andb_true_r.
    destruct (d0 =? 0) eqn:E0. { exists (Instr 0 []), [0]. split; [reflexivity|]. split; [bytes_ok_tac|]. split; constructor. vm_compute. tauto. }
    destruct (d0 <=? 16) eqn:E1.
    { exists (Instr (80 + d0) []), [80 + d0]. split; [cbn [WriteU8 bdata]; now rewrite u8_id by lia|]. split; [constructor; [unfold is_byte; lia|constructor]|].
      split; [|now constructor; lia]. constructor. unfold plain_opcodes. cbn [In]. lia. }
    destruct (d0 =? 129) eqn:E2. { exfalso. apply N. f_equal. lia. }
    exists (Instr 1 [d0]), [1; d0]. split; [cbn [WriteU8 WriteBytes bdata]; now rewrite <- app_assoc|]. split; [repeat constructor; lia|].
    split; [|now constructor; lia]. apply (enc_direct 1 [d0]); [lia|reflexivity].
  - set (d := d0 :: d1 :: d') in *. assert (NE : list_Z_eqb d [0] = false) by (cbn; apply andb_false_r). rewrite NE.
    assert (Lp : 2 <= len d) by (unfold d; rewrite !len_cons; pose proof (len_nonneg d'); lia). cbv zeta.
    destruct (len d <? 76) eqn:E1.
    { exists (Instr (len d) d), (len d :: d). split; [cbn [WriteU8 WriteBytes bdata]; rewrite Z.add_0_l, u8_id by lia; now rewrite <- app_assoc|].
      split; [constructor; [unfold is_byte; lia|exact O]|]. split; constructor; auto; lia. }
    destruct (len d <=? 255) eqn:E2.
    { exists (Instr 0x4c d), (0x4c :: len d :: d). split; [cbn [WriteU8 WriteBytes bdata]; rewrite u8_id by lia; now rewrite <- !app_assoc|].
      split; [constructor; [unfold is_byte; lia|constructor; [unfold is_byte; lia|exact O]]|]. split; constructor; auto; lia. }
    destruct (len d <=? 65535) eqn:E3.
    { exists (Instr 0x4d d), (0x4d :: le_bytes 2 (len d) ++ d). rewrite u32_id by lia. rewrite WriteU16_spec. cbn [WriteU8 WriteBytes bdata].
      split; [now rewrite <- !app_assoc|]. split; [constructor; [unfold is_byte; lia|apply bytes_ok_app; split; [apply le_bytes_ok|exact O]]|].
      split; [|constructor; lia]. constructor; [apply le_bytes_length|apply le_bytes_ok|]. apply le_value_le_bytes. change (256 ^ Z.of_nat 2) with 65536. lia. }
    exists (Instr 0x4e d), (0x4e :: le_bytes 4 (len d) ++ d). rewrite u32_id by lia. rewrite WriteU32_spec. cbn [WriteU8 WriteBytes bdata].
    split; [now rewrite <- !app_assoc|]. split; [constructor; [unfold is_byte; lia|apply bytes_ok_app; split; [apply le_bytes_ok|exact O]]|].
    split; [|constructor; lia]. constructor; [apply le_bytes_length|apply le_bytes_ok|]. apply le_value_le_bytes. change (256 ^ Z.of_nat 4) with (2 ^ 32). lia.
Qed.
