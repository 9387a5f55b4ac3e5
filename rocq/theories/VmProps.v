(** Property theorems C22-C29, C99, C100 (script engine). *)
From Verif Require Import GoBase BaseLemmas BufferModel BufferSpec ScriptNumModel ScriptNumSpec ScriptModel ScriptSpec ScriptProofs
  VmModel VmSpec VmProofs VmMore VmSig VmCond VmPanic VmLock VmTruth LockSpec Sha256 Sha256Proofs.

(** Oracles for the examples: a signature is the key followed by the hash type. *)
Definition ex_hash (b : bytes) : bytes := firstn 20 (sha256 b).
Definition ex_hasher (t : Z) : res bytes := Ok [t].
Definition ex_verifier (h sig key : bytes) : res unit := if list_Z_eqb sig key then Ok tt else Err "bad signature".
Example ex_oracles : oracles_return ex_hasher ex_verifier.
Proof. split; [intros t; exists [t]; reflexivity|]. intros h s k. unfold ex_verifier. destruct (list_Z_eqb s k); discriminate. Qed.

(** C22 is false: CHECKMULTISIG with key count -1. *)
Theorem C22_never_panics_refuted : exists un lock, forall H hs vf, Verify H hs vf un lock NewEngine = Panic.
Proof. exists [1; 0x81; 0xae], []. intros H hs vf. vm_compute. reflexivity. Qed.
Print Assumptions C22_never_panics_refuted.
(** C22: a run panics exactly when an executed CHECKMULTISIG meets a negative count or an empty signature it has to look at. *)
Theorem C22_panics_iff_partial : forall H hasher verifier, (forall x, bytes_ok (H x) /\ len (H x) <= 2 ^ 48) -> oracles_return hasher verifier ->
  forall d final st, in_memory d -> items_ok (dstack st) ->
  (execute H (Some hasher) (Some verifier) d final st = Panic <-> meets_hazard H hasher verifier d st).
Proof. intros H hasher verifier HO Or. exact (execute_panics_iff H hasher verifier HO Or). Qed.
Print Assumptions C22_panics_iff_partial.
Theorem C22_verify_panics_partial : forall H hasher verifier, (forall x, bytes_ok (H x) /\ len (H x) <= 2 ^ 48) -> oracles_return hasher verifier ->
  forall un lock, in_memory (un ++ lock) -> Verify H (Some hasher) (Some verifier) un lock NewEngine = Panic ->
  meets_hazard H hasher verifier un NewEngine \/
  (exists s c, execute H (Some hasher) (Some verifier) un false NewEngine = Ok (Vm s c) /\
    (meets_hazard H hasher verifier (un ++ lock) (Vm [] c) \/
     exists redeem s' st2, s = redeem :: s' /\ execute H (Some hasher) (Some verifier) (un ++ lock) true (Vm [] c) = Ok st2 /\
       meets_hazard H hasher verifier redeem (Vm s' (cstack st2)))).
Proof. intros H hasher verifier HO Or. exact (verify_no_panic H hasher verifier HO Or). Qed.
Print Assumptions C22_verify_panics_partial.
(** C22: one run is the run of the instructions of a prefix, no more than one step per byte. *)
Theorem C22_steps_bounded_partial : forall H hs vf d final st, in_memory d -> exists is e t, d = e ++ t /\ script_of is e /\
  (length is <= length d)%nat /\
  (t = [] /\ execute H hs vf d final st = (let! st' := run H hs vf is st in finish final st') \/
   exists m, execute H hs vf d final st = let! _ := run H hs vf is st in Err m).
Proof.
  intros H hs vf d final st M. destruct (exec_any H hs vf d final st M) as [(is & S & E)|(is & e & t & m & D & S & E)].
  - exists is, d, []. split; [now rewrite app_nil_r|]. split; [exact S|]. split; [eapply script_of_length; eassumption|]. left. auto.
  - exists is, e, t. split; [exact D|]. split; [exact S|]. split; [|right; eauto].
    assert (length is <= length e)%nat by (eapply script_of_length; eassumption). rewrite D, app_length. lia.
Qed.
Print Assumptions C22_steps_bounded_partial.
(** The hazard: dummy, an empty signature, count 1, one key, count 1. *)
Example C22_example :
  meets_hazard ex_hash ex_hasher ex_verifier (hx "ae") (Vm [[1]; [7]; [1]; []; []] []) /\
  (exists e, Verify ex_hash (Some ex_hasher) (Some ex_verifier) (hx "00ae") [] NewEngine = Err e).
Proof.
  split; [|eexists; vm_compute; reflexivity].
  apply (execute_panics_iff ex_hash ex_hasher ex_verifier) with (f := false).
  - intros x. unfold ex_hash. assert (E : bytes_ok (sha256 x)) by apply sha256_ok. split; [now apply bytes_ok_firstn|].
    pose proof (sha256_len x). unfold len in *. rewrite firstn_length. lia.
  - exact ex_oracles.
  - split; [bytes_ok_tac|vm_compute; discriminate].
  - cbn [dstack]. repeat (apply Forall_cons; [split; [bytes_ok_tac|vm_compute; discriminate]|]). apply Forall_nil.
  - vm_compute. reflexivity.
Qed.

(** C23: each data opcode has its documented effect, or an error when the stack does not allow it. *)
Theorem C23_data_opcodes : forall H hs vf op s c, In op data_opcodes -> items_ok s -> skipping c = false ->
  (exists s', effect H op s s' /\ step H hs vf (Instr op []) (Vm s c) = Ok (Vm s' c)) \/
  ((forall s', ~ effect H op s s') /\ exists e, step H hs vf (Instr op []) (Vm s c) = Err e).
Proof. exact data_opcode. Qed.
Print Assumptions C23_data_opcodes.
(** C23: the documented effect is a function of the stack. *)
Theorem C23_effect_deterministic : forall H op s a b, effect H op s a -> effect H op s b -> a = b.
Proof. exact effect_fun. Qed.
Print Assumptions C23_effect_deterministic.
Example C23_example :
  step ex_hash None None (Instr 0x93 []) (Vm [[0xff; 0x80]; [5]; [9]] []) = Ok (Vm [[0xfa; 0x80]; [9]] []) /\
  step ex_hash None None (Instr 0x7c []) (Vm [[1]; [2]; [3]] []) = Ok (Vm [[2]; [1]; [3]] []) /\
  (exists e, step ex_hash None None (Instr 0x6f []) (Vm [[1]; [2]] []) = Err e).
Proof. split; [vm_compute; reflexivity|]. split; [vm_compute; reflexivity|]. eexists. vm_compute. reflexivity. Qed.

(** C24. *)
Theorem C24_checkmultisig_iff_matched : forall H hasher verifier keys sigs nb mb dummy rest c, oracles_return hasher verifier -> skipping c = false ->
  num_item nb (len keys) -> num_item mb (len sigs) -> len sigs <= len keys -> Forall (fun s => s <> []) sigs ->
  exists b, step H (Some hasher) (Some verifier) (Instr 0xae []) (Vm (nb :: rev keys ++ mb :: rev sigs ++ dummy :: rest) c) = Ok (Vm (b :: rest) c) /\
    (b = [1] /\ matched (valid_sig hasher verifier) sigs keys \/ b = [] /\ ~ matched (valid_sig hasher verifier) sigs keys).
Proof. intros H hasher verifier keys sigs nb mb dummy rest c. exact (checkmultisig hasher verifier H keys sigs nb mb dummy rest c). Qed.
Print Assumptions C24_checkmultisig_iff_matched.
(** C24: more signatures than keys are never accepted. *)
Theorem C24_more_signatures_than_keys : forall H hasher verifier keys nb mb m rest c, skipping c = false -> num_item nb (len keys) -> num_item mb m -> len keys < m ->
  exists e, step H (Some hasher) (Some verifier) (Instr 0xae []) (Vm (nb :: rev keys ++ mb :: rest) c) = Err e.
Proof. intros H hasher verifier. exact (checkmultisig_more hasher verifier H). Qed.
Print Assumptions C24_more_signatures_than_keys.
(** Two of three in order, and the same two out of order. *)
Example C24_example :
  num_item [3] 3 /\ num_item [2] 2 /\
  step ex_hash (Some ex_hasher) (Some ex_verifier) (Instr 0xae []) (Vm [[3]; [30]; [20]; [10]; [2]; [30; 1]; [10; 1]; []; [9]] []) = Ok (Vm [[1]; [9]] []) /\
  step ex_hash (Some ex_hasher) (Some ex_verifier) (Instr 0xae []) (Vm [[3]; [30]; [20]; [10]; [2]; [10; 1]; [30; 1]; []; [9]] []) = Ok (Vm [[]; [9]] []) /\
  exists e, step ex_hash (Some ex_hasher) (Some ex_verifier) (Instr 0xae []) (Vm [[1]; [10]; [2]; [10; 1]; [10; 1]; []; [9]] []) = Err e.
Proof.
  split; [apply make_num_item; [bytes_ok_tac|reflexivity]|]. split; [apply make_num_item; [bytes_ok_tac|reflexivity]|].
  split; [vm_compute; reflexivity|]. split; [vm_compute; reflexivity|]. eexists. vm_compute. reflexivity.
Qed.

(** C25 is false: the unlocking script OP_0 OP_IF leaves a conditional open, and everything after it is skipped. *)
Theorem C25_needs_signature_refuted : exists un, forall H hasher h, bytes_ok h -> len h = 20 -> exists st,
  Verify H (Some hasher) (Some (fun _ _ _ => Err "never valid")) un (p2pkh_script h) NewEngine = Ok st.
Proof.
  exists [0; 0x63]. intros H hasher h O L. exists (Vm [] [2; 0]). unfold Verify.
  assert (E1 : forall hs vf, execute H hs vf [0; 99] false NewEngine = Ok (Vm [] [0])) by (intros; vm_compute; reflexivity). rewrite E1. cbn [rbind dstack cstack].
  assert (M : in_memory ([0; 99] ++ p2pkh_script h)).
  { split; [unfold p2pkh_script; rewrite !bytes_ok_app; repeat split; auto; bytes_ok_tac|unfold p2pkh_script; rewrite !len_app, L; vm_compute; discriminate]. }
  rewrite (exec_of H _ _ ([Instr 0 []; Instr 0x63 []] ++ p2pkh_instrs h) ([0; 99] ++ p2pkh_script h) true _ M).
  2:{ apply script_of_app; [|now apply p2pkh_parses]. apply (so_cons _ [0] _ [99]); [constructor; vm_compute; tauto|]. apply (so_cons _ [99] _ []); [constructor; vm_compute; tauto|]. constructor. }
  vm_compute. reflexivity.
Qed.
Print Assumptions C25_needs_signature_refuted.
(** C25 for unlocking scripts that leave no conditional open. *)
Theorem C25_needs_signature_partial : forall H hasher verifier un h s st', in_memory (un ++ p2pkh_script h) -> len h = 20 ->
  execute H (Some hasher) (Some verifier) un false NewEngine = Ok (Vm s []) ->
  Verify H (Some hasher) (Some verifier) un (p2pkh_script h) NewEngine = Ok st' ->
  exists key sig rest, s = key :: sig :: rest /\ H key = h /\ valid_sig hasher verifier sig key.
Proof. exact p2pkh_needs_signature. Qed.
Print Assumptions C25_needs_signature_partial.
(** OP_1 OP_IF <2a01> <2a> OP_ELSE <09> OP_ENDIF: signature 2a01 for key 2a. *)
Example C25_example : let un := [0x51; 0x63; 2; 0x2a; 1; 1; 0x2a; 0x67; 1; 9; 0x68] in
  execute ex_hash (Some ex_hasher) (Some ex_verifier) un false NewEngine = Ok (Vm [[0x2a]; [0x2a; 1]] []) /\
  Verify ex_hash (Some ex_hasher) (Some ex_verifier) un (p2pkh_script (ex_hash [0x2a])) NewEngine = Ok (Vm [] []).
Proof. vm_compute. split; reflexivity. Qed.

(** C26. *)
Theorem C26_p2pkh_iff : forall H hasher verifier un h i1 i2 sig key, in_memory (un ++ p2pkh_script h) -> len h = 20 ->
  script_of [i1; i2] un -> pushes i1 sig -> pushes i2 key ->
  ((exists st', Verify H (Some hasher) (Some verifier) un (p2pkh_script h) NewEngine = Ok st') <-> H key = h /\ valid_sig hasher verifier sig key).
Proof. exact p2pkh_iff. Qed.
Print Assumptions C26_p2pkh_iff.
Example C26_example :
  AllInstructions [2; 0x2a; 1; 1; 0x2a] = Ok [Instr 2 [0x2a; 1]; Instr 1 [0x2a]] /\
  (exists e, Verify ex_hash (Some ex_hasher) (Some ex_verifier) [2; 0x2a; 1; 1; 0x2b] (p2pkh_script (ex_hash [0x2b])) NewEngine = Err e) /\
  Verify ex_hash (Some ex_hasher) (Some ex_verifier) [2; 0x2a; 1; 1; 0x2a] (p2pkh_script (ex_hash [0x2a])) NewEngine = Ok (Vm [] []).
Proof. split; [vm_compute; reflexivity|]. split; [eexists|]; vm_compute; reflexivity. Qed.

(** C27 is false: with at most one further item the redeem script is not run at all. *)
Theorem C27_runs_redeem_refuted : exists un redeem, forall H hasher verifier, bytes_ok (H redeem) -> len (H redeem) = 20 ->
  execute H (Some hasher) (Some verifier) un false NewEngine = Ok (Vm [redeem] []) /\
  (exists st, Verify H (Some hasher) (Some verifier) un (p2sh_script (H redeem)) NewEngine = Ok st) /\
  (exists e, execute H (Some hasher) (Some verifier) redeem true (Vm [] []) = Err e).
Proof.
  exists [1; 0], [0]. intros H hasher verifier O L.
  assert (E : execute H (Some hasher) (Some verifier) [1; 0] false NewEngine = Ok (Vm [[0]] [])) by (vm_compute; reflexivity).
  assert (M : in_memory ([1; 0] ++ p2sh_script (H [0]))).
  { split; [unfold p2sh_script; rewrite !bytes_ok_app; repeat split; auto; bytes_ok_tac|unfold p2sh_script; rewrite !len_app, L; vm_compute; discriminate]. }
  split; [exact E|]. split; [|eexists; vm_compute; reflexivity].
  exists (Vm [] []). apply (p2sh_iff H hasher verifier [1; 0] (H [0]) [[0]] _ M L E). exists [0], []. split; [reflexivity|]. split; [reflexivity|]. left.
  split; [vm_compute; discriminate|reflexivity].
Qed.
Print Assumptions C27_runs_redeem_refuted.
(** C27: the exact condition for unlocking scripts that leave no conditional open. *)
Theorem C27_p2sh_iff_partial : forall H hasher verifier un h s st', in_memory (un ++ p2sh_script h) -> len h = 20 ->
  execute H (Some hasher) (Some verifier) un false NewEngine = Ok (Vm s []) ->
  (Verify H (Some hasher) (Some verifier) un (p2sh_script h) NewEngine = Ok st' <->
   exists redeem rest, s = redeem :: rest /\ H redeem = h /\
     (len rest <= 1 /\ st' = Vm rest [] \/ 2 <= len rest /\ execute H (Some hasher) (Some verifier) redeem true (Vm rest []) = Ok st')).
Proof. exact p2sh_iff. Qed.
Print Assumptions C27_p2sh_iff_partial.
(** Redeem script OP_ADD <05> OP_EQUAL on 2 and 3, and on 2 and 2. *)
Example C27_example :
  Verify ex_hash (Some ex_hasher) (Some ex_verifier) [0x52; 0x53; 3; 0x93; 0x55; 0x87] (p2sh_script (ex_hash [0x93; 0x55; 0x87])) NewEngine = Ok (Vm [] []) /\
  (exists e, Verify ex_hash (Some ex_hasher) (Some ex_verifier) [0x52; 0x52; 3; 0x93; 0x55; 0x87] (p2sh_script (ex_hash [0x93; 0x55; 0x87])) NewEngine = Err e).
Proof. split; [|eexists]; vm_compute; reflexivity. Qed.

(** C28. *)
Theorem C28_conditionals : forall H hs vf p d s c st', plain_prog p -> script_of (flatten p) d -> in_memory d -> skipping c = false ->
  (execute H hs vf d false (Vm s c) = Ok st' <-> exists s', structured (act H hs vf) pop p s = Some s' /\ st' = Vm s' c).
Proof. exact conditionals. Qed.
Print Assumptions C28_conditionals.
(** IF (NOTIF 2 ELSE 3 ENDIF) ELSE OP_DROP ENDIF 4. *)
Definition ex_prog : prog :=
  PIf false (PIf true (POp (Instr 0x52 []) PNil) (Some (POp (Instr 0x53 []) PNil)) PNil) (Some (POp (Instr 0x75 []) PNil)) (POp (Instr 0x54 []) PNil).
Example C28_example :
  plain_prog ex_prog /\ AllInstructions [0x63; 0x64; 0x52; 0x67; 0x53; 0x68; 0x67; 0x75; 0x68; 0x54] = Ok (flatten ex_prog) /\
  execute ex_hash None None [0x63; 0x64; 0x52; 0x67; 0x53; 0x68; 0x67; 0x75; 0x68; 0x54] false (Vm [[1]; []; [9]] []) = Ok (Vm [[4]; [2]; [9]] []) /\
  execute ex_hash None None [0x63; 0x64; 0x52; 0x67; 0x53; 0x68; 0x67; 0x75; 0x68; 0x54] false (Vm [[]; [7]; [9]] []) = Ok (Vm [[4]; [9]] []).
Proof. split; [cbn; repeat split; lia|]. vm_compute. repeat split. Qed.

(** C29 is false: OP_RETURN does nothing, so this script succeeds. *)
Theorem C29_return_fails_refuted : exists d, AllInstructions d = Ok [Instr 0x51 []; Instr 0x6a []] /\
  forall H hs vf s, exists st, Execute H hs vf d (Vm s []) = Ok st.
Proof.
  exists [0x51; 0x6a]. split; [vm_compute; reflexivity|]. intros H hs vf s. exists (Vm s []). unfold Execute.
  rewrite (exec_of H hs vf [Instr 0x51 []; Instr 0x6a []] [0x51; 0x6a]).
  - cbn [run]. rewrite (step_push H hs vf (Instr 0x51 []) [1]) by (try reflexivity; apply (push_small 1); lia). cbn [rbind]. rewrite return_noop. cbn [rbind].
    change ([1] :: s) with (BoolBytes true :: s). apply finish_bool.
  - split; [bytes_ok_tac|vm_compute; discriminate].
  - apply (so_cons _ [0x51] _ [0x6a]); [constructor; vm_compute; tauto|]. apply (so_cons _ [0x6a] _ []); [constructor; vm_compute; tauto|]. constructor.
Qed.
Print Assumptions C29_return_fails_refuted.
(** C29: what holds instead, for every script: OP_RETURN can be erased. *)
Theorem C29_return_is_noop_partial : forall H hs vf is st, run H hs vf (filter (fun i => negb (iop i =? 0x6a)) is) st = run H hs vf is st.
Proof. exact return_erased. Qed.
Print Assumptions C29_return_is_noop_partial.
Example C29_example : Execute ex_hash None None [0x6a] NewEngine = Ok NewEngine /\ Execute ex_hash None None [0x51; 0x6a; 0x6a] NewEngine = Ok NewEngine.
Proof. vm_compute. split; reflexivity. Qed.

(** C99 is false: OP_1 OP_DROP leaves the stack empty and succeeds, and so does no script at all. *)
Theorem C99_true_on_top_refuted : exists d, forall H hs vf,
  execute H hs vf d false NewEngine = Ok (Vm [] []) /\ execute H hs vf d true NewEngine = Ok (Vm [] []) /\
  exists un lock st, Verify H hs vf un lock NewEngine = Ok st /\ execute H hs vf (un ++ lock) false NewEngine = Ok (Vm [] []).
Proof.
  exists [0x51; 0x75]. intros H hs vf. split; [vm_compute; reflexivity|]. split; [vm_compute; reflexivity|].
  exists [0x51], [0x75], (Vm [] []). split; vm_compute; reflexivity.
Qed.
Print Assumptions C99_true_on_top_refuted.
(** C99: a run succeeds exactly when no instruction fails and the top item, if there is one, does not stand for zero. *)
Theorem C99_verdict_partial : forall H hasher verifier, (forall x, bytes_ok (H x) /\ len (H x) <= 2 ^ 48) -> oracles_return hasher verifier ->
  forall d st st', in_memory d -> items_ok (dstack st) ->
  (execute H (Some hasher) (Some verifier) d true st = Ok st' <->
   exists s c, execute H (Some hasher) (Some verifier) d false st = Ok (Vm s c) /\
     match s with [] => st' = Vm [] c | x :: r => num_value x <> 0 /\ st' = Vm r c end).
Proof. exact verdict. Qed.
Print Assumptions C99_verdict_partial.
(** Negative zero of three bytes is false; 0x80 before the last byte is not a sign. *)
Example C99_example :
  num_value [0; 0; 0x80] = 0 /\ (exists e, Execute ex_hash None None [3; 0; 0; 0x80] NewEngine = Err e) /\
  num_value [0x80; 0] = 128 /\ Execute ex_hash None None [2; 0x80; 0] NewEngine = Ok NewEngine.
Proof. split; [reflexivity|]. split; [eexists; vm_compute; reflexivity|]. split; [reflexivity|vm_compute; reflexivity]. Qed.

(** C100: CHECKSIG tells whether the signature is valid for the key. *)
Theorem C100_checksig : forall H hasher verifier, oracles_return hasher verifier -> forall key sig s c, skipping c = false ->
  exists b, step H (Some hasher) (Some verifier) (Instr 0xac []) (Vm (key :: sig :: s) c) = Ok (Vm (b :: s) c) /\
    (b = [1] /\ valid_sig hasher verifier sig key \/ b = [] /\ ~ valid_sig hasher verifier sig key).
Proof. exact checksig_step. Qed.
Print Assumptions C100_checksig.
(** C100: CHECKSIGVERIFY goes on with the rest of the stack, or fails. *)
Theorem C100_checksigverify : forall H hasher verifier, oracles_return hasher verifier -> forall key sig s c, skipping c = false ->
  step H (Some hasher) (Some verifier) (Instr 0xad []) (Vm (key :: sig :: s) c) = Ok (Vm s c) /\ valid_sig hasher verifier sig key \/
  (exists e, step H (Some hasher) (Some verifier) (Instr 0xad []) (Vm (key :: sig :: s) c) = Err e) /\ ~ valid_sig hasher verifier sig key.
Proof. exact checksigverify_step. Qed.
Print Assumptions C100_checksigverify.
(** C100: with fewer than two items both fail. *)
Theorem C100_too_few_items : forall H hasher verifier op s c, In op [0xac; 0xad] -> (length s < 2)%nat -> skipping c = false ->
  exists e, step H (Some hasher) (Some verifier) (Instr op []) (Vm s c) = Err e.
Proof. exact checksig_short. Qed.
Print Assumptions C100_too_few_items.
(** C100: CHECKMULTISIGVERIFY likewise. *)
Theorem C100_checkmultisigverify : forall H hasher verifier, oracles_return hasher verifier -> forall keys sigs nb mb dummy rest c, skipping c = false ->
  num_item nb (len keys) -> num_item mb (len sigs) -> len sigs <= len keys -> Forall (fun s => s <> []) sigs ->
  let st := Vm (nb :: rev keys ++ mb :: rev sigs ++ dummy :: rest) c in
  step H (Some hasher) (Some verifier) (Instr 0xaf []) st = Ok (Vm rest c) /\ matched (valid_sig hasher verifier) sigs keys \/
  (exists e, step H (Some hasher) (Some verifier) (Instr 0xaf []) st = Err e) /\ ~ matched (valid_sig hasher verifier) sigs keys.
Proof. exact multisigverify_step. Qed.
Print Assumptions C100_checkmultisigverify.
Example C100_example :
  step ex_hash (Some ex_hasher) (Some ex_verifier) (Instr 0xac []) (Vm [[42]; [42; 1]; [9]] []) = Ok (Vm [[1]; [9]] []) /\
  step ex_hash (Some ex_hasher) (Some ex_verifier) (Instr 0xad []) (Vm [[42]; [42; 1]; [9]] []) = Ok (Vm [[9]] []) /\
  (exists e, step ex_hash (Some ex_hasher) (Some ex_verifier) (Instr 0xad []) (Vm [[42]; []; [9]] []) = Err e) /\
  step ex_hash (Some ex_hasher) (Some ex_verifier) (Instr 0xaf []) (Vm [[3]; [30]; [20]; [10]; [2]; [30; 1]; [10; 1]; []; [9]] []) = Ok (Vm [[9]] []) /\
  (exists e, step ex_hash (Some ex_hasher) (Some ex_verifier) (Instr 0xaf []) (Vm [[3]; [30]; [20]; [10]; [2]; [10; 1]; [30; 1]; []; [9]] []) = Err e).
Proof. repeat split; try (eexists; vm_compute; reflexivity); vm_compute; reflexivity. Qed.
