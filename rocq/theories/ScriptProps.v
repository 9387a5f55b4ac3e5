(** Property theorems C15-C21 (standard scripts, script numbers, builder and parser). *)
From Verif Require Import GoBase BaseLemmas BufferModel BufferSpec ScriptNumModel ScriptNumSpec ScriptNumProofs ScriptModel ScriptSpec ScriptProofs
  VmModel VmSpec VmProofs VmMore AddressModel AddressSpec LockSpec LockModel LockProofs Sha256.

(** C15: a script is recognised exactly when it is the template of its kind. *)
Theorem C15_recognised_iff_template : forall d, in_memory d ->
  (forall h, ParseLockingScript d = Ok (P2PKH h) <-> len h = 20 /\ d = p2pkh_script h) /\
  (forall h, ParseLockingScript d = Ok (P2SH h) <-> len h = 20 /\ d = p2sh_script h) /\
  (forall h, ParseLockingScript d = Ok (P2WPKH h) <-> len h = 20 /\ d = p2wpkh_script h) /\
  (forall h, ParseLockingScript d = Ok (P2WSH h) <-> len h = 32 /\ d = p2wsh_script h).
Proof.
  intros d M. split; [|split; [|split]]; intros h.
  - exact (parse_template d (P2PKH h) M).
  - exact (parse_template d (P2SH h) M).
  - exact (parse_template d (P2WPKH h) M).
  - exact (parse_template d (P2WSH h) M).
Qed.
Print Assumptions C15_recognised_iff_template.
(** C15: the address it yields is locked by the original script. *)
Theorem C15_script_to_address : forall d s, in_memory d -> ParseLockingScript d = Ok s ->
  GetRawLockingScriptBytes s = d /\ exists a, GetAddress s = Some a /\ address_ok a /\ LockingScript a = d.
Proof. exact parse_address. Qed.
Print Assumptions C15_script_to_address.
(** C15: every address comes back from its locking script. *)
Theorem C15_address_to_script : forall a, address_ok a ->
  exists s, ParseLockingScript (LockingScript a) = Ok s /\ GetAddress s = Some a.
Proof. intros a Ha. exists (obj_of a). exact (address_script a Ha). Qed.
Print Assumptions C15_address_to_script.
Theorem C15_different_addresses_different_scripts : forall a b, address_ok a -> address_ok b ->
  LockingScript a = LockingScript b -> a = b.
Proof. exact locking_inj. Qed.
Print Assumptions C15_different_addresses_different_scripts.
Example C15_example :
  ParseLockingScript (hx "76a914751e76e8199196d454941c45d1b3a323f1433bd688ac") = Ok (P2PKH (hx "751e76e8199196d454941c45d1b3a323f1433bd6")) /\
  (* the same hash pushed with OP_PUSHDATA1 is not a standard script *)
  ParseLockingScript (hx "76a94c14751e76e8199196d454941c45d1b3a323f1433bd688ac") = Err "script.type.unknown" /\
  LockingScript (PayToWitnessV0PubKeyHashAddress (hx "751e76e8199196d454941c45d1b3a323f1433bd6")) = hx "0014751e76e8199196d454941c45d1b3a323f1433bd6".
Proof. vm_compute. repeat split. Qed.

(** C16. *)
Theorem C16_number_roundtrip : forall n, - 2 ^ 63 < n < 2 ^ 63 -> exists v, num_bytes n = Ok v /\
  bytes_ok v /\ num_value v = n /\ num_minimal v /\ MakeScriptNum v 8 = Ok n.
Proof.
  intros n H. destruct (num_bytes_spec n H) as (v' & E' & _ & L & _). destruct (num_roundtrip n H) as (v & E & O & V & M & R).
  exists v. assert (v' = v) as -> by congruence. repeat split; auto.
Qed.
Print Assumptions C16_number_roundtrip.
Theorem C16_accepted_is_canonical : forall v n limit, bytes_ok v -> limit <= 8 -> MakeScriptNum v limit = Ok n ->
  n = num_value v /\ num_bytes n = Ok v.
Proof. intros v n limit O L E. exact (num_accepted v limit n O L E). Qed.
Print Assumptions C16_accepted_is_canonical.
Example C16_example :
  num_bytes (-255) = Ok [0xff; 0x80] /\ num_bytes 128 = Ok [0x80; 0] /\ MakeScriptNum [0xff; 0x80] 4 = Ok (-255) /\
  (exists e, MakeScriptNum [0x7f; 0] 4 = Err e) /\ num_bytes (- 2 ^ 63 + 1) = Ok [255; 255; 255; 255; 255; 255; 255; 255].
Proof. repeat split; try (vm_compute; reflexivity). eexists. vm_compute. reflexivity. Qed.

(** C17 is false at the smallest int64. *)
Theorem C17_number_never_panics_refuted : exists n, - 2 ^ 63 <= n < 2 ^ 63 /\ num_bytes n = Panic.
Proof. exists (- 2 ^ 63). split; [lia|]. exact num_min_panics. Qed.
Print Assumptions C17_number_never_panics_refuted.
(** C17: it is the only one. *)
Theorem C17_number_never_panics_partial : forall n, - 2 ^ 63 <= n < 2 ^ 63 -> (num_bytes n = Panic <-> n = - 2 ^ 63).
Proof.
  intros n H. split; [|intros ->; exact num_min_panics]. intros P. destruct (Z.eq_dec n (- 2 ^ 63)) as [E|N]; [exact E|].
  destruct (num_roundtrip n ltac:(lia)) as (v & E & _). congruence.
Qed.
Print Assumptions C17_number_never_panics_partial.
Example C17_example : num_bytes 0 = Ok [] /\ num_bytes (2 ^ 63 - 1) = Ok [255; 255; 255; 255; 255; 255; 255; 127].
Proof. vm_compute. repeat split. Qed.

(** C18 is false for the one-byte strings 00 and 81. *)
Theorem C18_pushes_data_refuted : exists d, bytes_ok d /\ len d < 2 ^ 32 /\
  forall H hs vf s, execute H hs vf (Script (AddData d NewScriptBuilder)) false (Vm s []) <> Ok (Vm (d :: s) []).
Proof.
  exists [0]. split; [bytes_ok_tac|]. split; [vm_compute; reflexivity|]. intros H hs vf s. rewrite add_data_zero by reflexivity. discriminate.
Qed.
Print Assumptions C18_pushes_data_refuted.
Theorem C18_pushes_data_refuted_unreadable : exists d, bytes_ok d /\ len d < 2 ^ 32 /\
  forall H hs vf s, exists e, execute H hs vf (Script (AddData d NewScriptBuilder)) false (Vm s []) = Err e.
Proof. exists [0x81]. split; [bytes_ok_tac|]. split; [vm_compute; reflexivity|]. intros H hs vf s. apply add_data_0x81. Qed.
Print Assumptions C18_pushes_data_refuted_unreadable.
(** C18 for every other string, on any stack, in any branch that is being executed. *)
Theorem C18_pushes_data_partial : forall H hs vf d s c, bytes_ok d -> len d < 2 ^ 32 -> d <> [0] -> d <> [0x81] -> skipping c = false ->
  execute H hs vf (Script (AddData d NewScriptBuilder)) false (Vm s c) = Ok (Vm (d :: s) c).
Proof. exact add_data_runs. Qed.
Print Assumptions C18_pushes_data_partial.
Example C18_example : forall H,
  Script (AddData (repeat 7 76) NewScriptBuilder) = [0x4c; 76] ++ repeat 7 76 /\
  execute H None None (Script (AddData (repeat 7 76) NewScriptBuilder)) false (Vm [[1]] []) = Ok (Vm [repeat 7 76; [1]] []).
Proof. intros H. vm_compute. split; reflexivity. Qed.

(** C19 is false for -1 and for the smallest int64. *)
Theorem C19_pushes_integer_refuted : exists n, - 2 ^ 63 <= n < 2 ^ 63 /\ exists b, AddInt64 n NewScriptBuilder = Ok b /\
  forall H hs vf s, exists e, execute H hs vf (Script b) false (Vm s []) = Err e.
Proof.
  exists (-1). split; [lia|]. eexists. split; [reflexivity|]. intros H hs vf s. destruct (add_int_minus_one H hs vf false (Vm s [])) as (b & e & E & X).
  exists e. vm_compute in E. injection E as <-. exact X.
Qed.
Print Assumptions C19_pushes_integer_refuted.
Theorem C19_pushes_integer_refuted_panics : exists n, - 2 ^ 63 <= n < 2 ^ 63 /\ AddInt64 n NewScriptBuilder = Panic.
Proof. exists (- 2 ^ 63). split; [lia|]. vm_compute. reflexivity. Qed.
Print Assumptions C19_pushes_integer_refuted_panics.
Theorem C19_pushes_integer_partial : forall H hs vf n s c, - 2 ^ 63 < n < 2 ^ 63 -> n <> -1 -> skipping c = false -> exists b v,
  AddInt64 n NewScriptBuilder = Ok b /\ execute H hs vf (Script b) false (Vm s c) = Ok (Vm (v :: s) c) /\
  bytes_ok v /\ num_value v = n /\ num_minimal v.
Proof. intros H hs vf n s c Hn N Sk. destruct (add_int_runs H hs vf n s c Hn N Sk) as (b & v & A & B & C). exists b, v. auto. Qed.
Print Assumptions C19_pushes_integer_partial.
Example C19_example : forall H, exists b, AddInt64 1000 NewScriptBuilder = Ok b /\ Script b = [2; 0xe8; 3] /\
  execute H None None (Script b) false NewEngine = Ok (Vm [[0xe8; 3]] []).
Proof. intros H. eexists. split; [vm_compute; reflexivity|]. vm_compute. split; reflexivity. Qed.

(** C20. *)
Theorem C20_parse_is_the_format : forall d is, in_memory d -> (AllInstructions d = Ok is <-> script_of is d).
Proof. exact parse_iff. Qed.
Print Assumptions C20_parse_is_the_format.
Theorem C20_reserialise : forall d is, in_memory d -> AllInstructions d = Ok is -> concat (map instr_bytes is) = d.
Proof. exact unparse. Qed.
Print Assumptions C20_reserialise.
Theorem C20_concatenation : forall a b ia ib, in_memory (a ++ b) -> AllInstructions a = Ok ia -> AllInstructions b = Ok ib ->
  AllInstructions (a ++ b) = Ok (ia ++ ib).
Proof. exact parse_concat. Qed.
Print Assumptions C20_concatenation.
Theorem C20_never_panics : forall d, in_memory d -> AllInstructions d <> Panic.
Proof. exact parse_total. Qed.
Print Assumptions C20_never_panics.
Example C20_example :
  AllInstructions [0x76; 2; 9; 8; 0x4c; 1; 7; 0x4d; 1; 0; 5] = Ok [Instr 0x76 []; Instr 2 [9; 8]; Instr 0x4c [7]; Instr 0x4d [5]] /\
  (exists e, AllInstructions [0x76; 2; 9] = Err e) /\ (exists e, AllInstructions [0xab] = Err e).
Proof. repeat split; try (vm_compute; reflexivity); eexists; vm_compute; reflexivity. Qed.

(** C21 is false for OP_CODESEPARATOR, the opcode it is used for: the reader does not know 0xab, so the script is returned as it is. *)
Theorem C21_codeseparator_refuted : exists d, in_memory d /\ In 0xab d /\ RemoveOpcode d 0xab = Ok d.
Proof.
  exists [0x51; 0xab; 0xac]. assert (M : in_memory [0x51; 0xab; 0xac]) by (split; [bytes_ok_tac|vm_compute; discriminate]).
  split; [exact M|]. split; [cbn [In]; tauto|]. apply remove_unknown; [exact M|reflexivity].
Qed.
Print Assumptions C21_codeseparator_refuted.
Theorem C21_codeseparator_never_removed : forall d, in_memory d -> RemoveOpcode d 0xab = Ok d.
Proof. intros d M. apply remove_unknown; [exact M|reflexivity]. Qed.
Print Assumptions C21_codeseparator_never_removed.
(** C21 for scripts the reader understands. *)
Theorem C21_removes_exactly_partial : forall d is op, in_memory d -> script_of is d ->
  exists d', RemoveOpcode d op = Ok d' /\ script_of (filter (fun i => negb (iop i =? op)) is) d'.
Proof. exact remove_parsed. Qed.
Print Assumptions C21_removes_exactly_partial.
Example C21_example : RemoveOpcode [0x76; 2; 0x76; 8; 0x76; 0x87] 0x76 = Ok [2; 0x76; 8; 0x87].
Proof. vm_compute. reflexivity. Qed.
