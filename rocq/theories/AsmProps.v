(** C107, C108: scripts as text. *)
From Verif Require Import GoBase BaseLemmas BufferModel BufferSpec BufferProofs ScriptNumModel ScriptNumSpec ScriptNumProofs ScriptModel ScriptSpec ScriptProofs HexModel HexProofs Bip39Model AsmModel AsmSpec AsmProofs.
From Coq Require Import ZifyBool ZifyNat.
Local Open Scope Z_scope.

(** ** C107: the assembler *)

(** Words with one blank between any two give the bytes the words stand for, in order. *)
Theorem C107_assemble : forall ws t es, text_of ws t -> Forall2 means ws es -> assemble t = Ok (concat es).
Proof.
  intros ws t es T F. unfold assemble, LoadScript. rewrite (split_text _ _ T). destruct (load_complete ws es NewScriptBuilder F) as (b & L & S).
  rewrite L. cbn [rbind]. rewrite S. reflexivity.
Qed.
Print Assumptions C107_assemble.

(** Whatever assembles is made of such words, if every quoted word holds hexadecimal digits in pairs. *)
Theorem C107_sound_partial : forall t out, len t < 2 ^ 32 ->
  (forall ws h, text_of ws t -> In (39 :: h ++ [39]) ws -> h <> [] -> exists d, hexes h d) ->
  assemble t = Ok out -> exists ws es, text_of ws t /\ Forall2 means ws es /\ out = concat es.
Proof.
  intros t out L Q E. destruct (text_exists t) as (ws & T). unfold assemble, LoadScript in E. rewrite (split_text _ _ T) in E.
  destruct (load_loop ws NewScriptBuilder) as [[b g]|e|] eqn:LL; cbn [rbind] in E; try discriminate. destruct g; [|discriminate].
  assert (Eo : out = Script b) by congruence. exists ws.
  destruct (load_sound ws NewScriptBuilder b) as (es & F & S).
  - eapply Forall_impl; [|exact (text_words _ _ T)]. cbn. intros. lia.
  - intros h I N. exact (Q ws h T I N).
  - exact LL.
  - exists es. split; [exact T|]. split; [exact F|]. now rewrite Eo, S.
Qed.
Print Assumptions C107_sound_partial.

(** Without the condition it is false: the bytes before the first wrong digit are pushed, and no error is reported. *)
Theorem C107_sound_refuted : exists t out, len t < 2 ^ 32 /\ assemble t = Ok out /\
  forall ws es, text_of ws t -> ~ Forall2 means ws es.
Proof.
  exists (str_bytes "'12zz'"), [1; 0x12]. split; [reflexivity|]. split; [vm_compute; reflexivity|].
  intros ws es T F. apply split_text in T. vm_compute in T. subst ws. inversion F as [|? e ? es' M _]; subst.
  inversion M as [? ? N|? v d ? Nm|? ? H|h d ? H]; subst.
  - apply named_iff in N. vm_compute in N. discriminate.
  - apply number_head in Nm. cbn in Nm. tauto.
  - assert (h = [49; 50; 122; 122]). { assert (Q : h ++ [39] = [49; 50; 122; 122] ++ [39]) by assumption. now apply app_inj_tail in Q. }
    subst h. apply hexes_iff in H. vm_compute in H. discriminate.
Qed.
Print Assumptions C107_sound_refuted.

(** The only panic is the smallest integer (C17). *)
Theorem C107_no_panic_partial : forall t, assemble t = Panic -> exists ws w, text_of ws t /\ In w ws /\ number w (- 2 ^ 63).
Proof.
  intros t E. destruct (text_exists t) as (ws & T). unfold assemble, LoadScript in E. rewrite (split_text _ _ T) in E.
  destruct (load_loop ws NewScriptBuilder) as [[b g]|e|] eqn:LL; cbn [rbind] in E; try discriminate; [destruct g; discriminate|].
  destruct (load_panic _ _ LL) as (w & I & N). exists ws, w. auto.
Qed.
Print Assumptions C107_no_panic_partial.
Theorem C107_no_panic_refuted : exists t, assemble t = Panic.
Proof. exists (str_bytes "-9223372036854775808"). vm_compute. reflexivity. Qed.
Print Assumptions C107_no_panic_refuted.

(** One blank is the only separator: more of them, or none around an empty text, is an error. *)
Theorem C107_blanks_refuted : exists ws t es, text_of ws t /\ Forall2 means ws es /\
  (exists e, assemble (t ++ [10]) = Err e) /\ (exists e, assemble [] = Err e).
Proof.
  exists [str_bytes "OP_1"], (str_bytes "OP_1"), [[0x51]]. split.
  { apply text_iff. vm_compute. reflexivity. }
  split; [constructor; [|constructor]; apply m_op, named_iff; vm_compute; reflexivity|]. split; eexists; vm_compute; reflexivity.
Qed.
Print Assumptions C107_blanks_refuted.

Example C107_example : assemble (str_bytes "OP_DUP 1000 0x0402ff 'aB0102030405' -1 'c0'") =
  Ok [0x76; 2; 0xe8; 3; 4; 2; 0xff; 6; 0xab; 1; 2; 3; 4; 5; 0x4f; 1; 0xc0].
Proof. vm_compute. reflexivity. Qed.
Example C107_example_words : exists ws es, text_of ws (str_bytes "OP_DUP 1000 0x0402ff") /\ Forall2 means ws es /\ concat es = [0x76; 2; 0xe8; 3; 4; 2; 0xff].
Proof.
  destruct (C107_sound_partial (str_bytes "OP_DUP 1000 0x0402ff") [0x76; 2; 0xe8; 3; 4; 2; 0xff]) as (ws & es & T & F & E).
  - reflexivity.
  - intros ws h T I _. apply split_text in T. vm_compute in T. subst ws. cbn in I. destruct I as [I|[I|[I|[]]]]; discriminate.
  - vm_compute. reflexivity.
  - exists ws, es. auto.
Qed.

(** ** C108: the disassembler *)

Definition known_ops : list Z := map fst op_table.

Lemma encodes_known i e : encodes i e -> In (iop i) known_ops.
Proof.
  assert (R : forall n, 1 <= n <= 75 -> In n known_ops).
  { intros n H. assert (C : forallb (fun n => existsb (Z.eqb n) known_ops) (map Z.of_nat (seq 1 75)) = true) by (vm_compute; reflexivity).
    rewrite forallb_forall in C. specialize (C n). rewrite existsb_exists in C. destruct C as (m & I & Q).
    - apply in_map_iff. exists (Z.to_nat n). split; [lia|apply in_seq; lia].
    - apply Z.eqb_eq in Q. now subst m. }
  assert (P : forall n, In n plain_opcodes -> In n known_ops).
  { intros n H. assert (C : forallb (fun n => existsb (Z.eqb n) known_ops) plain_opcodes = true) by (vm_compute; reflexivity).
    rewrite forallb_forall in C. specialize (C n H). rewrite existsb_exists in C. destruct C as (m & I & Q). apply Z.eqb_eq in Q. now subst m. }
  intros [op H|op d H _|n d _ _|l d _ _ _|l d _ _ _]; cbn [iop]; auto; unfold known_ops, op_table; cbn [map fst]; vm_compute; tauto.
Qed.

Lemma op_name_facts op : In op known_ops -> named (op_name op) op /\ hd 0 (op_name op) = 79 /\ Forall (fun c => ~ blank c) (op_name op).
Proof.
  intro H. assert (C : forallb (fun op => match opcodesByName (op_name op) with Some o => o =? op | None => false end && (hd 0 (op_name op) =? 79) && forallb (fun c => negb ((c =? 32) || (c =? 10) || (c =? 9))) (op_name op)) known_ops = true) by (vm_compute; reflexivity).
  rewrite forallb_forall in C. specialize (C op H). apply andb_true_iff in C. destruct C as [C C3]. apply andb_true_iff in C. destruct C as [C1 C2].
  split; [|split; [lia|]].
  - apply named_iff. destruct (opcodesByName (op_name op)); [|discriminate]. f_equal. lia.
  - apply Forall_forall. intros c I. rewrite forallb_forall in C3. specialize (C3 c I). unfold blank. lia.
Qed.

Lemma op_name_inj a b : In a known_ops -> In b known_ops -> op_name a = op_name b -> a = b.
Proof.
  intros A B E. destruct (op_name_facts a A) as (Na & _). destruct (op_name_facts b B) as (Nb & _). apply named_iff in Na, Nb. congruence.
Qed.

Lemma hex_char n : 0 <= n < 16 -> toHexChar n <> 79 /\ ~ blank (toHexChar n).
Proof. unfold toHexChar, blank. destruct (n <? 10) eqn:E; lia. Qed.

Lemma hex_text d : bytes_ok d -> Forall (fun c => c <> 79 /\ ~ blank c) (hex_encode d).
Proof.
  induction 1 as [|v d H _ IH]; [constructor|]. destruct (nibbles v H) as (A & B & _). cbn. constructor; [now apply hex_char|]. constructor; [now apply hex_char|exact IH].
Qed.

Lemma join_text ws : ws <> [] -> Forall (Forall (fun c => ~ blank c)) ws -> text_of ws (Join ws).
Proof.
  induction ws as [|w ws IH]; intros N F; [contradiction|]. inversion F as [|? ? Fw Fs]; subst. destruct ws as [|w' ws'].
  - now constructor.
  - change (Join (w :: w' :: ws')) with (w ++ 32 :: Join (w' :: ws')). constructor; [exact Fw|now left|]. apply IH; [discriminate|exact Fs].
Qed.

Lemma join_inj ws ws' : Forall (fun w => w <> [] /\ Forall (fun c => ~ blank c) w) ws -> Forall (fun w => w <> [] /\ Forall (fun c => ~ blank c) w) ws' ->
  Join ws = Join ws' -> ws = ws'.
Proof.
  intros F F' E.
  assert (NE : forall w r, w <> [] -> Join (w :: r) <> []).
  { intros w r N. destruct r; cbn; [exact N|]. destruct w; [contradiction|discriminate]. }
  assert (T : forall ws, ws <> [] -> Forall (fun w => w <> [] /\ Forall (fun c => ~ blank c) w) ws -> Split (map white (Join ws)) = ws).
  { intros v N Fv. apply split_text, join_text; [exact N|]. eapply Forall_impl; [|exact Fv]. cbn. tauto. }
  destruct ws as [|w r]; destruct ws' as [|w' r']; [reflexivity| | |].
  - inversion F' as [|? ? [N _] _]; subst. cbn [Join] in E. exfalso. apply (NE w' r' N). symmetry. exact E.
  - inversion F as [|? ? [N _] _]; subst. cbn [Join] in E. exfalso. apply (NE w r N). exact E.
  - rewrite <- (T (w :: r)), <- (T (w' :: r')) by (assumption || discriminate). now rewrite E.
Qed.

Definition fine (i : instruction) : Prop := In (iop i) known_ops /\ bytes_ok (idata i).

Lemma words_fine is : Forall fine is -> Forall (fun w => w <> [] /\ Forall (fun c => ~ blank c) w) (flat_map instr_words is).
Proof.
  induction 1 as [|i is [K O] _ IH]; [constructor|]. cbn [flat_map]. apply Forall_app. split; [|exact IH]. unfold instr_words.
  destruct (op_name_facts _ K) as (_ & H & B). constructor.
  - split; [|exact B]. intro E. rewrite E in H. discriminate.
  - destruct (idata i) as [|x d] eqn:D; [constructor|]. constructor; [|constructor]. split; [discriminate|].
    eapply Forall_impl; [|exact (hex_text _ O)]. cbn. tauto.
Qed.

Lemma hex_head x d : bytes_ok (x :: d) -> hd 0 (hex_encode (x :: d)) <> 79.
Proof. intro O. pose proof (hex_text _ O) as F. cbn in *. inversion F; subst. cbn. tauto. Qed.

Lemma words_inj is : forall is', Forall fine is -> Forall fine is' -> flat_map instr_words is = flat_map instr_words is' -> is = is'.
Proof.
  assert (Head : forall i, fine i -> hd 0 (op_name (iop i)) = 79) by (intros i [K _]; now destruct (op_name_facts _ K) as (_ & H & _)).
  induction is as [|i is IH]; intros is' F F' E.
  - destruct is' as [|i' is']; [reflexivity|discriminate].
  - destruct is' as [|i' is']; [discriminate|]. inversion F as [|? ? Fi Fs]; subst. inversion F' as [|? ? Fi' Fs']; subst.
    cbn [flat_map] in E. unfold instr_words in E at 1 3. cbn [app] in E.
    pose proof (f_equal (hd []) E) as En. apply (f_equal (@tl bytes)) in E. cbn [hd tl] in En, E.
    assert (Op : iop i = iop i') by (apply op_name_inj; [apply Fi|apply Fi'|exact En]).
    assert (Nx : forall js x d, Forall fine js -> bytes_ok (x :: d) -> flat_map instr_words js <> hex_encode (x :: d) :: flat_map instr_words is /\ flat_map instr_words js <> hex_encode (x :: d) :: flat_map instr_words is').
    { intros js x d Fj O. assert (G : forall r, flat_map instr_words js <> hex_encode (x :: d) :: r); [|split; apply G]. intros r Q.
      destruct js as [|j js]; [discriminate|]. inversion Fj as [|? ? Fj1 _]; subst. cbn [flat_map] in Q. unfold instr_words at 1 in Q. cbn [app] in Q.
      assert (Q' : op_name (iop j) = hex_encode (x :: d)) by congruence. apply (hex_head x d O). rewrite <- Q'. now apply Head. }
    destruct i as [op d], i' as [op' d']. cbn [iop idata] in *. subst op'.
    assert (Od : bytes_ok d) by apply Fi. assert (Od' : bytes_ok d') by apply Fi'.
    destruct d as [|x d]; destruct d' as [|x' d']; cbn [app] in E.
    + f_equal. now apply IH.
    + exfalso. now apply (proj2 (Nx is x' d' Fs Od')).
    + exfalso. symmetry in E. now apply (proj1 (Nx is' x d Fs' Od)).
    + assert (Q : hex_encode (x :: d) = hex_encode (x' :: d')) by congruence.
      assert (Q2 : flat_map instr_words is = flat_map instr_words is') by congruence.
      assert (x :: d = x' :: d') as -> by (apply hex_decode_encode in Od, Od'; congruence). f_equal. now apply IH.
Qed.

Lemma script_fine is d : bytes_ok d -> script_of is d -> Forall fine is.
Proof.
  intros O H. revert O. induction H as [|i e is d Hi _ IH]; intros O; [constructor|]. apply bytes_ok_app in O. destruct O as [Oe Od].
  constructor; [|now apply IH]. split; [now apply (encodes_known i e)|].
  destruct Hi as [op _|op dd _ _|n dd _ _|l dd _ _ _|l dd _ _ _]; cbn [idata]; [constructor| | | |].
  - now apply bytes_ok_cons in Oe.
  - apply bytes_ok_cons in Oe. destruct Oe as [_ Oe]. now apply bytes_ok_cons in Oe.
  - apply bytes_ok_cons in Oe. destruct Oe as [_ Oe]. now apply bytes_ok_app in Oe.
  - apply bytes_ok_cons in Oe. destruct Oe as [_ Oe]. now apply bytes_ok_app in Oe.
Qed.

(** Two scripts the reader accepts with the same listing are the same script. *)
Theorem C108_listing_injective : forall et a b ia ib, in_memory a -> in_memory b -> script_of ia a -> script_of ib b ->
  DisasmString et a = DisasmString et b -> a = b.
Proof.
  intros et a b ia ib Ma Mb Sa Sb E. unfold DisasmString in E.
  pose proof (proj2 (parse_iff a ia Ma) Sa) as Pa. pose proof (proj2 (parse_iff b ib Mb) Sb) as Pb. rewrite Pa, Pb in E.
  assert (J : Join (flat_map instr_words ia) = Join (flat_map instr_words ib)) by congruence.
  pose proof (script_fine _ _ (proj1 Ma) Sa) as Fa. pose proof (script_fine _ _ (proj1 Mb) Sb) as Fb.
  apply join_inj in J; [|now apply words_fine|now apply words_fine]. apply words_inj in J; auto. subst ib.
  rewrite <- (unparse a ia Ma Pa), <- (unparse b ia Mb Pb). reflexivity.
Qed.
Print Assumptions C108_listing_injective.

(** A listing of opcodes without data assembles to the script it came from. *)
Theorem C108_roundtrip_partial : forall et d is t, in_memory d -> script_of is d -> is <> [] ->
  Forall (fun i => In (iop i) plain_opcodes) is -> DisasmString et d = Ok t -> assemble t = Ok d.
Proof.
  intros et d is t M S NE P E. unfold DisasmString in E. rewrite (proj2 (parse_iff d is M) S) in E.
  assert (Et : t = Join (flat_map instr_words is)) by congruence. subst t. pose proof (script_fine _ _ (proj1 M) S) as F.
  assert (D : Forall2 means (flat_map instr_words is) (map (fun i => [iop i]) is) /\ d = concat (map (fun i => [iop i]) is)).
  { clear - S P F. induction S as [|i e is d Hi _ IH]; [split; [constructor|reflexivity]|]. inversion P as [|? ? Pi Ps]; subst. inversion F as [|? ? [Ki _] Fs]; subst.
    destruct (IH Ps Fs) as [I1 I2]. assert (Ei : e = [iop i] /\ idata i = []).
    { destruct Hi as [op _|op dd R _|n dd _ _|l dd _ _ _|l dd _ _ _]; cbn [iop idata] in *; [auto|exfalso..]; unfold plain_opcodes in Pi; cbn [In] in Pi; lia. }
    destruct Ei as [-> Di]. cbn [flat_map map concat]. unfold instr_words at 1. rewrite Di. cbn [app]. rewrite I2. split; [|reflexivity].
    constructor; [|exact I1]. constructor. now destruct (op_name_facts _ Ki). }
  destruct D as [D ->]. apply (C107_assemble (flat_map instr_words is)); [|exact D].
  apply join_text.
  - destruct is; [contradiction|discriminate].
  - eapply Forall_impl; [|exact (words_fine _ F)]. cbn. tauto.
Qed.
Print Assumptions C108_roundtrip_partial.

(** With data it is false: the data 10 is listed as the word 10, which the assembler reads as the number ten. *)
Theorem C108_roundtrip_refuted : exists d t d', in_memory d /\ (forall et, DisasmString et d = Ok t) /\
  assemble t = Ok d' /\ d' <> d /\ exists is is', script_of is d /\ script_of is' d'.
Proof.
  exists [1; 0x10], (str_bytes "OP_DATA_1 10"), [1; 0x5a]. split; [split; [bytes_ok_tac|vm_compute; discriminate]|].
  split; [intros et; vm_compute; reflexivity|]. split; [vm_compute; reflexivity|]. split; [discriminate|].
  exists [Instr 1 [0x10]], [Instr 1 [0x5a]].
  split; apply (so_cons _ [1; _] [] []); try constructor; try reflexivity; lia.
Qed.
Print Assumptions C108_roundtrip_refuted.

(** Written with the prefix 0x, the bytes after each opcode give every script back. *)
Definition listing (i : instruction) (e : bytes) : list bytes :=
  op_name (iop i) :: match tl e with [] => [] | r => [48 :: 120 :: hex_encode r] end.
Theorem C108_every_script_has_a_text : forall is es, is <> [] -> Forall2 encodes is es -> Forall bytes_ok es ->
  assemble (Join (concat (map (fun p => listing (fst p) (snd p)) (combine is es)))) = Ok (concat es).
Proof.
  intros is es NE F O. set (ws := concat _).
  assert (G : exists outs, Forall2 means ws outs /\ concat outs = concat es /\ Forall (Forall (fun c => ~ blank c)) ws).
  { subst ws. clear NE. revert O. induction F as [|i e is es Hi _ IH]; intros O; [exists []; cbn; split; [constructor|split; [reflexivity|constructor]]|].
    inversion O as [|? ? Oe Os]; subst. destruct (IH Os) as (outs & F1 & C1 & W1). cbn [combine map concat fst snd]. unfold listing at 1 3.
    pose proof (encodes_known _ _ Hi) as K. destruct (op_name_facts _ K) as (N & _ & B).
    assert (Ee : e = iop i :: tl e) by (destruct Hi; reflexivity). destruct (tl e) as [|x r] eqn:T.
    - exists ([iop i] :: outs). cbn [app concat]. split; [constructor; [now constructor|exact F1]|]. split; [now rewrite C1, Ee|]. now constructor.
    - assert (Or : bytes_ok (x :: r)) by (rewrite Ee in Oe; now apply bytes_ok_cons in Oe).
      exists ([iop i] :: (x :: r) :: outs). split; [|split].
      + cbn [app]. constructor; [now constructor|]. constructor; [|exact F1]. constructor. apply hexes_iff. now apply hex_decode_encode.
      + cbn [concat app]. rewrite C1, Ee. reflexivity.
      + cbn [app]. constructor; [exact B|]. constructor; [|exact W1]. constructor; [unfold blank; lia|]. constructor; [unfold blank; lia|].
        eapply Forall_impl; [|exact (hex_text _ Or)]. cbn. tauto. }
  destruct G as (outs & F1 & C1 & W1). rewrite <- C1. apply (C107_assemble ws); [|exact F1]. apply join_text; [|exact W1].
  subst ws. destruct F; [contradiction|discriminate].
Qed.
Print Assumptions C108_every_script_has_a_text.

Example C108_example :
  (forall et, DisasmString et [0x76; 0xa9; 2; 0xab; 0xcd; 0x88; 0x4c; 1; 7] = Ok (str_bytes "OP_DUP OP_HASH160 OP_DATA_2 abcd OP_EQUALVERIFY OP_PUSHDATA1 07")) /\
  (forall et, DisasmString et [0x51; 0x5f; 0x93; 0x60; 0x87] = Ok (str_bytes "OP_1 OP_15 OP_ADD OP_16 OP_EQUAL")) /\
  assemble (str_bytes "OP_1 OP_15 OP_ADD OP_16 OP_EQUAL") = Ok [0x51; 0x5f; 0x93; 0x60; 0x87] /\
  assemble (str_bytes "OP_DUP OP_DATA_2 0xabcd OP_PUSHDATA1 0x0107") = Ok [0x76; 2; 0xab; 0xcd; 0x4c; 1; 7].
Proof. repeat split; try (intros et); vm_compute; reflexivity. Qed.
