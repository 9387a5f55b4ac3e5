(** Proofs about parsing, unparsing and building scripts. *)
From Verif Require Import GoBase BaseLemmas BufferModel BufferSpec BufferProofs BufferMore ScriptNumModel ScriptNumSpec ScriptNumProofs ScriptModel ScriptSpec.
From Coq Require Import ZifyBool ZifyNat.

Lemma op_length_cases op :
  op_length op = Some 1 /\ In op plain_opcodes \/
  op_length op = Some (op + 1) /\ 1 <= op <= 75 \/
  op_length op = Some (-1) /\ op = 0x4c \/ op_length op = Some (-2) /\ op = 0x4d \/ op_length op = Some (-4) /\ op = 0x4e \/
  op_length op = None /\ ~ In op plain_opcodes /\ ~ 1 <= op <= 0x4e.
Proof.
  unfold op_length.
  destruct (op =? 0) eqn:E0. { left. split; [reflexivity|]. replace op with 0 by lia. vm_compute. tauto. }
  destruct ((1 <=? op) && (op <=? 75)) eqn:E1. { right; left. split; [reflexivity|lia]. }
  destruct (op =? 76) eqn:E2. { right; right; left. split; [reflexivity|lia]. }
  destruct (op =? 77) eqn:E3. { do 3 right; left. split; [reflexivity|lia]. }
  destruct (op =? 78) eqn:E4. { do 4 right; left. split; [reflexivity|lia]. }
  destruct ((81 <=? op) && (op <=? 96)) eqn:E5. { left. split; [reflexivity|]. unfold plain_opcodes. cbn [In]. lia. }
  destruct (existsb (Z.eqb op) _) eqn:E6.
  - left. split; [reflexivity|]. apply existsb_exists in E6. destruct E6 as (x & Hx & Ex). apply Z.eqb_eq in Ex. subst x.
    unfold plain_opcodes. cbn [In] in *. tauto.
  - do 5 right. split; [reflexivity|]. split; [|lia]. intros H.
    assert (T : existsb (Z.eqb op) [99; 100; 103; 104; 106; 110; 111; 117; 118; 124; 130; 135; 136; 147; 169; 172; 173; 174; 175] = true); [|congruence].
    apply existsb_exists. exists op. split; [|apply Z.eqb_refl]. unfold plain_opcodes in H. cbn [In] in *. lia.
Qed.

Lemma plain_byte op : In op plain_opcodes -> is_byte op /\ op_length op = Some 1.
Proof.
  intros H. split; [unfold plain_opcodes in H; cbn [In] in H; unfold is_byte; lia|].
  unfold plain_opcodes in H. cbn [In] in H. repeat (destruct H as [<-|H]; [reflexivity|]). contradiction.
Qed.

Lemma End_rbuf pre rest : End (rbuf pre rest) = match rest with [] => true | _ => false end.
Proof. unfold End, rbuf. cbn [blength bseek]. destruct rest; [rewrite app_nil_r; lia|]. rewrite len_app, len_cons. pose proof (len_nonneg rest). lia. Qed.

Lemma fits_cons pre x r : fits pre (x :: r) -> fits (pre ++ [x]) r.
Proof. unfold fits. now rewrite app_cons_assoc. Qed.

Lemma encodes_nonempty i e : encodes i e -> e <> [].
Proof. destruct 1; discriminate. Qed.

(** One step of the reader on arbitrary input. *)
Definition after_op (rop : Z) : BM (option instruction) :=
  match op_length rop with
  | None => bfail "script.instruction.unknown"
  | Some n =>
      if n =? 1 then bret (Some (Instr rop []))
      else if 1 <? n then do data <- ReadBytes (n - 1); bret (Some (Instr rop (nilb data)))
      else if n <? 0 then
        do l <- (if n =? -1 then ReadU8 else if n =? -2 then ReadU16 else if n =? -4 then ReadU32
                 else bfail "script.opcode.size.malformed");
        do data <- ReadBytes l; bret (Some (Instr rop (nilb data)))
      else bret (Some (Instr rop []))
  end.
Lemma next_cons pre x r : fits pre (x :: r) -> NextInstruction (rbuf pre (x :: r)) = after_op x (rbuf (pre ++ [x]) r).
Proof. intros F. unfold NextInstruction. rewrite End_rbuf. unfold bbind at 1. now rewrite ReadU8_any by exact F. Qed.

Lemma next_any pre rest : fits pre rest -> bytes_ok rest ->
  (rest = [] /\ NextInstruction (rbuf pre rest) = (Ok None, rbuf pre rest)) \/
  (exists i e t, rest = e ++ t /\ encodes i e /\ NextInstruction (rbuf pre rest) = (Ok (Some i), rbuf (pre ++ e) t)) \/
  (exists m b, NextInstruction (rbuf pre rest) = (Err m, b)).
Proof.
  intros F O. destruct rest as [|x r]; [left; split; [reflexivity|]; unfold NextInstruction; now rewrite End_rbuf|right].
  rewrite next_cons by exact F. unfold after_op. pose proof (fits_cons _ _ _ F) as F'. apply bytes_ok_cons in O. destruct O as [Hx O].
  assert (PUSH : forall w rd, fixed_read w rd -> (w <= 4)%nat -> (forall l data, length l = w -> bytes_ok l -> le_value l = len data -> encodes (Instr x data) (x :: l ++ data)) ->
    (exists i e t, x :: r = e ++ t /\ encodes i e /\ (do l <- rd; do data <- ReadBytes l; bret (Some (Instr x (nilb data)))) (rbuf (pre ++ [x]) r) = (Ok (Some i), rbuf (pre ++ e) t)) \/
    (exists m b, (do l <- rd; do data <- ReadBytes l; bret (Some (Instr x (nilb data)))) (rbuf (pre ++ [x]) r) = (Err m, b))).
  { intros w rd Hr Hw Henc. unfold bbind. destruct (Hr _ _ F' O) as [(l & t & -> & Ll & R)|[_ R]]; rewrite R; [|right; do 2 eexists; reflexivity].
    apply bytes_ok_app in O. destruct O as [Ol Ot]. pose proof (le_value_range l Ol) as Rl.
    assert (256 ^ len l <= 256 ^ 4) by (apply Z.pow_le_mono_r; unfold len; lia). change (256 ^ 4) with 4294967296 in *.
    destruct (ReadBytes_any ((pre ++ [x]) ++ l) t (le_value l)) as [(e & t' & -> & Le & R2)|[_ R2]]; [now apply fits_shift|exact Ot|lia| |]; rewrite R2; [|right; do 2 eexists; reflexivity].
    left. exists (Instr x e), (x :: l ++ e), t'. split; [cbn [app]; now rewrite <- app_assoc|]. split; [apply Henc; auto|].
    cbn [bret]. unfold bret. rewrite nilb_nilify. f_equal. f_equal. rewrite <- !app_assoc. reflexivity. }
  destruct (op_length_cases x) as [[E H]|[[E H]|[[E H]|[[E H]|[[E H]|[E H]]]]]]; rewrite E.
  - left. exists (Instr x []), [x], r. split; [reflexivity|]. split; [now constructor|]. reflexivity.
  - replace (x + 1 =? 1) with false by lia. replace (1 <? x + 1) with true by lia. replace (x + 1 - 1) with x by lia. unfold bbind.
    destruct (ReadBytes_any (pre ++ [x]) r x) as [(e & t & -> & Le & R)|[_ R]]; [exact F'|exact O|lia| |]; rewrite R; [|right; do 2 eexists; reflexivity].
    left. exists (Instr x e), (x :: e), t. split; [reflexivity|]. split; [now constructor|]. unfold bret. rewrite nilb_nilify, app_cons_assoc. reflexivity.
  - change (-1 =? 1) with false. change (1 <? -1) with false. change (-1 <? 0) with true. change (-1 =? -1) with true. cbv iota.
    apply (PUSH 1%nat); [apply fixed_ReadU8|lia|]. intros l data Ll Hl V. subst x. destruct l as [|n [|? ?]]; try discriminate. cbn [app].
    inversion Hl as [|? ? Hn _]. unfold is_byte in Hn. cbn [le_value] in V. apply enc_push1; lia.
  - change (-2 =? 1) with false. change (1 <? -2) with false. change (-2 <? 0) with true. change (-2 =? -1) with false. change (-2 =? -2) with true. cbv iota.
    apply (PUSH 2%nat); [apply fixed_ReadU16|lia|]. intros l data Ll Hl V. subst x. now constructor.
  - change (-4 =? 1) with false. change (1 <? -4) with false. change (-4 <? 0) with true. change (-4 =? -1) with false. change (-4 =? -2) with false. change (-4 =? -4) with true. cbv iota.
    apply (PUSH 4%nat); [apply fixed_ReadU32|lia|]. intros l data Ll Hl V. subst x. now constructor.
  - right. do 2 eexists. reflexivity.
Qed.

(** An encoding determines the instruction, and no encoding is a proper prefix of another. *)
Lemma encodes_bytes i e : bytes_ok e -> encodes i e -> instr_bytes i = e.
Proof.
  intros O H. unfold instr_bytes. destruct H as [op H|op data H L|n data L H|l data L Hl V|l data L Hl V]; cbn [iop idata].
  - destruct (plain_byte op H) as [_ ->]. reflexivity.
  - destruct (op_length_cases op) as [[E H']|[[E H']|[[E H']|[[E H']|[[E H']|[E H']]]]]]; try lia.
    + exfalso. unfold plain_opcodes in H'. cbn [In] in H'. lia.
    + rewrite E. replace (op + 1 =? 1) with false by lia. replace (op + 1 <? 0) with false by lia. reflexivity.
  - change (op_length 76) with (Some (-1)). cbv iota. change (-1 =? 1) with false. change (-1 <? 0) with true. change (-1 =? -1) with true. cbv iota zeta.
    rewrite L. pose proof (len_nonneg data). rewrite u8_id by lia. reflexivity.
  - change (op_length 77) with (Some (-2)). cbv iota. change (-2 =? 1) with false. change (-2 <? 0) with true. change (-2 =? -1) with false. change (-2 =? -2) with true. cbv iota zeta.
    cbn [app]. f_equal. destruct l as [|a [|b [|? ?]]]; try discriminate. cbn [app]. inversion Hl as [|? ? Ha Hl']. inversion Hl' as [|? ? Hb _]. unfold is_byte in *.
    rewrite <- V. cbn [le_value]. change 255 with (Z.ones 8). rewrite !Z.land_ones by lia. change (2 ^ 8) with 256. rewrite shr8. 
    assert (D1 : (a + 256 * (b + 256 * 0)) / 256 = b) by (symmetry; apply Z.div_unique with a; lia). rewrite D1.
    assert (M1 : (a + 256 * (b + 256 * 0)) mod 256 = a) by (symmetry; apply Z.mod_unique with b; lia). rewrite M1.
    rewrite (Z.mod_small b) by lia. rewrite !u8_id by lia. reflexivity.
  - change (op_length 78) with (Some (-4)). cbv iota. change (-4 =? 1) with false. change (-4 <? 0) with true. change (-4 =? -1) with false. change (-4 =? -2) with false. change (-4 =? -4) with true. cbv iota zeta.
    cbn [app]. f_equal. destruct l as [|a [|b [|c [|d [|? ?]]]]]; try discriminate. cbn [app].
    inversion Hl as [|? ? Ha Hl']. inversion Hl' as [|? ? Hb Hl'']. inversion Hl'' as [|? ? Hc Hl3]. inversion Hl3 as [|? ? Hd _]. unfold is_byte in *.
    rewrite <- V. cbn [le_value]. change 255 with (Z.ones 8). rewrite !Z.land_ones by lia. rewrite !shr_div by lia. 
    change (2 ^ 8) with 256. change (2 ^ 16) with 65536. change (2 ^ 24) with 16777216.
    set (v := a + 256 * (b + 256 * (c + 256 * (d + 256 * 0)))).
    assert (D1 : v / 256 = b + 256 * c + 65536 * d) by (symmetry; apply Z.div_unique with a; unfold v; lia).
    assert (D2 : v / 65536 = c + 256 * d) by (symmetry; apply Z.div_unique with (a + 256 * b); unfold v; lia).
    assert (D3 : v / 16777216 = d) by (symmetry; apply Z.div_unique with (a + 256 * b + 65536 * c); unfold v; lia).
    rewrite D1, D2, D3.
    assert (M0 : v mod 256 = a) by (symmetry; apply Z.mod_unique with (b + 256 * c + 65536 * d); unfold v; lia).
    assert (M1 : (b + 256 * c + 65536 * d) mod 256 = b) by (symmetry; apply Z.mod_unique with (c + 256 * d); lia).
    assert (M2 : (c + 256 * d) mod 256 = c) by (symmetry; apply Z.mod_unique with d; lia).
    rewrite M0, M1, M2, (Z.mod_small d) by lia. rewrite !u8_id by lia. reflexivity.
Qed.

(** An encoded instruction is read back whatever follows. *)
Lemma next_app pre i e t : encodes i e -> bytes_ok e -> fits pre (e ++ t) ->
  NextInstruction (rbuf pre (e ++ t)) = (Ok (Some i), rbuf (pre ++ e) t).
Proof.
  intros H O F.
  destruct H as [op H|op data H L|n data L H|l data L Hl V|l data L Hl V].
  - cbn [app] in *. rewrite next_cons by exact F. unfold after_op. destruct (plain_byte op H) as [_ ->]. reflexivity.
  - cbn [app] in *. rewrite next_cons by exact F. unfold after_op.
    destruct (op_length_cases op) as [[E H']|[[E H']|[[E H']|[[E H']|[[E H']|[E H']]]]]]; try lia.
    + exfalso. unfold plain_opcodes in H'. cbn [In] in H'. lia.
    + rewrite E. replace (op + 1 =? 1) with false by lia. replace (1 <? op + 1) with true by lia. unfold bbind. replace (op + 1 - 1) with (len data) by lia.
      rewrite ReadBytes_app by (apply fits_cons; exact F). unfold bret. rewrite nilb_nilify, app_cons_assoc. reflexivity.
  - cbn [app] in *. rewrite next_cons by exact F. unfold after_op. change (op_length 76) with (Some (-1)). cbv iota.
    change (-1 =? 1) with false. change (1 <? -1) with false. change (-1 <? 0) with true. change (-1 =? -1) with true. cbv iota. unfold bbind.
    apply fits_cons in F. rewrite ReadU8_any by exact F. rewrite <- L. apply fits_cons in F. rewrite ReadBytes_app by (rewrite <- L in F; exact F).
    unfold bret. rewrite nilb_nilify. f_equal. f_equal. rewrite <- !app_assoc. reflexivity.
  - cbn [app] in *. rewrite <- app_assoc in *. rewrite next_cons by exact F. unfold after_op. change (op_length 77) with (Some (-2)). cbv iota.
    change (-2 =? 1) with false. change (1 <? -2) with false. change (-2 <? 0) with true. change (-2 =? -1) with false. change (-2 =? -2) with true. cbv iota. unfold bbind.
    apply fits_cons in F. rewrite ReadU16_bytes by (try assumption). rewrite V. rewrite ReadBytes_app by (apply fits_shift; exact F).
    unfold bret. rewrite nilb_nilify. f_equal. f_equal. rewrite <- !app_assoc. reflexivity.
  - cbn [app] in *. rewrite <- app_assoc in *. rewrite next_cons by exact F. unfold after_op. change (op_length 78) with (Some (-4)). cbv iota.
    change (-4 =? 1) with false. change (1 <? -4) with false. change (-4 <? 0) with true. change (-4 =? -1) with false. change (-4 =? -2) with false. change (-4 =? -4) with true. cbv iota. unfold bbind.
    apply fits_cons in F. rewrite ReadU32_bytes by (try assumption). rewrite V. rewrite ReadBytes_app by (apply fits_shift; exact F).
    unfold bret. rewrite nilb_nilify. f_equal. f_equal. rewrite <- !app_assoc. reflexivity.
Qed.

(** ** Whole scripts. *)
Lemma all_loop_of is d : script_of is d -> bytes_ok d -> forall fuel pre acc, fits pre d -> (length d < fuel)%nat ->
  all_loop fuel acc (rbuf pre d) = Ok (acc ++ is).
Proof.
  induction 1 as [|i e is d He Hs IH]; intros O fuel pre acc F L; (destruct fuel as [|fuel]; [lia|]); cbn [all_loop].
  - unfold NextInstruction. rewrite End_rbuf, app_nil_r. reflexivity.
  - apply bytes_ok_app in O. destruct O as [Oe Od]. rewrite (next_app pre i e d He Oe F).
    rewrite IH; [now rewrite <- app_assoc|exact Od|now apply fits_shift|].
    rewrite app_length in L. pose proof (encodes_nonempty _ _ He). destruct e; [congruence|]. cbn [length] in L. lia.
Qed.
Lemma all_of is d : in_memory d -> script_of is d -> AllInstructions d = Ok is.
Proof.
  intros [O L] H. unfold AllInstructions. rewrite NewBufferReader_rbuf. rewrite (all_loop_of is d H O); [reflexivity|exact L|lia].
Qed.
Lemma all_loop_any fuel : forall pre rest acc, fits pre rest -> bytes_ok rest -> (length rest < fuel)%nat ->
  (exists is, all_loop fuel acc (rbuf pre rest) = Ok (acc ++ is) /\ script_of is rest) \/ (exists m, all_loop fuel acc (rbuf pre rest) = Err m).
Proof.
  induction fuel as [|fuel IH]; intros pre rest acc F O L; [lia|]. cbn [all_loop].
  destruct (next_any pre rest F O) as [[-> R]|[(i & e & t & -> & He & R)|(m & b & R)]]; rewrite R.
  - left. exists []. rewrite app_nil_r. split; [reflexivity|constructor].
  - apply bytes_ok_app in O. destruct O as [Oe Ot]. pose proof (encodes_nonempty _ _ He) as Ne.
    destruct (IH (pre ++ e) t (acc ++ [i])) as [(is & E & S)|(m & E)]; [now apply fits_shift|exact Ot|rewrite app_length in L; destruct e; [congruence|]; cbn [length] in L; lia| |].
    + left. exists (i :: is). split; [now rewrite E, <- app_assoc|]. now constructor.
    + right. eauto.
  - right. eauto.
Qed.
Lemma all_any d : in_memory d -> (exists is, AllInstructions d = Ok is /\ script_of is d) \/ (exists m, AllInstructions d = Err m).
Proof.
  intros [O L]. unfold AllInstructions. rewrite NewBufferReader_rbuf. 
  destruct (all_loop_any (S (length d)) [] d []) as [(is & E & S)|(m & E)]; [exact L|exact O|lia| |]; [left|right]; eauto.
Qed.

Lemma parse_iff d is : in_memory d -> (AllInstructions d = Ok is <-> script_of is d).
Proof.
  intros M. split; [|now apply all_of]. intros E. destruct (all_any d M) as [(is' & E' & S)|(m & E')]; congruence.
Qed.

Lemma script_of_bytes is d : bytes_ok d -> script_of is d -> concat (map instr_bytes is) = d.
Proof.
  intros O H. induction H as [|i e is d He Hs IH]; [reflexivity|]. apply bytes_ok_app in O. destruct O as [Oe Od].
  cbn [map concat]. rewrite (encodes_bytes i e Oe He), IH by exact Od. reflexivity.
Qed.
Lemma script_of_app is d js e : script_of is d -> script_of js e -> script_of (is ++ js) (d ++ e).
Proof. induction 1 as [|i x is d He Hs IH]; intros H2; [exact H2|]. cbn [app]. rewrite <- app_assoc. constructor; auto. Qed.

(** C20. *)
Lemma unparse d is : in_memory d -> AllInstructions d = Ok is -> concat (map instr_bytes is) = d.
Proof. intros M H. apply parse_iff in H; [|exact M]. apply script_of_bytes; [apply M|exact H]. Qed.
Lemma parse_concat a b ia ib : in_memory (a ++ b) -> AllInstructions a = Ok ia -> AllInstructions b = Ok ib -> AllInstructions (a ++ b) = Ok (ia ++ ib).
Proof.
  intros [O L] Ha Hb. apply bytes_ok_app in O. rewrite len_app in L. pose proof (len_nonneg a). pose proof (len_nonneg b).
  apply parse_iff in Ha; [|split; [tauto|lia]]. apply parse_iff in Hb; [|split; [tauto|lia]].
  apply all_of; [split; [apply bytes_ok_app; tauto|rewrite len_app; lia]|]. now apply script_of_app.
Qed.
Lemma parse_total d : in_memory d -> AllInstructions d <> Panic.
Proof. intros M. destruct (all_any d M) as [(is & E & _)|(m & E)]; congruence. Qed.

(** C21. *)
Lemma fold_filter op is acc :
  fold_left (fun rets i => if iop i =? op then rets else rets ++ instr_bytes i) is acc =
  acc ++ concat (map instr_bytes (filter (fun i => negb (iop i =? op)) is)).
Proof.
  revert acc; induction is as [|i is IH]; intros acc; cbn [fold_left filter map concat]; [now rewrite app_nil_r|].
  destruct (iop i =? op); cbn [negb]; rewrite IH; [reflexivity|]. cbn [map concat]. now rewrite app_assoc.
Qed.
