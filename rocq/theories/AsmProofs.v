(** The assembler and the language of AsmSpec. *)
From Verif Require Import GoBase BaseLemmas BufferModel BufferSpec BufferProofs ScriptNumModel ScriptNumSpec ScriptNumProofs ScriptModel ScriptSpec HexModel HexProofs Bip39Model AsmModel AsmSpec.
From Coq Require Import ZifyBool ZifyNat.
Local Open Scope Z_scope.

(** ** Numbers *)
Lemma digits_value ds v : digits ds v <-> (ds <> [] /\ forallb digit ds = true /\ v = fold_left (fun acc c => acc * 10 + (c - 48)) ds 0).
Proof.
  split.
  - induction 1 as [c H|ds v c H (N & F & E) Hc].
    + split; [discriminate|]. cbn. unfold digit. split; lia.
    + split; [now destruct ds|]. rewrite forallb_app, F, fold_left_app, <- E. cbn. unfold digit. split; lia.
  - intros (N & F & ->). revert N F. induction ds as [|c ds IH] using rev_ind; intros N F; [contradiction|].
    rewrite forallb_app in F. apply andb_true_iff in F. destruct F as [F Fc]. cbn in Fc. unfold digit in Fc. rewrite fold_left_app. cbn.
    destruct ds as [|c' ds'].
    + cbn. apply (d_one c). lia.
    + set (v := fold_left _ (c' :: ds') 0) in *. replace (v * 10 + (c - 48)) with (10 * v + (c - 48)) by ring.
      apply d_more; [apply IH; [discriminate|exact F]|lia].
Qed.

Lemma digits_nonneg ds v : digits ds v -> 0 <= v.
Proof. induction 1; lia. Qed.

Lemma digits_head ds v : digits ds v -> exists c r, ds = c :: r /\ 48 <= c <= 57.
Proof.
  intro H. apply digits_value in H. destruct H as (N & F & _). destruct ds as [|c r]; [contradiction|].
  exists c, r. split; [reflexivity|]. cbn in F. unfold digit in F. lia.
Qed.

Definition in_int64 (v : Z) : Prop := - 2 ^ 63 <= v < 2 ^ 63.

Lemma ParseInt_iff w v : ParseInt64 w = Some v <-> number w v /\ in_int64 v.
Proof.
  unfold in_int64.
  assert (Body : forall (neg : bool) ds, parse_digits neg ds = Some v <->
      exists u, digits ds u /\ v = (if neg then - u else u) /\ - 2 ^ 63 <= v < 2 ^ 63).
  { intros neg ds. unfold parse_digits. cbv zeta. set (u := fold_left _ ds 0). split.
    - intro H. destruct ((0 <? len ds) && forallb digit ds) eqn:F; [|discriminate]. apply andb_true_iff in F. destruct F as [L F].
      assert (D : digits ds u). { apply digits_value. split; [|split; [exact F|reflexivity]]. intros ->. discriminate L. }
      pose proof (digits_nonneg _ _ D). exists u. split; [exact D|].
      destruct neg.
      + destruct (u <=? 2 ^ 63) eqn:E; [|discriminate]. assert (Q : v = - u) by congruence. split; [exact Q|]. lia.
      + destruct (u <? 2 ^ 63) eqn:E; [|discriminate]. assert (Q : v = u) by congruence. split; [exact Q|]. lia.
    - intros (u' & D & E & R). pose proof D as D'. apply digits_value in D'. destruct D' as (N & F & Eu). fold u in Eu. subst u'.
      rewrite F. pose proof (digits_nonneg _ _ D). replace (0 <? len ds) with true by (destruct ds; [contradiction|]; rewrite len_cons; pose proof (len_nonneg ds); lia).
      cbn [andb]. destruct neg; subst v.
      + replace (u <=? 2 ^ 63) with true by lia. reflexivity.
      + replace (u <? 2 ^ 63) with true by lia. reflexivity. }
  unfold ParseInt64. destruct w as [|c r].
  - split; [discriminate|]. intros (Nm & _). inversion Nm as [? ? D| |]; subst. apply digits_head in D. destruct D as (? & ? & Q & _). discriminate.
  - destruct (c =? 43) eqn:N1; [|destruct (c =? 45) eqn:N2].
    + assert (c = 43) by lia. subst c. rewrite Body. split.
      * intros (u & D & -> & R). split; [now constructor|exact R].
      * intros (Nm & R). inversion Nm as [? ? D|? ? D|]; subst; [|eauto]. apply digits_head in D. destruct D as (? & ? & Q & ?). injection Q as <- <-. lia.
    + assert (c = 45) by lia. subst c. rewrite Body. split.
      * intros (u & D & -> & R). split; [now constructor|exact R].
      * intros (Nm & R). inversion Nm as [? ? D| |]; subst; [|eauto]. apply digits_head in D. destruct D as (? & ? & Q & ?). injection Q as <- <-. lia.
    + rewrite Body. split.
      * intros (u & D & -> & R). split; [now constructor|exact R].
      * intros (Nm & R). inversion Nm; subst; [eauto|lia|lia].
Qed.

(** ** Hexadecimal *)
Lemma hexdigit_iff c x : hexdigit c x <-> fromHexChar c = Some x.
Proof.
  unfold fromHexChar. split.
  - intros [n H|n H|n H].
    + replace ((48 <=? 48 + n) && (48 + n <=? 57)) with true by lia. f_equal. lia.
    + replace ((48 <=? 97 + (n - 10)) && (97 + (n - 10) <=? 57)) with false by lia.
      replace ((97 <=? 97 + (n - 10)) && (97 + (n - 10) <=? 102)) with true by lia. f_equal. lia.
    + replace ((48 <=? 65 + (n - 10)) && (65 + (n - 10) <=? 57)) with false by lia.
      replace ((97 <=? 65 + (n - 10)) && (65 + (n - 10) <=? 102)) with false by lia.
      replace ((65 <=? 65 + (n - 10)) && (65 + (n - 10) <=? 70)) with true by lia. f_equal. lia.
  - destruct ((48 <=? c) && (c <=? 57)) eqn:E1; [|destruct ((97 <=? c) && (c <=? 102)) eqn:E2; [|destruct ((65 <=? c) && (c <=? 70)) eqn:E3; [|discriminate]]]; intro H.
    + assert (Q : x = c - 48) by congruence. replace c with (48 + x) by lia. constructor. lia.
    + assert (Q : x = c - 97 + 10) by congruence. replace c with (97 + (x - 10)) by lia. constructor. lia.
    + assert (Q : x = c - 65 + 10) by congruence. replace c with (65 + (x - 10)) by lia. constructor. lia.
Qed.

Lemma hexdigit_range c x : hexdigit c x -> 0 <= x < 16.
Proof. intros [n H|n H|n H]; lia. Qed.

Lemma pair_value x y : 0 <= x < 16 -> 0 <= y < 16 -> Z.lor (Z.shiftl x 4) y = 16 * x + y.
Proof.
  intros Hx Hy. assert (C : forallb (fun i => forallb (fun j => Z.lor (Z.shiftl i 4) j =? 16 * i + j) (map Z.of_nat (seq 0 16))) (map Z.of_nat (seq 0 16)) = true) by (vm_compute; reflexivity).
  rewrite forallb_forall in C. specialize (C x). rewrite forallb_forall in C.
  apply Z.eqb_eq. apply C; apply in_map_iff; [exists (Z.to_nat x)|exists (Z.to_nat y)]; (split; [lia|apply in_seq; lia]).
Qed.

Lemma hexes_iff h : forall d, hexes h d <-> hex_decode h = Ok d.
Proof.
  assert (G : forall n h, (length h < n)%nat -> forall d, hexes h d <-> hex_decode h = Ok d); [|exact (G (S (length h)) h ltac:(lia))].
  clear h. induction n as [|n IH]; [lia|]. intros h L d. destruct h as [|a [|b r]].
  - cbn. split; [inversion 1; reflexivity|]. intro E. injection E as <-. constructor.
  - cbn. split; [inversion 1|]. destruct (fromHexChar a); discriminate.
  - cbn [hex_decode]. split.
    + inversion 1 as [|? ? x y ? d' Ha Hb Hr]; subst. pose proof (hexdigit_range _ _ Ha). pose proof (hexdigit_range _ _ Hb).
      apply hexdigit_iff in Ha, Hb. rewrite Ha, Hb. apply (IH r ltac:(cbn in L; lia)) in Hr. rewrite Hr. cbn [rbind]. now rewrite pair_value.
    + destruct (fromHexChar a) as [x|] eqn:Ha; [|discriminate]. destruct (fromHexChar b) as [y|] eqn:Hb; [|discriminate].
      destruct (hex_decode r) as [d'| |] eqn:Hr; cbn [rbind]; try discriminate. intro E. injection E as <-.
      apply hexdigit_iff in Ha, Hb. rewrite pair_value by eauto using hexdigit_range. constructor; auto. apply IH; [cbn in L; lia|exact Hr].
Qed.

Lemma hex_prefix_ok h : forall d, hex_decode h = Ok d -> hex_prefix h = d.
Proof.
  intros d H. apply hexes_iff in H. induction H as [|a b x y t d Ha Hb _ IH]; [reflexivity|].
  pose proof (hexdigit_range _ _ Ha). pose proof (hexdigit_range _ _ Hb). apply hexdigit_iff in Ha, Hb. cbn. rewrite Ha, Hb, IH. now rewrite pair_value.
Qed.

Lemma hexes_ok h d : hexes h d -> bytes_ok d /\ length h = (2 * length d)%nat.
Proof.
  induction 1 as [|a b x y t d Ha Hb _ [IH L]]; [split; [constructor|reflexivity]|].
  apply hexdigit_range in Ha, Hb. split; [constructor; [unfold is_byte; lia|exact IH]|]. cbn. lia.
Qed.

Lemma hex_decode_no_panic h : hex_decode h <> Panic.
Proof.
  assert (G : forall n h, (length h < n)%nat -> hex_decode h <> Panic); [|exact (G (S (length h)) h ltac:(lia))].
  clear h. induction n as [|n IH]; [lia|]. intros h L. destruct h as [|a [|b r]]; [discriminate|cbn; destruct (fromHexChar a); discriminate|].
  cbn. destruct (fromHexChar a); [|discriminate]. destruct (fromHexChar b); [|discriminate].
  specialize (IH r ltac:(cbn in L; lia)). destruct (hex_decode r); cbn; congruence.
Qed.

(** ** Pushes *)
Lemma AddData_shortest d b : bytes_ok d -> len d < 2 ^ 32 -> exists e, Script (AddData d b) = Script b ++ e /\ shortest_push d e.
Proof.
  intros O L. unfold Script, Bytes, AddData. destruct d as [|d0 [|d1 d']].
  - exists [0]. split; [reflexivity|]. constructor.
  - apply bytes_ok_cons in O. destruct O as [O0 _]. unfold is_byte in O0.
    destruct (d0 =? 0) eqn:E0. { assert (d0 = 0) by lia. subst d0. exists [0]. split; [reflexivity|constructor]. }
    destruct (d0 <=? 16) eqn:E1.
    { exists [0x50 + d0]. split; [cbn [WriteU8 bdata]; now rewrite u8_id by lia|]. constructor. lia. }
    destruct (d0 =? 129) eqn:E2. { assert (d0 = 129) by lia. subst d0. exists [0x4f]. split; [reflexivity|constructor]. }
    exists [1; d0]. split; [cbn [WriteU8 WriteBytes bdata]; now rewrite <- app_assoc|].
    apply (sp_direct [d0]); [unfold len; cbn; lia|]. intros n Q. injection Q as <-. lia.
  - set (d := d0 :: d1 :: d') in *.
    assert (Lp : 2 <= len d) by (unfold d; rewrite !len_cons; pose proof (len_nonneg d'); lia). cbv zeta.
    destruct (len d <? 76) eqn:E1.
    { exists (len d :: d). split; [cbn [WriteU8 WriteBytes bdata]; rewrite Z.add_0_l, u8_id by lia; now rewrite <- app_assoc|].
      constructor; [lia|]. intros n Q. rewrite Q in Lp. unfold len in Lp. cbn in Lp. lia. }
    destruct (len d <=? 255) eqn:E2.
    { exists (0x4c :: len d :: d). split; [cbn [WriteU8 WriteBytes bdata]; rewrite u8_id by lia; now rewrite <- !app_assoc|]. constructor. lia. }
    destruct (len d <=? 65535) eqn:E3.
    { exists (0x4d :: le_bytes 2 (len d) ++ d). rewrite u32_id by lia. rewrite WriteU16_spec. cbn [WriteU8 WriteBytes bdata].
      split; [now rewrite <- !app_assoc|]. constructor; [lia|apply le_bytes_length|apply le_bytes_ok|]. apply le_value_le_bytes. change (256 ^ Z.of_nat 2) with 65536. lia. }
    exists (0x4e :: le_bytes 4 (len d) ++ d). rewrite u32_id by lia. rewrite WriteU32_spec. cbn [WriteU8 WriteBytes bdata].
    split; [now rewrite <- !app_assoc|]. constructor; [lia|apply le_bytes_length|apply le_bytes_ok|]. apply le_value_le_bytes. change (256 ^ Z.of_nat 4) with (2 ^ 32). lia.
Qed.

Lemma AddData_of_shortest d e b : shortest_push d e -> Script (AddData d b) = Script b ++ e.
Proof.
  unfold Script, Bytes. intro H.
  assert (Big : forall x : bytes, 2 <= len x -> exists a c r, x = a :: c :: r).
  { intros [|a [|c r]] Lx; [unfold len in Lx; cbn in Lx; lia|unfold len in Lx; cbn in Lx; lia|eauto]. }
  destruct H as [ | |n R| |d R N|d R|d l R Ll O V|d l R Ll O V].
  - reflexivity.
  - reflexivity.
  - unfold AddData. replace (n =? 0) with false by lia. replace (n <=? 16) with true by lia. cbn [WriteU8 bdata]. now rewrite u8_id by lia.
  - reflexivity.
  - destruct d as [|a [|c r]]; [unfold len in R; cbn in R; lia| |].
    + destruct (N a eq_refl). unfold AddData. replace (a =? 0) with false by lia. replace (a <=? 16) with false by lia. replace (a =? 129) with false by lia.
      cbn [WriteBytes WriteU8 bdata]. now rewrite <- app_assoc.
    + unfold AddData. set (d := a :: c :: r) in *. cbv zeta. replace (len d <? 76) with true by lia. cbn [WriteBytes WriteU8 bdata].
      rewrite Z.add_0_l, u8_id by lia. now rewrite <- app_assoc.
  - destruct (Big d ltac:(lia)) as (a & c & r & E). rewrite E. unfold AddData. rewrite <- E. cbv zeta. replace (len d <? 76) with false by lia.
    replace (len d <=? 255) with true by lia. cbn [WriteBytes WriteU8 bdata]. rewrite u8_id by lia. now rewrite <- !app_assoc.
  - destruct (Big d ltac:(lia)) as (a & c & r & E). rewrite E. unfold AddData. rewrite <- E. cbv zeta. replace (len d <? 76) with false by lia.
    replace (len d <=? 255) with false by lia. replace (len d <=? 65535) with true by lia. rewrite u32_id by lia. rewrite WriteU16_spec. cbn [WriteU8 WriteBytes bdata].
    assert (Q : le_bytes 2 (len d) = l). { apply le_value_inj; [apply le_bytes_ok|exact O|rewrite le_bytes_length; lia|]. rewrite V. apply le_value_le_bytes. change (256 ^ Z.of_nat 2) with 65536. lia. }
    rewrite Q. now rewrite <- !app_assoc.
  - destruct (Big d ltac:(lia)) as (a & c & r & E). rewrite E. unfold AddData. rewrite <- E. cbv zeta. replace (len d <? 76) with false by lia.
    pose proof (le_value_range l O) as Rl. rewrite V in Rl. unfold len at 3 in Rl. rewrite Ll in Rl. change (256 ^ Z.of_nat 4) with (2 ^ 32) in Rl.
    replace (len d <=? 255) with false by lia. replace (len d <=? 65535) with false by lia. rewrite u32_id by lia. rewrite WriteU32_spec. cbn [WriteU8 WriteBytes bdata].
    assert (Q : le_bytes 4 (len d) = l). { apply le_value_inj; [apply le_bytes_ok|exact O|rewrite le_bytes_length; lia|]. rewrite V. apply le_value_le_bytes. change (256 ^ Z.of_nat 4) with (2 ^ 32). lia. }
    rewrite Q. now rewrite <- !app_assoc.
Qed.

(** The shortest string for a number is the one without padding. *)
Lemma minimal_tight v : bytes_ok v -> num_minimal v -> tight v.
Proof.
  intros O M. destruct (check_tight v) as [[_ T]|[_ NT]]; [exact T|exfalso]. apply NT. unfold tight.
  destruct (snoc_cases v) as [->|(x & t & ->)]; [exact I|]. rewrite rev_app_distr. cbn [rev app].
  apply bytes_ok_app in O. destruct O as [Ox Ot]. apply bytes_ok_cons in Ot. destruct Ot as [Ot _].
  destruct (Z.eq_dec (Z.land t 127) 0) as [Z0|N0]; [right|now left]. rewrite land_127 in Z0 by exact Ot.
  destruct (snoc_cases x) as [->|(y & p & ->)].
  - exfalso. specialize (M [] ltac:(constructor)). rewrite num_value_snoc in M. cbn [le_value] in M. unfold len in M. cbn in M.
    destruct (t <? 128) eqn:E; [assert (t = 0) by lia|assert (t = 128) by lia]; subst t; specialize (M eq_refl); lia.
  - rewrite rev_app_distr. cbn [rev app]. apply bytes_ok_app in Ox. destruct Ox as [Oy Op]. apply bytes_ok_cons in Op. destruct Op as [Op _].
    rewrite land_128 by exact Op. destruct (p <? 128) eqn:Ep; [|lia]. exfalso.
    assert (B : forall q, is_byte q -> num_value (y ++ [q]) = num_value ((y ++ [p]) ++ [t]) -> False).
    { intros q Oq E. specialize (M (y ++ [q]) ltac:(apply bytes_ok_app; split; [exact Oy|constructor; [exact Oq|constructor]]) E).
      rewrite !len_app in M. change (len [t]) with 1 in M. change (len [p]) with 1 in M. change (len [q]) with 1 in M. lia. }
    unfold is_byte in *. destruct (t <? 128) eqn:E.
    + assert (t = 0) by lia. subst t. apply (B p Op). rewrite !num_value_snoc, Ep, le_value_snoc. change (0 <? 128) with true. cbv iota. ring.
    + assert (t = 128) by lia. subst t. apply (B (p + 128) ltac:(lia)). rewrite !num_value_snoc, le_value_snoc.
      replace (p + 128 <? 128) with false by lia. replace (128 <? 128) with false by lia. replace (p + 128 - 128) with p by ring. ring.
Qed.

Lemma AddInt64_data n b : - 2 ^ 63 < n < 2 ^ 63 -> exists v, num_bytes n = Ok v /\ AddInt64 n b = Ok (AddData v b).
Proof.
  intro H. destruct (num_bytes_spec n H) as (v & E & _). exists v. split; [exact E|]. unfold AddInt64.
  destruct (n =? 0) eqn:E0. { assert (n = 0) by lia. subst n. vm_compute in E. injection E as <-. reflexivity. }
  destruct ((n =? -1) || (1 <=? n) && (n <=? 16)) eqn:E1; [|now rewrite E].
  assert (C : forallb (fun n => match num_bytes n with Ok v => list_Z_eqb (match v with [129] => [79] | [x] => [80 + x] | _ => [] end) [u8 (81 + n - 1)] && (list_Z_eqb v [129] || list_Z_eqb v [n] && (1 <=? n) && (n <=? 16)) | _ => false end)
    (-1 :: map Z.of_nat (seq 1 16)) = true) by (vm_compute; reflexivity).
  rewrite forallb_forall in C. specialize (C n). rewrite E in C.
  assert (In n (-1 :: map Z.of_nat (seq 1 16))) as IN.
  { destruct (Z.eq_dec n (-1)) as [->|N1]; [left; reflexivity|right]. apply in_map_iff. exists (Z.to_nat n). split; [lia|apply in_seq; lia]. }
  specialize (C IN). apply andb_true_iff in C. destruct C as [C1 C2]. apply orb_true_iff in C2. apply list_Z_eqb_spec in C1.
  destruct C2 as [C2|C2].
  - apply list_Z_eqb_spec in C2. subst v. assert (Q : u8 (81 + n - 1) = 79) by congruence. rewrite Q. reflexivity.
  - apply andb_true_iff in C2. destruct C2 as [C2 C3]. apply andb_true_iff in C2. destruct C2 as [C2 C4]. apply list_Z_eqb_spec in C2. subst v.
    unfold AddData. replace (n =? 0) with false by lia. replace (n <=? 16) with true by lia. do 2 f_equal.
    rewrite !u8_id by lia. lia.
Qed.

(** ** Names *)
Definition all_names : list (Z * bytes) := map (fun p => (fst p, str_bytes (snd p))) (op_aliases ++ op_table).

Lemma by_name_in w op : opcodesByName w = Some op -> In (op, w) all_names.
Proof.
  unfold opcodesByName, all_names. destruct (find _ _) as [[o n]|] eqn:F; [|discriminate]. intro E. injection E as <-.
  apply find_some in F. destruct F as [I Q]. cbn [snd] in Q. apply list_Z_eqb_spec in Q. subst w.
  apply in_map_iff. exists (o, n). split; [reflexivity|exact I].
Qed.

Lemma in_by_name w op : In (op, w) all_names -> opcodesByName w = Some op.
Proof.
  assert (C : forallb (fun p => match opcodesByName (snd p) with Some o => o =? fst p | None => false end) all_names = true) by (vm_compute; reflexivity).
  rewrite forallb_forall in C. intro I. specialize (C _ I). cbn [fst snd] in C. destruct (opcodesByName w) as [o|]; [|discriminate].
  f_equal. lia.
Qed.

Definition spec_names : list (bytes * Z) :=
  map (fun n => (str_bytes "OP_DATA_" ++ decimal_up 3 n, n)) (map Z.of_nat (seq 1 75)) ++
  map (fun n => (str_bytes "OP_" ++ decimal_up 3 n, 0x50 + n)) (map Z.of_nat (seq 1 16)) ++
  map (fun p => (str_bytes (fst p), snd p)) 
    [("OP_0", 0); ("OP_FALSE", 0); ("OP_TRUE", 0x51); ("OP_PUSHDATA1", 0x4c); ("OP_PUSHDATA2", 0x4d);
     ("OP_PUSHDATA4", 0x4e); ("OP_IF", 0x63); ("OP_NOTIF", 0x64); ("OP_ELSE", 0x67); ("OP_ENDIF", 0x68);
     ("OP_RETURN", 0x6a); ("OP_2DUP", 0x6e); ("OP_3DUP", 0x6f); ("OP_DROP", 0x75); ("OP_DUP", 0x76);
     ("OP_SWAP", 0x7c); ("OP_SIZE", 0x82); ("OP_EQUAL", 0x87); ("OP_EQUALVERIFY", 0x88); ("OP_ADD", 0x93);
     ("OP_HASH160", 0xa9); ("OP_CHECKSIG", 0xac); ("OP_CHECKSIGVERIFY", 0xad); ("OP_CHECKMULTISIG", 0xae);
     ("OP_CHECKMULTISIGVERIFY", 0xaf); ("OP_NOP2", 0xb1); ("OP_NOP3", 0xb2)]%string.

Lemma named_iff_list w op : named w op <-> In (w, op) spec_names.
Proof.
  unfold spec_names. rewrite !in_app_iff. split.
  - intros [n R|n R|s o I].
    + left. apply in_map_iff. exists n. split; [reflexivity|]. apply in_map_iff. exists (Z.to_nat n). split; [lia|apply in_seq; lia].
    + right. left. apply in_map_iff. exists n. split; [reflexivity|]. apply in_map_iff. exists (Z.to_nat n). split; [lia|apply in_seq; lia].
    + right. right. apply in_map_iff. exists (s, o). split; [reflexivity|exact I].
  - intros [I|[I|I]]; apply in_map_iff in I.
    + destruct I as (n & E & I). injection E as <- <-. apply in_map_iff in I. destruct I as (k & <- & I). apply in_seq in I. constructor. lia.
    + destruct I as (n & E & I). apply in_map_iff in I. destruct I as (k & <- & I). apply in_seq in I.
      assert (Q1 : w = str_bytes "OP_" ++ decimal_up 3 (Z.of_nat k)) by congruence. assert (Q2 : op = 0x50 + Z.of_nat k) by congruence. subst. constructor. lia.
    + destruct I as ([s o] & E & I). assert (Q1 : w = str_bytes s) by (cbn [fst snd] in E; congruence). assert (Q2 : op = o) by (cbn [fst snd] in E; congruence). subst. now apply n_other.
Qed.

Lemma named_iff w op : named w op <-> opcodesByName w = Some op.
Proof.
  rewrite named_iff_list. split.
  - assert (C : forallb (fun p => match opcodesByName (fst p) with Some o => o =? snd p | None => false end) spec_names = true) by (vm_compute; reflexivity).
    rewrite forallb_forall in C. intro I. specialize (C _ I). cbn [fst snd] in C. destruct (opcodesByName w) as [o|]; [|discriminate]. f_equal. lia.
  - intro E. apply by_name_in in E.
    assert (C : forallb (fun p => existsb (fun q => list_Z_eqb (fst q) (snd p) && (snd q =? fst p)) spec_names) all_names = true) by (vm_compute; reflexivity).
    rewrite forallb_forall in C. specialize (C _ E). apply existsb_exists in C. destruct C as ([n o] & I & Q). cbn [fst snd] in Q.
    apply andb_true_iff in Q. destruct Q as [Q1 Q2]. apply list_Z_eqb_spec in Q1. apply Z.eqb_eq in Q2. subst. exact I.
Qed.

(** ** Words *)
Lemma white_blank c : white c = 32 <-> blank c.
Proof. unfold white, blank. destruct ((c =? 10) || (c =? 9)) eqn:E; lia. Qed.

Lemma split_word w : forall cur rest, Forall (fun c => ~ blank c) w -> split_from cur (map white (w ++ rest)) = split_from (cur ++ w) (map white rest).
Proof.
  induction w as [|c w IH]; intros cur rest H; [now rewrite app_nil_r|]. inversion H as [|? ? Hc Hw]; subst. cbn [app map split_from].
  assert (N : white c <> 32) by (rewrite white_blank; exact Hc). replace (white c =? 32) with false by lia. rewrite IH by exact Hw. rewrite <- app_assoc. cbn [app].
  assert (white c = c) as ->; [|reflexivity]. unfold white, blank in *. destruct ((c =? 10) || (c =? 9)) eqn:E; [lia|reflexivity].
Qed.

Lemma split_text ws t : text_of ws t -> Split (map white t) = ws.
Proof.
  unfold Split. induction 1 as [w H|w c ws t H Hc _ IH].
  - rewrite <- (app_nil_r w) at 1. rewrite split_word by exact H. reflexivity.
  - rewrite split_word by exact H. cbn [map split_from app]. apply white_blank in Hc. rewrite Hc, Z.eqb_refl. now rewrite IH.
Qed.

Lemma text_exists t : exists ws, text_of ws t.
Proof.
  assert (D : forall c, blank c \/ ~ blank c) by (intro c; unfold blank; lia).
  assert (G : forall t w, Forall (fun c => ~ blank c) w -> exists ws, text_of ws (w ++ t)).
  { clear t. induction t as [|c t IH]; intros w H; [exists [w]; rewrite app_nil_r; now constructor|].
    destruct (D c) as [B|B].
    - destruct (IH [] ltac:(constructor)) as (ws & T). exists (w :: ws). now constructor.
    - replace (w ++ c :: t) with ((w ++ [c]) ++ t) by (now rewrite <- app_assoc). apply IH. apply Forall_app. split; [exact H|]. constructor; [exact B|constructor]. }
  exact (G t [] ltac:(constructor)).
Qed.

Lemma text_iff ws t : text_of ws t <-> Split (map white t) = ws.
Proof.
  split; [apply split_text|]. intros <-. destruct (text_exists t) as (ws & T). now rewrite (split_text _ _ T).
Qed.

Lemma text_words ws t : text_of ws t -> Forall (fun w => len w <= len t) ws.
Proof.
  induction 1 as [w H|w c ws t H Hc _ IH]; [constructor; [lia|constructor]|]. rewrite len_app, len_cons. pose proof (len_nonneg t). pose proof (len_nonneg w).
  constructor; [lia|]. eapply Forall_impl; [|exact IH]. cbn. intros. lia.
Qed.

Lemma name_head w op : opcodesByName w = Some op -> hd 0 w = 79.
Proof.
  intro E. apply by_name_in in E. assert (C : forallb (fun p => hd 0 (snd p) =? 79) all_names = true) by (vm_compute; reflexivity).
  rewrite forallb_forall in C. specialize (C _ E). cbn [snd] in C. lia.
Qed.

Lemma no_name w : hd 0 w <> 79 -> opcodesByName w = None.
Proof. intro H. destruct (opcodesByName w) eqn:E; [|reflexivity]. apply name_head in E. contradiction. Qed.

Lemma number_head w v : number w v -> hd 0 w <> 79 /\ hd 0 w <> 39 /\ hd 0 (tl w) <> 120.
Proof.
  assert (Tail : forall ds u, digits ds u -> Forall (fun c => 48 <= c <= 57) ds).
  { intros ds u D. apply digits_value in D. destruct D as (_ & F & _). apply Forall_forall. intros c I. rewrite forallb_forall in F. specialize (F c I). unfold digit in F. lia. }
  intros [ds u D|ds u D|ds u D]; pose proof (Tail _ _ D) as F; apply digits_head in D; destruct D as (c & r & -> & R); inversion F as [|? ? _ F']; subst; cbn [hd tl].
  - split; [lia|]. split; [lia|]. destruct r as [|c' r']; [discriminate|]. inversion F'; subst. cbn. lia.
  - repeat split; try discriminate; lia.
  - repeat split; try discriminate; lia.
Qed.

Lemma no_number w : hd 0 w = 39 \/ hd 0 (tl w) = 120 -> ParseInt64 w = None.
Proof.
  intro H. destruct (ParseInt64 w) as [v|] eqn:E; [|reflexivity]. apply ParseInt_iff in E. destruct E as [E _]. apply number_head in E. tauto.
Qed.

Lemma no_hex w : hd 0 w = 39 -> exists e, parseHex w = Err e.
Proof. destruct w as [|c w]; [discriminate|]. cbn [hd]. intros ->. eexists. reflexivity. Qed.

Lemma number_push n d e b : - 2 ^ 63 < n < 2 ^ 63 -> bytes_ok d -> num_value d = n -> num_minimal d -> shortest_push d e ->
  exists b', AddInt64 n b = Ok b' /\ Script b' = Script b ++ e.
Proof.
  intros H O V M P. destruct (AddInt64_data n b H) as (v & E & A). destruct (num_bytes_spec n H) as (v' & E' & O' & _ & T & V').
  assert (v' = v) by congruence. subst v'. assert (Q : d = v). { apply tight_inj; auto; [now apply minimal_tight|congruence]. }
  subst v. exists (AddData d b). split; [exact A|]. now apply AddData_of_shortest.
Qed.

Lemma token_complete w e b : means w e -> exists b', load_token w b = Ok (Some b') /\ Script b' = Script b ++ e.
Proof.
  intros [w' op N|w' v d e' Nm R O V M P|h d H|h d e' H NE P]; unfold load_token.
  - apply named_iff in N. rewrite N. eexists. split; reflexivity.
  - rewrite no_name by (apply number_head in Nm; tauto).
    assert (Q : ParseInt64 w' = Some v) by (apply ParseInt_iff; split; [exact Nm|unfold in_int64; lia]). rewrite Q.
    destruct (number_push v d e' b R O V M P) as (b' & A & S). rewrite A. cbn [rbind]. exists b'. split; [reflexivity|exact S].
  - rewrite no_name by discriminate. rewrite no_number by (right; reflexivity). cbn [parseHex]. apply hexes_iff in H. rewrite H.
    eexists. split; reflexivity.
  - rewrite no_name by discriminate. rewrite no_number by (left; reflexivity). destruct (no_hex (39 :: h ++ [39]) eq_refl) as (er & ->).
    assert (NH : h <> []) by (intros ->; inversion H; subst; contradiction). cbn [hd tl].
    replace (2 <? len (39 :: h ++ [39])) with true by (rewrite len_cons, len_app; change (len [39]) with 1; destruct h; [contradiction|]; rewrite len_cons; pose proof (len_nonneg h); lia).
    replace (last (39 :: h ++ [39]) 0) with 39 by (rewrite app_comm_cons, last_last; reflexivity). cbn [Z.eqb Pos.eqb andb].
    rewrite removelast_last. apply hexes_iff in H. rewrite (hex_prefix_ok _ _ H). eexists. split; [reflexivity|]. now apply AddData_of_shortest.
Qed.

Lemma load_complete ws : forall es b, Forall2 means ws es -> exists b', load_loop ws b = Ok (b', true) /\ Script b' = Script b ++ concat es.
Proof.
  induction ws as [|w ws IH]; intros es b H; inversion H as [|? e ? es' M F]; subst.
  - exists b. cbn. rewrite app_nil_r. split; reflexivity.
  - destruct (token_complete w e b M) as (b1 & L & S). destruct (IH es' b1 F) as (b2 & L2 & S2). exists b2. cbn [load_loop concat].
    rewrite L. split; [exact L2|]. rewrite S2, S. now rewrite app_assoc.
Qed.

Lemma token_sound w b b' : len w < 2 ^ 32 -> (forall h, w = 39 :: h ++ [39] -> h <> [] -> exists d, hexes h d) ->
  load_token w b = Ok (Some b') -> exists e, means w e /\ Script b' = Script b ++ e.
Proof.
  intros L Q. unfold load_token. destruct (opcodesByName w) as [op|] eqn:N.
  { intro E. assert (b' = AddOp op b) by congruence. subst b'. exists [op]. split; [constructor; now apply named_iff|reflexivity]. }
  destruct (ParseInt64 w) as [v|] eqn:P.
  { apply ParseInt_iff in P. destruct P as [Nm R]. unfold in_int64 in R. destruct (Z.eq_dec v (- 2 ^ 63)) as [->|NM].
    { intro E. exfalso. unfold AddInt64 in E. rewrite num_min_panics in E. vm_compute in E. discriminate. }
    destruct (AddInt64_data v b ltac:(lia)) as (d & E & A). rewrite A. cbn [rbind]. intro Eb. assert (b' = AddData d b) by congruence. subst b'.
    destruct (num_roundtrip v ltac:(lia)) as (d' & E' & O & V & M & _). assert (d' = d) by congruence. subst d'.
    destruct (num_bytes_spec v ltac:(lia)) as (d' & E'' & _ & Ld & _). assert (d' = d) by congruence. subst d'.
    destruct (AddData_shortest d b O ltac:(lia)) as (e & S & SP). exists e. split; [|exact S]. eapply m_num; eauto; lia. }
  destruct (parseHex w) as [bts|er|] eqn:H.
  { intro E. assert (b' = WriteBytes bts b) by congruence. subst b'. exists bts. split; [|reflexivity].
    destruct w as [|c w1]; [discriminate|]. destruct (Z.eq_dec c 48) as [->|Nc].
    - destruct w1 as [|c1 w2]; [discriminate|]. destruct (Z.eq_dec c1 120) as [->|Nc].
      + constructor. now apply hexes_iff.
      + exfalso. unfold parseHex in H. destruct c1 as [|p|p]; try discriminate. do 7 (destruct p as [p|p|]; try discriminate); congruence.
    - exfalso. unfold parseHex in H. destruct c as [|p|p]; try discriminate. do 6 (destruct p as [p|p|]; try discriminate); congruence. }
  2: discriminate.
  destruct ((2 <? len w) && (hd 0 w =? 39) && (last w 0 =? 39)) eqn:C; [|discriminate].
  intro E. assert (b' = AddData (hex_prefix (removelast (tl w))) b) by congruence. subst b'.
  apply andb_true_iff in C. destruct C as [C C3]. apply andb_true_iff in C. destruct C as [C1 C2].
  destruct w as [|c w1]; [discriminate|]. cbn [hd tl] in *. assert (c = 39) by lia. subst c.
  destruct (snoc_cases w1) as [->|(h & x & ->)]; [discriminate|]. rewrite app_comm_cons, last_last in C3. assert (x = 39) by lia. subst x.
  rewrite removelast_last. assert (NH : h <> []) by (intros ->; discriminate).
  destruct (Q h eq_refl NH) as (d & Hd). pose proof (hexes_ok _ _ Hd) as [Od Ld]. pose proof Hd as Hd'. apply hexes_iff in Hd'. rewrite (hex_prefix_ok _ _ Hd').
  assert (Lh : len d <= len h) by (unfold len; lia). rewrite len_cons, len_app in L. pose proof (len_nonneg (A := Z) [39]).
  destruct (AddData_shortest d b Od ltac:(lia)) as (e & S & SP). exists e. split; [|exact S]. eapply m_data; eauto.
  intros ->. destruct h; [contradiction|cbn in Ld; lia].
Qed.

Lemma token_outcome w b : load_token w b = Panic -> number w (- 2 ^ 63).
Proof.
  unfold load_token. destruct (opcodesByName w); [discriminate|]. destruct (ParseInt64 w) as [v|] eqn:P.
  - apply ParseInt_iff in P. destruct P as [Nm R]. unfold in_int64 in R. destruct (Z.eq_dec v (- 2 ^ 63)) as [->|NM]; [intros _; exact Nm|].
    destruct (AddInt64_data v b ltac:(lia)) as (d & E & A). rewrite A. discriminate.
  - destruct (parseHex w) eqn:H; [discriminate| |].
    + destruct (_ && _); discriminate.
    + intros _. exfalso. unfold parseHex in H. destruct w as [|c w]; [discriminate|]. destruct c as [|p|p]; try discriminate.
      do 6 (destruct p as [p|p|]; try discriminate). destruct w as [|c w]; [discriminate|]. destruct c as [|p|p]; try discriminate.
      do 7 (destruct p as [p|p|]; try discriminate). exact (hex_decode_no_panic w H).
Qed.

Lemma token_no_err w b e : load_token w b <> Err e.
Proof.
  unfold load_token. destruct (opcodesByName w); [discriminate|]. destruct (ParseInt64 w) as [v|] eqn:P.
  - apply ParseInt_iff in P. destruct P as [Nm R]. unfold in_int64 in R. destruct (Z.eq_dec v (- 2 ^ 63)) as [->|NM].
    { vm_compute. discriminate. }
    destruct (AddInt64_data v b ltac:(lia)) as (d & E & A). rewrite A. discriminate.
  - destruct (parseHex w) eqn:H; [discriminate| |discriminate]. destruct (_ && _); discriminate.
Qed.

Lemma load_sound ws : forall b b', Forall (fun w => len w < 2 ^ 32) ws -> (forall h, In (39 :: h ++ [39]) ws -> h <> [] -> exists d, hexes h d) ->
  load_loop ws b = Ok (b', true) -> exists es, Forall2 means ws es /\ Script b' = Script b ++ concat es.
Proof.
  induction ws as [|w ws IH]; intros b b' L Q E; cbn [load_loop] in E.
  - assert (b' = b) by congruence. subst b'. exists []. split; [constructor|]. cbn. now rewrite app_nil_r.
  - inversion L as [|? ? L1 L2]; subst. destruct (load_token w b) as [[b1|]|e|] eqn:T; try discriminate.
    destruct (token_sound w b b1 L1) as (e & M & S); [intros h -> N; apply Q; [now left|exact N]|exact T|].
    destruct (IH b1 b' L2) as (es & F & S2); [intros h I N; apply Q; [now right|exact N]|exact E|].
    exists (e :: es). split; [now constructor|]. cbn [concat]. rewrite S2, S. now rewrite app_assoc.
Qed.

Lemma load_panic ws : forall b, load_loop ws b = Panic -> exists w, In w ws /\ number w (- 2 ^ 63).
Proof.
  induction ws as [|w ws IH]; intros b E; [discriminate|]. cbn [load_loop] in E. destruct (load_token w b) as [[b1|]|e|] eqn:T; try discriminate.
  - destruct (IH b1 E) as (w' & I & N). exists w'. split; [now right|exact N].
  - exists w. split; [now left|]. now apply (token_outcome w b).
Qed.
