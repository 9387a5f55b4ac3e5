(** Proofs about the engine with tracing. *)
From Verif Require Import GoBase BaseLemmas BufferModel BufferSpec BufferProofs BufferMore ScriptNumModel ScriptNumSpec ScriptModel ScriptSpec ScriptProofs HexModel HexProofs
  Bip39Model AsmModel AsmSpec AsmProofs AsmProps VmModel VmSpec VmProofs VmMore VmSig VmPanic TraceModel TraceSpec.
From Coq Require Import ZifyBool ZifyNat.

Lemma Remaining_rbuf pre rest : fits pre rest -> Remaining (rbuf pre rest) = Ok rest.
Proof.
  intros F. unfold fits, len in F. rewrite app_length in F. unfold Remaining, rbuf. cbn [bseek blength bdata]. unfold len. rewrite app_length.
  unfold make_ok. replace ((0 <=? _) && _) with true by (symmetry; apply andb_true_iff; lia).
  unfold slice, len. rewrite app_length. replace (_ && _ && _) with true by (symmetry; rewrite !andb_true_iff; lia).
  f_equal. rewrite Nat2Z.id, skipn_app, skipn_all, Nat.sub_diag. cbn [app skipn]. apply firstn_all2. lia.
Qed.

Lemma fits_memory pre rest : fits pre rest -> bytes_ok rest -> in_memory rest.
Proof. unfold fits, in_memory, len. rewrite app_length. intros F O. split; [exact O|lia]. Qed.

Lemma disasm_total et d : in_memory d -> exists t, DisasmString et d = Ok t.
Proof. intros M. unfold DisasmString. pose proof (parse_total d M). destruct (AllInstructions d); [eauto|eauto|congruence]. Qed.
Lemma disasm_of et is d : in_memory d -> script_of is d -> DisasmString et d = Ok (Join (flat_map instr_words is)).
Proof. intros M S. unfold DisasmString. rewrite (all_of is d M S). reflexivity. Qed.

Section Any.
Variable Hash160 : bytes -> bytes.
Variable sigHasher : option (Z -> res bytes).
Variable sigVerifier : option (bytes -> bytes -> bytes -> res unit).
Variable et : string -> bytes.
Notation exec_loop := (exec_loop Hash160 sigHasher sigVerifier).
Notation trace_loop := (trace_loop Hash160 sigHasher sigVerifier et).

Lemma trace_loop_verdict debug final fuel : forall pre rest st pc ts, fits pre rest -> bytes_ok rest ->
  fst (fst (trace_loop debug fuel final (rbuf pre rest) st pc ts)) = exec_loop fuel (rbuf pre rest) st.
Proof.
  induction fuel as [|f IH]; intros pre rest st pc ts F O; [reflexivity|]. cbn [TraceModel.trace_loop VmModel.exec_loop].
  destruct (next_any pre rest F O) as [[-> R]|[(i & e & t & -> & He & R)|(m & b & R)]]; rewrite R; try reflexivity.
  apply bytes_ok_app in O. destruct O as [Oe Ot]. pose proof (fits_shift _ _ _ F) as F'.
  destruct (step Hash160 sigHasher sigVerifier i st) as [st'|x|]; cbn [rbind]; try reflexivity.
  destruct (debug && final); [|apply IH; assumption].
  unfold DisasmRemaining. rewrite (Remaining_rbuf _ _ F'). cbn [rbind]. destruct (disasm_total et t (fits_memory _ _ F' Ot)) as (w & ->).
  apply IH; assumption.
Qed.
Lemma trace_loop_quiet debug final fuel : debug && final = false -> forall b st pc ts, snd (trace_loop debug fuel final b st pc ts) = ts.
Proof.
  intros Q. induction fuel as [|f IH]; intros b st pc ts; [reflexivity|]. cbn [TraceModel.trace_loop].
  destruct (NextInstruction b) as [[[i|]| |] b']; try reflexivity. destruct (step _ _ _ _ _); try reflexivity. rewrite Q. apply IH.
Qed.

Lemma execute_traced_verdict debug d final st pc ts : in_memory d ->
  fst (fst (execute_traced Hash160 sigHasher sigVerifier et debug d final st pc ts)) = execute Hash160 sigHasher sigVerifier d final st.
Proof.
  intros [O L]. unfold execute_traced, execute. rewrite NewBufferReader_rbuf.
  pose proof (trace_loop_verdict debug final (S (length d)) [] d st pc ts L O) as V.
  destruct (trace_loop debug _ final _ st pc ts) as [[r pc'] ts']. cbn [fst] in *. now rewrite V.
Qed.
Lemma execute_traced_quiet debug d final st pc ts : debug && final = false ->
  snd (execute_traced Hash160 sigHasher sigVerifier et debug d final st pc ts) = ts.
Proof.
  intros Q. unfold execute_traced. pose proof (trace_loop_quiet debug final (S (length d)) Q (NewBufferReader d) st pc ts) as V.
  destruct (trace_loop debug _ final _ st pc ts) as [[r pc'] ts']. exact V.
Qed.
End Any.

(** The texts. *)
Lemma lower n : 0 <= n < 16 -> lower_hex (toHexChar n).
Proof. unfold toHexChar, lower_hex. destruct (n <? 10) eqn:E; lia. Qed.
Lemma hex_lower d : bytes_ok d -> Forall lower_hex (hex_encode d).
Proof.
  induction 1 as [|v d H _ IH]; [constructor|]. destruct (nibbles v H) as (A & B & _). cbn. constructor; [now apply lower|]. constructor; [now apply lower|exact IH].
Qed.
Lemma item_string_text x : bytes_ok x -> item_text x (item_string x).
Proof.
  intros O. unfold item_string. destruct x as [|y x]; [constructor|]. apply it_hex; [discriminate| |now apply hex_lower].
  apply hexes_iff. now apply hex_decode_encode.
Qed.
Lemma StackString_text s : Forall bytes_ok s -> stack_text s (StackString s).
Proof.
  induction 1 as [|x s Ox Os IH]; [apply st_none|]. unfold StackString. cbn [app rev map]. rewrite map_app, concat_app. cbn [map concat]. rewrite app_nil_r.
  destruct s as [|y s]; [cbn [rev map concat app]; apply st_one; now apply item_string_text|].
  apply st_more; [discriminate|exact IH|now apply item_string_text].
Qed.

(** Reading a stack back from its text. *)
Lemma item_end x t : item_text x t -> exists u, t = u ++ [62; 32] /\ ~ In 62 u /\ u <> [].
Proof.
  intros [|y w N H L].
  - exists (str_bytes " <empty"). split; [reflexivity|]. split; [vm_compute; intuition discriminate|discriminate].
  - exists (str_bytes " <" ++ w). split; [now rewrite <- app_assoc|]. split; [|discriminate]. intros I. apply in_app_iff in I. destruct I as [I|I].
    + vm_compute in I. intuition discriminate.
    + rewrite Forall_forall in L. specialize (L _ I). unfold lower_hex in L. lia.
Qed.
Lemma item_inj x y t : item_text x t -> item_text y t -> x = y.
Proof.
  assert (E : forall w x, x <> [] -> hexes w x -> Forall lower_hex w -> w ++ [62; 32] = [101; 109; 112; 116; 121; 62; 32] -> False).
  { intros w z N H L Q. change [101; 109; 112; 116; 121; 62; 32] with ([101; 109; 112; 116; 121] ++ [62; 32]) in Q. apply app_inv_tail in Q.
    subst w. inversion L as [|? ? A B]; subst. inversion B as [|? ? C D]; subst. unfold lower_hex in C. lia. }
  intros H1 H2. inversion H1 as [Ex Et|x' w N H L Ex Et]; subst.
  - inversion H2 as [Ey Et|y' w N H L Ey Et]; subst; [reflexivity|]. exfalso. first [exact (E w y N H L Et)|exact (E w y N H L (eq_sym Et))].
  - inversion H2 as [Ey Et|y' w' N' H' L' Ey Et]; subst; [exfalso; first [exact (E w x N H L Et)|exact (E w x N H L (eq_sym Et))]|].
    apply app_inv_tail in Et. subst w'. apply hexes_iff in H, H'. congruence.
Qed.
Lemma app_unique_end (u v r s : bytes) : ~ In 62 u -> ~ In 62 v -> u ++ 62 :: r = v ++ 62 :: s -> u = v /\ r = s.
Proof.
  revert v. induction u as [|a u IH]; intros [|b v] Nu Nv E; cbn in E.
  - split; [reflexivity|]. congruence.
  - exfalso. apply Nv. left. congruence.
  - exfalso. apply Nu. left. congruence.
  - injection E as -> E. destruct (IH v) as [-> ->]; [firstorder|firstorder|exact E|split; reflexivity].
Qed.
(** The text of a non-empty stack, bottom first. *)
Inductive texts : list bytes -> bytes -> Prop :=
| tx_one x t : item_text x t -> texts [x] t
| tx_more x s t u : item_text x u -> texts s t -> texts (x :: s) (u ++ t).
Lemma texts_snoc l t x u : texts l t -> item_text x u -> texts (l ++ [x]) (t ++ u).
Proof.
  induction 1 as [y t H|y l t w H _ IH]; intros U; cbn [app].
  - apply tx_more; [exact H|]. now constructor.
  - rewrite <- app_assoc. apply tx_more; [exact H|]. now apply IH.
Qed.
Lemma stack_texts s t : s <> [] -> stack_text s t -> texts (rev s) t.
Proof.
  intros N H. induction H as [|x t H|x s t u Ns H IH U]; [congruence|now constructor|]. cbn [rev]. apply texts_snoc; [now apply IH|exact U].
Qed.
Lemma texts_inj l : forall m t, texts l t -> texts m t -> l = m.
Proof.
  assert (NE : forall l t, texts l t -> t <> []).
  { intros k t H. destruct H as [x t H|x s t u H _]; destruct (item_end _ _ H) as (w & -> & _ & W); destruct w; try congruence; discriminate. }
  induction l as [|x l IH]; intros m t Hl Hm; [inversion Hl|].
  destruct m as [|y m]; [inversion Hm|].
  inversion Hl as [? ? I|? ? t1 u1 I1 R1]; subst; inversion Hm as [? ? J|? ? t2 u2 I2 R2]; subst.
  - f_equal. exact (item_inj _ _ _ I J).
  - exfalso. destruct (item_end _ _ I) as (w & E & W & _). destruct (item_end _ _ I2) as (w2 & -> & W2 & _).
    rewrite <- app_assoc in E. cbn [app] in E. apply app_unique_end in E; [|assumption..]. destruct E as [_ E].
    assert (t2 = []) by congruence. exact (NE _ _ R2 H).
  - exfalso. destruct (item_end _ _ J) as (w & E & W & _). destruct (item_end _ _ I1) as (w2 & -> & W2 & _).
    rewrite <- app_assoc in E. cbn [app] in E. apply app_unique_end in E; [|assumption..]. destruct E as [_ E].
    assert (t1 = []) by congruence. exact (NE _ _ R1 H).
  - rename H1 into E. symmetry in E. destruct (item_end _ _ I1) as (w1 & E1 & W1 & _). destruct (item_end _ _ I2) as (w2 & E2 & W2 & _).
    rewrite E1, E2, <- !app_assoc in E. cbn [app] in E. apply app_unique_end in E; [|assumption..]. destruct E as [Ew E].
    assert (Et : t1 = t2) by congruence. subst t2. assert (Eu : u2 = u1) by congruence. rewrite Eu in I2.
    f_equal; [exact (item_inj _ _ _ I1 I2)|exact (IH _ _ R1 R2)].
Qed.
Lemma stack_text_inj s s' t : s <> [] -> s' <> [] -> stack_text s t -> stack_text s' t -> s = s'.
Proof.
  intros N N' H H'. rewrite <- (rev_involutive s), <- (rev_involutive s'). f_equal. eapply texts_inj; eapply stack_texts; eassumption.
Qed.

Section Rows.
Variable H : bytes -> bytes.
Variable hasher : Z -> res bytes.
Variable verifier : bytes -> bytes -> bytes -> res unit.
Hypothesis HO : forall x, bytes_ok (H x) /\ len (H x) <= 2 ^ 48.
Hypothesis Or : oracles_return hasher verifier.
Variable et : string -> bytes.
Notation step := (step H (Some hasher) (Some verifier)).
Notation trace_loop := (trace_loop H (Some hasher) (Some verifier) et).

Lemma op_name_plain op : In op known_ops -> op_name op <> str_bytes "OP_FALSE" /\ op_name op <> str_bytes "OP_TRUE".
Proof.
  intros I. assert (C : forallb (fun op => negb (list_Z_eqb (op_name op) (str_bytes "OP_FALSE")) && negb (list_Z_eqb (op_name op) (str_bytes "OP_TRUE"))) known_ops = true) by (vm_compute; reflexivity).
  rewrite forallb_forall in C. specialize (C op I). apply andb_true_iff in C. destruct C as [C1 C2].
  split; intros E; rewrite E in *; [vm_compute in C1; discriminate|vm_compute in C2; discriminate].
Qed.

Lemma trace_loop_rows is d : script_of is d -> bytes_ok d -> forall fuel pre st pc ts, fits pre d -> (length d < fuel)%nat -> items_ok (dstack st) ->
  0 <= pc -> pc + len d + 1 < 2 ^ 64 ->
  exists rs, snd (trace_loop true fuel true (rbuf pre d) st pc ts) = ts ++ rs /\ rows step is st (pc + 1) rs /\
    snd (fst (trace_loop true fuel true (rbuf pre d) st pc ts)) = pc + len rs + 1.
Proof.
  induction 1 as [|i e is d He Hs IH]; intros O fuel pre st pc ts F L I P0 P1; (destruct fuel as [|fuel]; [lia|]); cbn [TraceModel.trace_loop].
  - unfold NextInstruction. rewrite End_rbuf. exists []. rewrite app_nil_r. split; [reflexivity|]. split; [constructor|]. cbn [fst snd].
    unfold len in *. cbn [length] in *. unfold u64. rewrite Z.mod_small; lia.
  - apply bytes_ok_app in O. destruct O as [Oe Od]. rewrite (next_app pre i e d He Oe F). pose proof (fits_shift _ _ _ F) as F'.
    assert (Ne : (0 < length e)%nat) by (pose proof (encodes_nonempty _ _ He); destruct e; [congruence|cbn; lia]).
    assert (Epc : u64 (pc + 1) = pc + 1) by (unfold u64; apply Z.mod_small; unfold len in P1; rewrite app_length in P1; lia). rewrite Epc.
    assert (Le : len e <= 2 ^ 48) by (unfold fits, len in *; rewrite !app_length in F; lia).
    destruct st as [s c]. cbn [dstack] in I.
    destruct (step_cases H hasher verifier HO Or i e s c He Oe Le I) as [(s' & c' & E & I' & _)|[(m & E & _)|(E & _)]]; rewrite E.
    + cbn [dstack andb]. unfold DisasmRemaining. rewrite (Remaining_rbuf _ _ F'). cbn [rbind]. rewrite (disasm_of et is d (fits_memory _ _ F' Od) Hs).
      set (row := Trace _ _ _ _).
      destruct (IH Od fuel (pre ++ e) (Vm s' c') (pc + 1) (ts ++ [row]) F') as (rs & R1 & R2 & R3); [rewrite app_length in L; lia|exact I'|lia|unfold len in *; rewrite app_length in P1; lia|].
      exists (row :: rs). split; [rewrite R1, <- app_assoc; reflexivity|]. split.
      * pose proof (AsmProps.encodes_known _ _ He) as K. destruct (op_name_facts _ K) as (Nm & _). destruct (op_name_plain _ K) as [N1 N2].
        unfold row. eapply r_row; [exact E|exact Nm|exact N1|exact N2| |exact R2].
        cbn [dstack]. apply StackString_text. eapply items_bytes. exact I'.
      * rewrite R3. unfold len. cbn [length]. lia.
    + exists []. rewrite app_nil_r. split; [reflexivity|]. split; [apply r_fail; intros st'; congruence|]. cbn [fst snd]. unfold len. cbn [length]. lia.
    + exists []. rewrite app_nil_r. split; [reflexivity|]. split; [apply r_fail; intros st'; congruence|]. cbn [fst snd]. unfold len. cbn [length]. lia.
Qed.

Lemma execute_rows is d st pc ts : in_memory d -> script_of is d -> items_ok (dstack st) -> 0 <= pc < 2 ^ 63 ->
  exists rs, snd (execute_traced H (Some hasher) (Some verifier) et true d true st pc ts) = ts ++ rs /\ rows step is st (pc + 1) rs /\
    snd (fst (execute_traced H (Some hasher) (Some verifier) et true d true st pc ts)) = pc + len rs + 1.
Proof.
  intros [O L] S I P. unfold execute_traced. rewrite NewBufferReader_rbuf.
  destruct (trace_loop_rows is d S O (Datatypes.S (length d)) [] st pc ts L ltac:(lia) I ltac:(lia) ltac:(lia)) as (rs & R1 & R2 & R3).
  destruct (trace_loop true _ true _ st pc ts) as [[r pc'] ts']. cbn [fst snd] in *. exists rs. auto.
Qed.
End Rows.
