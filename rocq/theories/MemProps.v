(** Property theorems C115 and C116 (slices in memory). *)
From Verif Require Import GoBase BaseLemmas BufferModel Bech32Model ScriptModel LockModel TxModel VmModel MemModel MemSpec MemProofs DerModel DerProofs DerSpec.

(** ** C115: what appending to the caller's slice does *)

(** The library's calls compute what they compute on the contents of the slices, wherever these lie. *)
Theorem C115_embed_value : forall grow sha256 h idx pub sig ht t, wf h sig ->
  snd (EmbedMem grow sha256 h idx pub sig ht t) = EmbedIdxEcdsaSignature sha256 idx pub (read h sig) ht t.
Proof.
  intros grow sha256 h idx pub sig ht t W. unfold EmbedMem, EmbedIdxEcdsaSignature.
  destruct (go_append 0 grow h sig [u8 ht]) as [h' f] eqn:E. destruct (append_spec 0 grow _ _ _ _ _ W E) as (_ & R & _).
  cbn [snd]. rewrite R. reflexivity.
Qed.
Print Assumptions C115_embed_value.
Theorem C115_bech32_value : forall grow h hrp data, wf h data ->
  snd (Bech32EncodeMem grow h hrp data) = Bech32Encode hrp (read h data).
Proof.
  intros grow h hrp data W. unfold Bech32EncodeMem, Bech32Encode.
  destruct (go_append 0 grow h data _) as [h' f] eqn:E. destruct (append_spec 0 grow _ _ _ _ _ W E) as (_ & R & _).
  cbn [snd]. rewrite R. reflexivity.
Qed.
Print Assumptions C115_bech32_value.
Theorem C115_verify_value : forall grow H hs vf h un lock st, wf h un ->
  snd (VerifyMem grow H hs vf h un lock st) = Verify H hs vf (read h un) (read h lock) st.
Proof.
  intros grow H hs vf h un lock st W. unfold VerifyMem, Verify.
  destruct (execute H hs vf (read h un) false st) as [st1|e|]; cbn [rbind]; try reflexivity.
  destruct (go_append 0 grow h un _) as [h' f] eqn:E. destruct (append_spec 0 grow _ _ _ _ _ W E) as (_ & R & _).
  cbn [snd]. rewrite R. reflexivity.
Qed.
Print Assumptions C115_verify_value.

(** Which bytes of the caller change. *)
Theorem C115_embed_effect : forall grow sha256 h idx pub sig ht t, wf h sig ->
  put_behind h (fst (EmbedMem grow sha256 h idx pub sig ht t)) sig [u8 ht].
Proof.
  intros grow sha256 h idx pub sig ht t W. unfold EmbedMem. destruct (go_append 0 grow h sig _) as [h' f] eqn:E.
  exact (append_put_behind 0 grow _ _ _ _ _ W E).
Qed.
Print Assumptions C115_embed_effect.
Theorem C115_bech32_effect : forall grow h hrp data, wf h data ->
  put_behind h (fst (Bech32EncodeMem grow h hrp data)) data (bech32Checksum hrp (read h data)).
Proof.
  intros grow h hrp data W. unfold Bech32EncodeMem. destruct (go_append 0 grow h data _) as [h' f] eqn:E.
  exact (append_put_behind 0 grow _ _ _ _ _ W E).
Qed.
Print Assumptions C115_bech32_effect.
Theorem C115_verify_effect : forall grow H hs vf h un lock st, wf h un ->
  (forall st1, execute H hs vf (read h un) false st = Ok st1 -> put_behind h (fst (VerifyMem grow H hs vf h un lock st)) un (read h lock)) /\
  ((forall st1, execute H hs vf (read h un) false st <> Ok st1) -> fst (VerifyMem grow H hs vf h un lock st) = h).
Proof.
  intros grow H hs vf h un lock st W. unfold VerifyMem. destruct (go_append 0 grow h un _) as [h' f] eqn:E.
  pose proof (append_put_behind 0 grow _ _ _ _ _ W E) as P.
  destruct (execute H hs vf (read h un) false st) as [st1|e|]; cbn [fst]; (split; [intros st2 Q|intros Q]); try reflexivity.
  - exact P.
  - destruct (Q st1). reflexivity.
  - discriminate Q.
  - discriminate Q.
Qed.
Print Assumptions C115_verify_effect.

(** Slices which share nothing with the spare room behind the slice given keep their contents: in particular the slice
    itself.  For Verify this covers the locking script, so a second call gives the same verdict. *)
Theorem C115_others_keep_partial : forall grow h s c, wf h s -> (s_arr c < length h)%nat -> apart s c ->
  (forall sha256 idx pub ht t, read (fst (EmbedMem grow sha256 h idx pub s ht t)) c = read h c) /\
  (forall hrp, read (fst (Bech32EncodeMem grow h hrp s)) c = read h c) /\
  (forall H hs vf lock st, read (fst (VerifyMem grow H hs vf h s lock st)) c = read h c).
Proof.
  intros grow h s c W Lc D. split; [|split].
  - intros sha256 idx pub ht t. exact (put_behind_apart grow _ _ _ _ _ W Lc (C115_embed_effect grow sha256 h idx pub s ht t W) D).
  - intros hrp. exact (put_behind_apart grow _ _ _ _ _ W Lc (C115_bech32_effect grow h hrp s W) D).
  - intros H hs vf lock st. destruct (C115_verify_effect grow H hs vf h s lock st W) as [P1 P2].
    destruct (execute H hs vf (read h s) false st) as [st1|e|] eqn:X.
    + exact (put_behind_apart grow _ _ _ _ _ W Lc (P1 st1 eq_refl) D).
    + rewrite P2 by (intros st1 Q; discriminate Q). reflexivity.
    + rewrite P2 by (intros st1 Q; discriminate Q). reflexivity.
Qed.
Print Assumptions C115_others_keep_partial.

(** A slice without spare room: nothing that existed changes. *)
Theorem C115_full_slice_partial : forall grow h s, wf h s -> s_cap s = s_len s ->
  (forall sha256 idx pub ht t, same_memory h (fst (EmbedMem grow sha256 h idx pub s ht t))) /\
  (forall hrp, same_memory h (fst (Bech32EncodeMem grow h hrp s))) /\
  (forall H hs vf lock st, same_memory h (fst (VerifyMem grow H hs vf h s lock st))).
Proof.
  intros grow h s W F. split; [|split].
  - intros sha256 idx pub ht t. unfold EmbedMem. destruct (go_append 0 grow h s _) as [h' f] eqn:E. exact (append_full 0 grow _ _ _ _ _ W F E).
  - intros hrp. unfold Bech32EncodeMem. destruct (go_append 0 grow h s _) as [h' f] eqn:E. exact (append_full 0 grow _ _ _ _ _ W F E).
  - intros H hs vf lock st. unfold VerifyMem. destruct (execute _ _ _ _ _ _); try (intros a La; reflexivity).
    destruct (go_append 0 grow h s _) as [h' f] eqn:E. exact (append_full 0 grow _ _ _ _ _ W F E).
Qed.
Print Assumptions C115_full_slice_partial.

(** With spare room the caller's bytes are overwritten: of two signatures stored one behind the other, the second one no
    longer verifies, for any key and any hash, once the first one is embedded. *)
Lemma not_a_sequence : forall x r, x mod 256 <> 48 -> is_byte x -> exists e, SigDeserialize (x :: r) = Err e.
Proof.
  intros x r N B. unfold SigDeserialize, unmarshal_sig, parse_field.
  replace (len (x :: r) =? 0) with false by (symmetry; apply Z.eqb_neq; unfold len; cbn [length]; lia).
  cbn [parse_header].
  assert (D : forall y, is_byte y -> y mod 256 <> 48 -> (Z.land y 31 =? 31) = true \/
    negb (Z.shiftr y 6 =? 0) || negb (Z.land y 31 =? 16) || negb (eqb (Z.land y 32 =? 32) true) = true).
  { intros y By Ny. destruct (Z.land y 31 =? 31) eqn:E1; [left; reflexivity|right].
    destruct (Z.shiftr y 6 =? 0) eqn:E2; [|reflexivity]. destruct (Z.land y 31 =? 16) eqn:E3; [|reflexivity].
    destruct (Z.land y 32 =? 32) eqn:E4; [|reflexivity]. exfalso. apply Ny.
    assert (A : forallb (fun i => let y := Z.of_nat i in negb ((Z.shiftr y 6 =? 0) && (Z.land y 31 =? 16) && (Z.land y 32 =? 32)) || (y mod 256 =? 48)) (seq 0 256) = true) by (vm_compute; reflexivity).
    rewrite forallb_forall in A. specialize (A (Z.to_nat y)). unfold is_byte in By.
    rewrite Z2Nat.id in A by lia. cbv zeta in A. rewrite E2, E3, E4 in A. cbn [andb negb orb] in A. apply Z.eqb_eq, A, in_seq. lia. }
  destruct (D x B N) as [E|E].
  - rewrite E. cbn [rbind]. eexists. reflexivity.
  - destruct (Z.land x 31 =? 31); [cbn [rbind]; eexists; reflexivity|].
    destruct r as [|y r]; [cbn [rbind]; eexists; reflexivity|].
    destruct (Z.land y 128 =? 0).
    { cbn [rbind]. rewrite E. eexists. reflexivity. }
    destruct (Z.land y 127 =? 0); [cbn [rbind]; eexists; reflexivity|].
    destruct (parse_length (Z.to_nat (Z.land y 127)) 0 r) as [[l b]|e|] eqn:P; cbn [rbind].
    + destruct (l <? 128); [cbn [rbind]; eexists; reflexivity|]. cbn [rbind]. rewrite E. eexists. reflexivity.
    + eexists. reflexivity.
    + exfalso. revert P. generalize (Z.to_nat (Z.land y 127)), 0. clear. intros n. revert r. induction n as [|n IH]; intros r a.
      * discriminate.
      * cbn [parse_length]. destruct r as [|z r]; [discriminate|]. repeat (destruct (_ <=? _) || destruct (_ =? _) || destruct (_ <? _); try discriminate); apply IH.
Qed.
Theorem C115_signature_lost : forall grow sha256 h idx pub s1 s2 ht t px py hash,
  wf h s1 -> (s_arr s2 < length h)%nat -> follows s1 s2 -> (s_len s1 < s_cap s1)%nat -> ht mod 256 <> 48 ->
  exists e, EcdsaVerify px py hash (read (fst (EmbedMem grow sha256 h idx pub s1 ht t)) s2) = Err e.
Proof.
  intros grow sha256 h idx pub s1 s2 ht t px py hash W L F Sp N.
  destruct (put_behind_follows h _ s1 s2 (u8 ht) [] L (C115_embed_effect grow sha256 h idx pub s1 ht t W) F) as (r & R); [cbn; lia|].
  rewrite R. unfold EcdsaVerify. destruct (not_a_sequence (u8 ht) r) as (e & E).
  - unfold u8. rewrite Z.mod_mod by discriminate. exact N.
  - unfold is_byte, u8. pose proof (Z.mod_pos_bound ht 256 ltac:(reflexivity)). lia.
  - rewrite E. exists e. reflexivity.
Qed.
Print Assumptions C115_signature_lost.

(** Verifying the same two slices twice: rejected (the locking script is OP_0 OP_RETURN, which leaves false), then accepted
    (it has become OP_RETURN OP_RETURN, which do nothing here). *)
Theorem C115_verify_twice_refuted : exists h un lock, wf h un /\ wf h lock /\ forall grow H hs vf,
  exists e st, let (h', r) := VerifyMem grow H hs vf h un lock NewEngine in
    r = Err e /\ snd (VerifyMem grow H hs vf h' un lock NewEngine) = Ok st.
Proof.
  exists [[0x51; 9; 0; 0x6a]], (Slice 0 0 1 4), (Slice 0 2 2 2).
  split; [split; cbn; lia|]. split; [split; cbn; lia|]. intros grow H hs vf.
  eexists; eexists. vm_compute. split; reflexivity.
Qed.
Print Assumptions C115_verify_twice_refuted.
Theorem C115_caller_refuted :
  (exists grow sha256 h idx pub sig ht t, wf h sig /\ ~ same_memory h (fst (EmbedMem grow sha256 h idx pub sig ht t))) /\
  (exists grow h hrp data, wf h data /\ ~ same_memory h (fst (Bech32EncodeMem grow h hrp data))) /\
  (exists grow H hs vf h un lock, wf h un /\ ~ same_memory h (fst (VerifyMem grow H hs vf h un lock NewEngine))).
Proof.
  split; [|split].
  - exists (fun _ _ => 0%nat), (fun b => b), [[1; 2; 3]], 0, [], (Slice 0 0 1 3), 1, NewTransaction.
    split; [split; cbn; lia|]. intros S. specialize (S 0%nat ltac:(cbn; lia)). vm_compute in S. discriminate S.
  - exists (fun _ _ => 0%nat), [[1; 40; 40; 40; 40; 40; 40]], [98; 99], (Slice 0 0 1 7).
    split; [split; cbn; lia|]. intros S. specialize (S 0%nat ltac:(cbn; lia)). vm_compute in S. discriminate S.
  - exists (fun _ _ => 0%nat), (fun b => b), None, None, [[0x51; 0; 0]; [0x51]], (Slice 0 0 1 3), (Slice 1 0 1 1).
    split; [split; cbn; lia|]. intros S. specialize (S 0%nat ltac:(cbn; lia)). vm_compute in S. discriminate S.
Qed.
Print Assumptions C115_caller_refuted.

(** Two signatures in one array, cut out with s[:8] and s[8:]: embedding the first with SIGHASH_ALL turns the second into
    bytes that no longer parse; the same two signatures in arrays of their own are left alone. *)
Example C115_example :
  let sig := [48; 6; 2; 1; 1; 2; 1; 1] in
  let grow := fun _ _ : nat => 5%nat in
  let one := [sig ++ sig] in let two := [sig; sig] in
  read one (Slice 0 8 8 8) = sig /\
  read (fst (EmbedMem grow (fun b => b) one 0 [] (Slice 0 0 8 16) 1 NewTransaction)) (Slice 0 8 8 8) = [1; 6; 2; 1; 1; 2; 1; 1] /\
  fst (EmbedMem grow (fun b => b) two 0 [] (Slice 0 0 8 8) 1 NewTransaction) = two ++ [sig ++ [1; 0; 0; 0; 0; 0]] /\
  SigDeserialize sig = Ok (1, 1) /\ (exists e, SigDeserialize [1; 6; 2; 1; 1; 2; 1; 1] = Err e) /\
  wf one (Slice 0 0 8 16) /\ follows (Slice 0 0 8 16) (Slice 0 8 8 8) /\ wf two (Slice 0 0 8 8) /\ apart (Slice 0 0 8 8) (Slice 1 0 8 8).
Proof.
  cbv zeta. repeat (split; [vm_compute; reflexivity|]). split; [eexists; vm_compute; reflexivity|].
  split; [split; cbn; lia|]. split; [repeat split; cbn; lia|]. split; [split; cbn; lia|]. left. cbn. lia.
Qed.

(** ** C116: the stack saved by Verify *)

(** The stack in memory follows the list model used for the engine. *)
Theorem C116_push : forall grow (h h' : @heap bytes) s s' v, wf h s -> mem_push [] grow h s v = (h', s') ->
  wf h' s' /\ rev (read h' s') = PushByteArray v (rev (read h s)).
Proof.
  intros grow h h' s s' v W E. destruct (append_spec [] grow _ _ _ _ _ W E) as (W' & R & _). split; [exact W'|].
  rewrite R, rev_app_distr. reflexivity.
Qed.
Print Assumptions C116_push.
Theorem C116_nip : forall grow (h h' : @heap bytes) s s' idx r, wf h s -> mem_nipN [] grow h s idx = (h', s', r) ->
  wf h' s' /\
  match nipN idx (rev (read h s)) with
  | Ok (x, l) => r = Ok x /\ rev (read h' s') = l
  | Err e => r = Err e /\ h' = h /\ s' = s
  | Panic => False
  end.
Proof.
  intros grow h h' s s' idx r W E. pose proof (read_length h s W) as RL.
  assert (D : disj s empty_slice) by (right; right; reflexivity). assert (We : wf h empty_slice) by (split; cbn; lia).
  destruct (mem_op_spec [] grow h h' s s' empty_slice (ONip idx) W We D) as (W' & _ & _ & _ & R).
  { cbn [mem_op]. rewrite E. reflexivity. }
  split; [exact W'|]. unfold mem_nipN in E. unfold nipN. cbn [list_op] in R. unfold len. rewrite rev_length, RL in *.
  destruct (Z.ltb_spec idx 0); cbn [orb] in *.
  { injection E as <- <- <-. auto. }
  destruct (Z.ltb_spec (Z.of_nat (s_len s) - idx - 1) 0).
  { injection E as <- <- <-. auto. }
  injection E as _ <-. destruct (Z.leb_spec 0 idx); [|lia]. destruct (Z.ltb_spec idx (Z.of_nat (s_len s))); [|lia]. cbn [andb] in R.
  assert (I : index (rev (read h s)) idx = index (read h s) (Z.of_nat (s_len s) - idx - 1)).
  { unfold index. destruct (Z.ltb_spec idx 0); [lia|]. destruct (Z.ltb_spec (Z.of_nat (s_len s) - idx - 1) 0); [lia|].
    rewrite !(nth_error_nth' _ (@nil Z)) by (rewrite ?rev_length; lia). rewrite rev_nth by lia. f_equal. f_equal. lia. }
  rewrite I. unfold index. destruct (Z.ltb_spec (Z.of_nat (s_len s) - idx - 1) 0); [lia|].
  rewrite (nth_error_nth' _ (@nil Z)) by lia. cbn [rbind]. split; [reflexivity|]. rewrite R. f_equal. f_equal. lia.
Qed.
Print Assumptions C116_nip.

(** A copy and its original, both used afterwards in any order, behave like two separate lists. *)
Theorem C116_copy_independent : forall A (zero : A) grow h s h1 c os h2 s2 c2, wf h s ->
  mem_copy zero grow h s = (h1, c) -> mem_ops zero grow h1 s c os = (h2, s2, c2) ->
  rev (read h2 s2) = fold_left list_op (to_first os) (rev (read h s)) /\
  rev (read h2 c2) = fold_left list_op (to_second os) (rev (read h s)).
Proof.
  intros A zero grow h s h1 c os h2 s2 c2 W C O. destruct (mem_copy_spec zero grow _ _ _ _ W C) as (W1 & Wc & D & R1 & R2).
  destruct (mem_ops_spec zero grow os _ _ _ _ _ _ W1 Wc D O) as [P1 P2]. rewrite R1 in P1. rewrite R2 in P2. split; assumption.
Qed.
Print Assumptions C116_copy_independent.

(** What Verify relies on: the stack saved before the second run is the one read after it, whatever that run did. *)
Theorem C116_saved_stack : forall A (zero : A) grow h s h1 c os h2 s2 c2, wf h s ->
  mem_copy zero grow h s = (h1, c) -> mem_ops zero grow h1 s c (map (pair true) (OClean :: os)) = (h2, s2, c2) ->
  c2 = c /\ read h2 c = read h s /\ rev (read h2 s2) = fold_left list_op os [].
Proof.
  intros A zero grow h s h1 c os h2 s2 c2 W C O.
  assert (F : forall os : list (@stack_op A), to_first (map (pair true) os) = os) by (intros l; induction l as [|o l IH]; [reflexivity|unfold to_first in *; cbn; rewrite IH; reflexivity]).
  assert (S : forall os : list (@stack_op A), to_second (map (pair true) os) = []) by (intros l; induction l as [|o l IH]; [reflexivity|exact IH]).
  assert (E : c2 = c).
  { revert O. generalize (OClean :: os). clear. intros os. revert h1 s. induction os as [|o os IH]; intros h1 s O; [cbn in O; injection O as _ _ <-; reflexivity|].
    cbn in O. destruct (mem_op zero grow h1 s o) as [h' s']. exact (IH _ _ O). }
  destruct (C116_copy_independent A zero grow h s h1 c _ h2 s2 c2 W C O) as [P1 P2]. rewrite F in P1. rewrite S in P2. cbn in P1, P2.
  split; [exact E|]. split; [|exact P1]. rewrite <- E. rewrite <- (rev_involutive (read h2 c2)), P2. apply rev_involutive.
Qed.
Print Assumptions C116_saved_stack.

(** Had Copy kept the array (copy.stk = s.stk), the second run would overwrite the saved items. *)
Example C116_example :
  let grow := fun c n : nat => c in
  let h := [[[1]; [2]; [3]; []]] in let s := Slice 0 0 3 4 in
  let os := map (pair true) [OClean; OPush [7]; OPush [8]; ONip 1] in
  wf h s /\
  (let (h1, c) := mem_copy [] grow h s in
   let '(h2, s2, c2) := mem_ops [] grow h1 s c os in
   read h2 c2 = [[1]; [2]; [3]] /\ read h2 s2 = [[8]]) /\
  (let '(h2, s2, c2) := mem_ops [] grow h s s os in read h2 c2 = [[8]; [8]; [3]]).
Proof. cbv zeta. split; [split; cbn; lia|]. split; vm_compute; [split|]; reflexivity. Qed.
