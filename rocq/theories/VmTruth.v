(** The verdict of a script, and the signature opcodes with their VERIFY variants. *)
From Verif Require Import GoBase BaseLemmas BufferModel BufferSpec BufferProofs BufferMore ScriptNumModel ScriptNumSpec ScriptNumProofs
  ScriptModel ScriptSpec ScriptProofs VmModel VmSpec VmProofs VmMore VmSig VmCond VmPanic LockSpec.
From Coq Require Import ZifyBool ZifyNat.

Lemma le_value_nonneg v : bytes_ok v -> 0 <= le_value v.
Proof. induction 1 as [|x v Hx _ IH]; cbn [le_value]; unfold is_byte in *; lia. Qed.
Lemma le_value_0 v : bytes_ok v -> (le_value v = 0 <-> Forall (eq 0) v).
Proof.
  induction 1 as [|x v Hx Hv IH]; cbn [le_value]; [split; auto|]. pose proof (le_value_nonneg v Hv). unfold is_byte in Hx. split.
  - intros E. constructor; [lia|]. apply IH. lia.
  - inversion 1; subst. assert (le_value v = 0) by now apply IH. lia.
Qed.
Lemma asBool_zeros z t : Forall (eq 0) z -> asBool (z ++ t) = asBool t.
Proof. induction 1 as [|x z <- _ IH]; [reflexivity|exact IH]. Qed.

(** Everything but zero is true; zero can be written with any number of zero bytes and with a sign. *)
Lemma asBool_value v : bytes_ok v -> (asBool v = true <-> num_value v <> 0).
Proof.
  intros O. destruct (snoc_cases v) as [->|(x & t & ->)]; [cbn; split; [discriminate|congruence]|].
  apply bytes_ok_app in O. destruct O as [Ox Ot]. assert (Bt : 0 <= t <= 255) by (inversion Ot as [|? ? Hb]; unfold is_byte in Hb; lia).
  assert (N : num_value (x ++ [t]) = if t <? 128 then le_value x + 256 ^ len x * t else - (le_value x + 256 ^ len x * (t - 128))).
  { unfold num_value. rewrite last_last, removelast_last. destruct x; reflexivity. }
  rewrite N. clear N. pose proof (le_value_nonneg x Ox) as Px. assert (P : 0 < 256 ^ len x) by (apply Z.pow_pos_nonneg; [lia|apply len_nonneg]).
  destruct (Z.eq_dec (le_value x) 0) as [Z0|Nz].
  - rewrite Z0. apply le_value_0 in Z0; [|exact Ox]. rewrite asBool_zeros by exact Z0. cbn [asBool].
    destruct (Z.eqb_spec t 0) as [->|Nt]; [split; [discriminate|change (0 <? 128) with true; cbv iota; lia]|].
    destruct (Z.eqb_spec t 128) as [->|N8]; [split; [discriminate|change (128 <? 128) with false; cbv iota; lia]|]. split; [intros _|reflexivity]. destruct (t <? 128) eqn:L; nia.
  - assert (T : asBool (x ++ [t]) = true).
    { clear - Nz Ox. induction x as [|a x IH]; [contradiction|]. apply bytes_ok_cons in Ox. destruct Ox as [Oa Ox]. cbn [app asBool le_value] in *.
      destruct (Z.eqb_spec a 0) as [->|Na]; [apply IH; [exact Ox|lia]|]. destruct (x ++ [t]) eqn:E; [destruct x; discriminate|reflexivity]. }
    rewrite T. split; [intros _|reflexivity]. destruct (t <? 128) eqn:L; nia.
Qed.

Section Run.
Variable H : bytes -> bytes.
Variable hasher : Z -> res bytes.
Variable verifier : bytes -> bytes -> bytes -> res unit.
Hypothesis HO : forall x, bytes_ok (H x) /\ len (H x) <= 2 ^ 48.
Hypothesis Or : oracles_return hasher verifier.
Notation execute := (execute H (Some hasher) (Some verifier)).
Notation step := (step H (Some hasher) (Some verifier)).

Lemma execute_final d st : execute d true st = let! st' := execute d false st in finish true st'.
Proof. unfold VmModel.execute. destruct (exec_loop _ _ _ _ _ _); reflexivity. Qed.

Lemma verdict d st st' : in_memory d -> items_ok (dstack st) ->
  (execute d true st = Ok st' <->
   exists s c, execute d false st = Ok (Vm s c) /\
     match s with [] => st' = Vm [] c | x :: r => num_value x <> 0 /\ st' = Vm r c end).
Proof.
  intros M I. rewrite execute_final.
  destruct (execute_cases H hasher verifier HO Or d false st M I) as [([s c] & E & I')|[(m & E)|[E _]]]; rewrite E; cbn [rbind].
  - cbn [dstack] in I'. destruct s as [|x r].
    + unfold finish. cbn. split; [intros X; injection X as <-; exists [], c; auto|]. intros (s & c' & X & Y). injection X as <- <-. now rewrite Y.
    + assert (F : finish true (Vm (x :: r) c) = if asBool x then Ok (Vm r c) else Err "false.stack.entry.at.end.of.script.execution").
      { unfold finish. cbn [dstack andb cstack]. replace (0 <? len (x :: r)) with true by (rewrite len_cons; pose proof (len_nonneg r); lia). unfold PopBool. rewrite pop_cons. reflexivity. }
      assert (Ox : bytes_ok x) by (inversion I' as [|? ? [? _] _]; assumption). pose proof (asBool_value x Ox) as V. rewrite F.
      destruct (asBool x); split.
      * intros X. injection X as <-. exists (x :: r), c. split; [reflexivity|]. split; [now apply V|reflexivity].
      * intros (s & c' & X & Y). injection X as <- <-. destruct Y as [_ ->]. reflexivity.
      * discriminate.
      * intros (s & c' & X & Y). injection X as <- <-. destruct Y as [Y _]. apply V in Y. discriminate.
  - split; [discriminate|]. intros (s & c & X & _). discriminate.
  - split; [discriminate|]. intros (s & c & X & _). discriminate.
Qed.

End Run.

Section Sig.
Variable H : bytes -> bytes.
Variable hasher : Z -> res bytes.
Variable verifier : bytes -> bytes -> bytes -> res unit.
Notation step := (step H (Some hasher) (Some verifier)).

Lemma empty_invalid key : ~ valid_sig hasher verifier [] key.
Proof. intros (der & ht & h & E & _). destruct der; discriminate. Qed.

Lemma checksig_short op s c : In op [0xac; 0xad] -> (length s < 2)%nat -> skipping c = false -> exists e, step (Instr op []) (Vm s c) = Err e.
Proof.
  intros I L Sk. rewrite step_active by exact Sk. destruct s as [|x [|y s]]; [| |cbn in L; lia]; destruct I as [<-|[<-|[]]]; known; eexists; reflexivity.
Qed.

Hypothesis Or : oracles_return hasher verifier.
Lemma checksig_step key sig s c : skipping c = false ->
  exists b, step (Instr 0xac []) (Vm (key :: sig :: s) c) = Ok (Vm (b :: s) c) /\
    (b = [1] /\ valid_sig hasher verifier sig key \/ b = [] /\ ~ valid_sig hasher verifier sig key).
Proof.
  intros Sk. rewrite step_active by exact Sk. known. unfold opCheckSig, on_stack. cbn [dstack cstack]. rewrite pop_cons. cbn [rbind]. rewrite pop_cons. cbn [rbind].
  destruct sig as [|x sig].
  - exists []. split; [reflexivity|]. right. split; [reflexivity|apply empty_invalid].
  - replace (len (x :: sig) <? 1) with false by (rewrite len_cons; pose proof (len_nonneg sig); lia).
    destruct (verify_sig_dec hasher verifier (x :: sig) key Or ltac:(discriminate)) as [[E V]|[E V]]; rewrite E; cbn [rbind]; eexists; (split; [reflexivity|]); [left|right]; auto.
Qed.
Lemma verify_bool msg b s c : equalVerify msg (Vm (BoolBytes b :: s) c) = if b then Ok (Vm s c) else Err msg.
Proof. unfold equalVerify, on_stack, PopBool. cbn [dstack cstack]. rewrite pop_cons. destruct b; reflexivity. Qed.

Lemma checksigverify_step key sig s c : skipping c = false ->
  step (Instr 0xad []) (Vm (key :: sig :: s) c) = Ok (Vm s c) /\ valid_sig hasher verifier sig key \/
  (exists e, step (Instr 0xad []) (Vm (key :: sig :: s) c) = Err e) /\ ~ valid_sig hasher verifier sig key.
Proof.
  intros Sk. destruct (checksig_step key sig s c Sk) as (b & E & D). rewrite step_active in E by exact Sk. rewrite step_active by exact Sk. revert E. known. intros E.
  unfold opCheckSigVerify. rewrite E. cbn [rbind]. destruct D as [[-> V]|[-> V]].
  - left. split; [exact (verify_bool _ true s c)|exact V].
  - right. split; [|exact V]. eexists. exact (verify_bool _ false s c).
Qed.

Lemma multisigverify_step keys sigs nb mb dummy rest c : skipping c = false ->
  num_item nb (len keys) -> num_item mb (len sigs) -> len sigs <= len keys -> Forall (fun s => s <> []) sigs ->
  let st := Vm (nb :: rev keys ++ mb :: rev sigs ++ dummy :: rest) c in
  step (Instr 0xaf []) st = Ok (Vm rest c) /\ matched (valid_sig hasher verifier) sigs keys \/
  (exists e, step (Instr 0xaf []) st = Err e) /\ ~ matched (valid_sig hasher verifier) sigs keys.
Proof.
  intros Sk Hn Hm L F st. destruct (checkmultisig hasher verifier H keys sigs nb mb dummy rest c Or Sk Hn Hm L F) as (b & E & D). subst st.
  rewrite step_active in E by exact Sk. rewrite step_active by exact Sk. revert E. known. intros E.
  unfold opCheckMultiSigVerify. rewrite E. cbn [rbind]. destruct D as [[-> V]|[-> V]].
  - left. split; [exact (verify_bool _ true rest c)|exact V].
  - right. split; [|exact V]. eexists. exact (verify_bool _ false rest c).
Qed.
End Sig.
