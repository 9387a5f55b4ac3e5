(** C112, continued: fields that are not in the answer, and the text of neighbours' hashes. *)
From Verif Require Import GoBase BaseLemmas AsmModel AsmSpec AsmProofs RpcModel RpcSpec RpcProofs RpcProps.
Local Open Scope Z_scope.

(** A field the answer does not have is empty, 0 or nil in the result. *)
Theorem C112_absent_fields : forall Do float_ok x st fs gs v, Do (str_bytes "getblockheader") [PStr x] = Ok (st, JObj fs) -> answers fs (JObj gs) -> GetBlockHeader Do float_ok x = Ok v ->
  (forall n, In n text_fields -> none_of (str_bytes n) gs -> field v (str_bytes n) = Some (VStr [])) /\
  (forall n, In n ("time"%string :: int_fields) -> none_of (str_bytes n) gs -> field v (str_bytes n) = Some (VInt 0)) /\
  (forall n, In n hash_fields -> none_of (str_bytes n) gs -> field v (str_bytes n) = Some (VBytes None)).
Proof.
  intros Do fo x st fs gs v D A E. destruct (header_result _ _ _ _ _ _ D E) as (gs' & A' & F). assert (JObj gs' = JObj gs) by (apply (one_verdict _ _ A); exact A'). assert (gs' = gs) by congruence. subst gs'.
  assert (G : forall n k w, In n (text_fields ++ int_fields ++ "time"%string :: "difficulty"%string :: hash_fields) -> slot empty_header (str_bytes n) = Some (k, w) -> none_of (str_bytes n) gs -> field v (str_bytes n) = Some w).
  { intros n k w I S N. pose proof (fold_slot fo _ _ _ F _ _ _ S) as Q. rewrite (proj2 (last_val_none _ _) N) in Q. rewrite slot_field; [now rewrite Q|]. rewrite (fold_names fo _ _ _ F). now apply plain_names. }
  split; [|split]; intros n I N.
  - apply (G n KStr); [apply in_or_app; now left| |exact N]. cbn in I. repeat (destruct I as [<-|I]; [vm_compute; reflexivity|]). destruct I.
  - destruct I as [<-|I].
    + apply (G "time"%string KUint); [cbn; tauto|vm_compute; reflexivity|exact N].
    + apply (G n KInt); [apply in_or_app; right; apply in_or_app; now left| |exact N]. cbn in I. repeat (destruct I as [<-|I]; [vm_compute; reflexivity|]). destruct I.
  - apply (G n KBytes); [cbn in *; tauto| |exact N]. cbn in I. repeat (destruct I as [<-|I]; [vm_compute; reflexivity|]). destruct I.
Qed.
Print Assumptions C112_absent_fields.

(** Base64 text (RFC 4648): letters, digits, plus and slash, filled up to a multiple of four with at most two equals signs. *)
Definition base64_letter (c : Z) : Prop := 65 <= c <= 90 \/ 97 <= c <= 122 \/ 48 <= c <= 57 \/ c = 43 \/ c = 47.
Definition base64_text (s : bytes) : Prop := exists body pad, s = body ++ pad /\ Forall base64_letter body /\ (pad = [] \/ pad = [61] \/ pad = [61; 61]) /\ (exists k, length s = (4 * k)%nat).
Lemma b64_letter c x : b64 c = Some x -> base64_letter c.
Proof.
  unfold b64, base64_letter. destruct ((65 <=? c) && (c <=? 90))%bool eqn:E1; [lia|]. destruct ((97 <=? c) && (c <=? 122))%bool eqn:E2; [lia|]. destruct ((48 <=? c) && (c <=? 57))%bool eqn:E3; [lia|].
  destruct (c =? 43) eqn:E4; [lia|]. destruct (c =? 47) eqn:E5; [lia|]. discriminate.
Qed.
Lemma loop_text : forall n s b, (length s <= n)%nat -> base64_loop s = Some b -> base64_text s.
Proof.
  induction n as [|n IH]; intros s b L E.
  - destruct s; [|cbn in L; lia]. exists [], []. repeat split; [constructor|now left|exists 0%nat; reflexivity].
  - destruct s as [|a [|b0 [|c [|d r]]]]; try discriminate E.
    + exists [], []. repeat split; [constructor|now left|exists 0%nat; reflexivity].
    + cbn [base64_loop] in E. destruct (b64 a) as [a'|] eqn:Ea; [|discriminate]. destruct (b64 b0) as [b'|] eqn:Eb; [|discriminate]. apply b64_letter in Ea, Eb.
      assert (R0 : len r = 0 -> r = []) by (destruct r; [reflexivity|unfold len; cbn [length]; lia]).
      destruct (b64 c) as [c'|] eqn:Ec.
      * apply b64_letter in Ec. destruct (b64 d) as [d'|] eqn:Ed.
        -- apply b64_letter in Ed. destruct (base64_loop r) as [t|] eqn:Er; [|discriminate]. destruct (IH r t ltac:(cbn in L; lia) Er) as (body & pad & -> & F & P & k & K).
           exists (a :: b0 :: c :: d :: body), pad. repeat split; [|exact P|exists (S k); cbn [length]; lia]. repeat (constructor; [assumption|]). exact F.
        -- destruct ((d =? 61) && (len r =? 0))%bool eqn:Q; [|discriminate]. assert (d = 61) by lia. assert (r = []) by (apply R0; lia). subst.
           exists [a; b0; c], [61]. repeat split; [repeat (constructor; [assumption|]); constructor|tauto|exists 1%nat; reflexivity].
      * destruct ((c =? 61) && (d =? 61) && (len r =? 0))%bool eqn:Q; [|discriminate]. assert (c = 61) by lia. assert (d = 61) by lia. assert (r = []) by (apply R0; lia). subst.
        exists [a; b0], [61; 61]. repeat split; [repeat (constructor; [assumption|]); constructor|tauto|exists 1%nat; reflexivity].
Qed.
(** What is taken for a neighbour's hash is base64 text, apart from line ends. *)
Theorem C112_neighbour_text : forall Do float_ok x st fs gs v, Do (str_bytes "getblockheader") [PStr x] = Ok (st, JObj fs) -> answers fs (JObj gs) -> GetBlockHeader Do float_ok x = Ok v ->
  forall n h, In n hash_fields -> last_of (str_bytes n) gs (JStr h) -> base64_text (filter (fun c => negb ((c =? 10) || (c =? 13))) h).
Proof.
  intros Do fo x st fs gs v D A E n h I L. destruct (header_result _ _ _ _ _ _ D E) as (gs' & A' & F). assert (JObj gs' = JObj gs) by (apply (one_verdict _ _ A); exact A'). assert (gs' = gs) by congruence. subst gs'.
  assert (S : slot empty_header (str_bytes n) = Some (KBytes, zero KBytes)) by (cbn in I; repeat (destruct I as [<-|I]; [vm_compute; reflexivity|]); destruct I).
  destruct (header_field fo gs v n KBytes F ltac:(apply in_or_app; right; apply in_or_app; right; right; right; exact I) S _ L) as (old & w & Q & _). destruct old; try discriminate. cbn [store store_bytes] in Q.
  destruct (base64_decode h) as [b1|] eqn:B; [|discriminate]. unfold base64_decode in B. eapply loop_text; [reflexivity|exact B].
Qed.
Print Assumptions C112_neighbour_text.
Example C112_absent_example : let fs := [(str_bytes "result", answer [("height", n_lit "7"); ("nextblockhash", JStr [65; 65; 61; 61])]%string)] in
  (exists v, GetBlockHeader (fun _ _ => Ok (200, JObj fs)) (fun _ => true) [48] = Ok v /\ field v (str_bytes "nonce") = Some (VInt 0) /\ field v (str_bytes "height") = Some (VInt 7) /\ field v (str_bytes "hash") = Some (VStr []) /\ field v (str_bytes "nextblockhash") = Some (VBytes (Some [0]))) /\
  none_of (str_bytes "nonce") [(str_bytes "height", n_lit "7")] /\ exists e, GetBlockHeader (fun _ _ => Ok (200, JObj [(str_bytes "result", answer [("nextblockhash", JStr [65; 65; 60; 61])]%string)])) (fun _ => true) [48] = Err e.
Proof.
  cbv zeta. split; [eexists; split; [vm_compute; reflexivity|vm_compute; repeat split; reflexivity]|]. split; [|eexists; vm_compute; reflexivity].
  intros k j [E|[]]. assert (k = str_bytes "height") by congruence. subst k. intros S. apply key_eq_iff in S. vm_compute in S. discriminate.
Qed.
