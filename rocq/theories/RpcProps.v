(** C111, C112: the answers of a node. *)
From Verif Require Import GoBase BaseLemmas AsmModel AsmSpec AsmProofs RpcModel RpcSpec RpcProofs.
Local Open Scope Z_scope.

(** C111: GetBlockCount and GetBlockHash return [n] exactly when the answer is an object whose result is [n] ... *)
Theorem C111_count : forall Do st fs, Do (str_bytes "getblockcount") [] = Ok (st, JObj fs) ->
  forall n, GetBlockCount Do = Ok n <-> exists lit, answers fs (JNum lit) /\ int_literal lit n.
Proof.
  intros Do st fs D n. unfold GetBlockCount. destruct (call_object _ _ _ _ _ D) as [(j & r & C & -> & R)|[(r & C & -> & R)|(e & C & ->)]]; cbn [rbind].
  - rewrite R. cbn [deref rbind]. pose proof (one_verdict _ _ C) as (_ & _ & U). split.
    + intros E. destruct j; cbn [store_int] in E; try discriminate; [destruct C as (_ & _ & _ & N); contradiction|].
      destruct (ParseInt64 lit) as [v|] eqn:P; [|discriminate]. assert (v = n) by congruence. subst v. exists lit. split; [exact C|]. now apply ParseInt_iff in P.
    + intros (lit & C' & I). rewrite <- (U _ C'). cbn [store_int]. apply ParseInt_iff in I. now rewrite I.
  - rewrite R. cbn [deref rbind]. split; [discriminate|]. intros (lit & C' & _). elim (proj2 (nothing_verdict _ C) _ C').
  - split; [discriminate|]. intros (lit & C' & _). elim (proj1 (proj2 (one_verdict _ _ C')) C).
Qed.
Print Assumptions C111_count.
Theorem C111_hash : forall Do h st fs, Do (str_bytes "getblockhash") [PInt h] = Ok (st, JObj fs) ->
  forall s, GetBlockHash Do h = Ok s <-> answers fs (JStr s).
Proof.
  intros Do h st fs D s. unfold GetBlockHash. destruct (call_object _ _ _ _ _ D) as [(j & r & C & -> & R)|[(r & C & -> & R)|(e & C & ->)]]; cbn [rbind].
  - rewrite R. cbn [deref rbind]. pose proof (one_verdict _ _ C) as (_ & _ & U). split.
    + intros E. destruct j; cbn [store_string] in E; try discriminate; [destruct C as (_ & _ & _ & N); contradiction|]. assert (s0 = s) by congruence. now subst.
    + intros C'. rewrite <- (U _ C'). reflexivity.
  - rewrite R. cbn [deref rbind]. split; [discriminate|]. intros C'. elim (proj2 (nothing_verdict _ C) _ C').
  - split; [discriminate|]. intros C'. elim (proj1 (proj2 (one_verdict _ _ C')) C).
Qed.
Print Assumptions C111_hash.

(** ... and the client panics exactly when the answer has neither an error nor a result. *)
Theorem C111_no_panic_partial : forall Do float_ok h x st fs,
  Do (str_bytes "getblockcount") [] = Ok (st, JObj fs) -> Do (str_bytes "getblockhash") [PInt h] = Ok (st, JObj fs) -> Do (str_bytes "getblockheader") [PStr x] = Ok (st, JObj fs) ->
  (GetBlockCount Do = Panic <-> says_nothing fs) /\ (GetBlockHash Do h = Panic <-> says_nothing fs) /\ (GetBlockHeader Do float_ok x = Panic <-> says_nothing fs).
Proof.
  intros Do fo h x st fs D1 D2 D3. unfold GetBlockCount, GetBlockHash, GetBlockHeader. split; [|split].
  - destruct (call_object _ _ _ _ _ D1) as [(j & r & C & -> & R)|[(r & C & -> & R)|(e & C & ->)]]; cbn [rbind]; try rewrite R; cbn [deref rbind].
    + split; [|intros S; elim (proj1 (one_verdict _ _ C) S)]. intros E. exfalso. destruct (store_int_ok j 0) as [(_ & v & Q)|(_ & e & Q)]; congruence.
    + split; auto.
    + split; [discriminate|]. intros S. elim (proj1 (nothing_verdict _ S) C).
  - destruct (call_object _ _ _ _ _ D2) as [(j & r & C & -> & R)|[(r & C & -> & R)|(e & C & ->)]]; cbn [rbind]; try rewrite R; cbn [deref rbind].
    + split; [|intros S; elim (proj1 (one_verdict _ _ C) S)]. intros E. exfalso. destruct (store_string_ok j []) as [(_ & v & Q)|(_ & e & Q)]; congruence.
    + split; auto.
    + split; [discriminate|]. intros S. elim (proj1 (nothing_verdict _ S) C).
  - destruct (call_object _ _ _ _ _ D3) as [(j & r & C & -> & R)|[(r & C & -> & R)|(e & C & ->)]]; cbn [rbind]; try rewrite R; cbn [deref rbind].
    + split; [|intros S; elim (proj1 (one_verdict _ _ C) S)]. intros E. exfalso. unfold decode_struct in E. destruct j; try discriminate. now apply fold_no_panic in E.
    + split; auto.
    + split; [discriminate|]. intros S. elim (proj1 (nothing_verdict _ S) C).
Qed.
Print Assumptions C111_no_panic_partial.
Definition n_lit (s : string) : json := JNum (str_bytes s).
Definition answer (fs : list (string * json)) : json := JObj (map (fun f => (str_bytes (fst f), snd f)) fs).
(** The answers null, {} and {"result":null,"error":null,"id":0}. *)
Theorem C111_no_panic_refuted : forall j, In j [JNull; answer []; answer [("result", JNull); ("error", JNull); ("id", n_lit "0")]%string] ->
  forall st float_ok h x, let Do := fun _ _ => Ok (st, j) in GetBlockCount Do = Panic /\ GetBlockHash Do h = Panic /\ GetBlockHeader Do float_ok x = Panic.
Proof. intros j [<-|[<-|[<-|[]]]] st fo h x; repeat split; vm_compute; reflexivity. Qed.
Print Assumptions C111_no_panic_refuted.
(** The answer to another request, with an error status, is taken as the answer to this one. *)
Theorem C111_own_answer_refuted : forall st i n lit, digits i n -> n < 2 ^ 64 -> forall v, int_literal lit v ->
  GetBlockCount (fun _ _ => Ok (st, answer [("id", JNum i); ("result", JNum lit)]%string)) = Ok v.
Proof.
  intros st i n lit I N v L. set (Do := fun _ _ => _). apply (C111_count Do st _ eq_refl). exists lit. split; [|exact L].
  split; [|split; [|split]]; [| | |discriminate].
  - intros k j [E|[E|[]]].
    + assert (k = str_bytes "id" /\ j = JNum i) as [-> ->] by (cbn [fst snd map] in E; split; congruence). split; [intros _; right; exists i, n; auto|]. intros S. apply key_eq_iff in S. vm_compute in S. discriminate.
    + assert (k = str_bytes "result" /\ j = JNum lit) as [-> ->] by (cbn [fst snd map] in E; split; congruence). split; intros S; apply key_eq_iff in S; vm_compute in S; discriminate.
  - left. intros k j [E|[E|[]]] S; apply key_eq_iff in S; cbn [fst snd map] in E; [assert (k = str_bytes "id") by congruence|assert (k = str_bytes "result") by congruence]; subst k; vm_compute in S; discriminate.
  - exists [(str_bytes "id", JNum i)], (str_bytes "result"), []. split; [reflexivity|]. split; [now apply key_eq_iff|intros k' j' []].
Qed.
Print Assumptions C111_own_answer_refuted.
Example C111_example :
  GetBlockCount (fun _ _ => Ok (200, answer [("Result", n_lit "7"); ("id", n_lit "0"); ("error", JNull); ("result", n_lit "600000")]%string)) = Ok 600000 /\
  GetBlockCount (fun _ _ => Ok (200, answer [("result", n_lit "1e3")]%string)) = mismatch /\
  GetBlockCount (fun _ _ => Ok (500, answer [("result", n_lit "1"); ("error", answer [("code", n_lit "-8")]%string)]%string)) = Err "resp.Error" /\
  GetBlockHash (fun _ p => match p with [PInt 1] => Ok (200, answer [("result", JStr [48; 49])]%string) | _ => Err "" end) 1 = Ok [48; 49] /\
  GetBlockCount (fun _ _ => Ok (503, answer [("id", n_lit "42"); ("result", n_lit "5")]%string)) = Ok 5.
Proof. repeat split; vm_compute; reflexivity. Qed.

(** C112: every text and number of the header is the one in the answer ... *)
Definition text_fields : list string := ["hash"; "versionHex"; "merkleroot"; "bits"; "chainwork"]%string.
Definition int_fields : list string := ["confirmations"; "height"; "version"; "mediantime"; "nonce"]%string.
Definition hash_fields : list string := ["previousblockhash"; "nextblockhash"]%string.
Lemma plain_names n : In n (text_fields ++ int_fields ++ "time"%string :: "difficulty"%string :: hash_fields) ->
  forall m, In m (map (fun x => fst (fst x)) empty_header) -> key_eq (str_bytes n) m = list_Z_eqb m (str_bytes n).
Proof.
  intros I. cbn in I. repeat (destruct I as [<-|I]; [intros m J; cbn in J; repeat (destruct J as [<-|J]; [vm_compute; reflexivity|]); destruct J|]). destruct I.
Qed.
Lemma header_result Do float_ok x st fs v : Do (str_bytes "getblockheader") [PStr x] = Ok (st, JObj fs) -> GetBlockHeader Do float_ok x = Ok v ->
  exists gs, answers fs (JObj gs) /\ fold_res (set_field float_ok) gs empty_header = Ok v.
Proof.
  intros D E. unfold GetBlockHeader in E. destruct (call_object _ _ _ _ _ D) as [(j & r & C & Q & R)|[(r & C & Q & R)|(e & C & Q)]]; rewrite Q in E; cbn [rbind] in E; [|rewrite R in E; discriminate|discriminate].
  rewrite R in E. cbn [deref rbind] in E. unfold decode_struct in E. destruct j; try discriminate; [destruct C as (_ & _ & _ & N); contradiction|]. exists fs0. auto.
Qed.
Lemma header_field float_ok gs v n k : fold_res (set_field float_ok) gs empty_header = Ok v -> In n (text_fields ++ int_fields ++ "time"%string :: "difficulty"%string :: hash_fields) ->
  slot empty_header (str_bytes n) = Some (k, zero k) -> forall j, last_of (str_bytes n) gs j -> exists old w, store float_ok k j old = Ok w /\ field v (str_bytes n) = Some w.
Proof.
  intros F I S j L. apply last_val_some in L. pose proof (fold_slot float_ok _ _ _ F _ _ _ S) as Q. rewrite L in Q. destruct Q as (old & w & Q1 & Q2). exists old, w. split; [exact Q1|].
  rewrite slot_field; [now rewrite Q2|]. rewrite (fold_names float_ok _ _ _ F). now apply plain_names.
Qed.
Theorem C112_header_fields : forall Do float_ok x st fs gs v, Do (str_bytes "getblockheader") [PStr x] = Ok (st, JObj fs) -> answers fs (JObj gs) -> GetBlockHeader Do float_ok x = Ok v ->
  (forall n s, In n text_fields -> last_of (str_bytes n) gs (JStr s) -> field v (str_bytes n) = Some (VStr s)) /\
  (forall n lit z, In n int_fields -> last_of (str_bytes n) gs (JNum lit) -> int_literal lit z -> field v (str_bytes n) = Some (VInt z)) /\
  (forall lit z, last_of (str_bytes "time") gs (JNum lit) -> digits lit z -> z < 2 ^ 64 -> field v (str_bytes "time") = Some (VInt z)).
Proof.
  intros Do fo x st fs gs v D A E. destruct (header_result _ _ _ _ _ _ D E) as (gs' & A' & F). assert (JObj gs' = JObj gs) by (apply (one_verdict _ _ A); exact A'). assert (gs' = gs) by congruence. subst gs'. split; [|split].
  - intros n s I L. assert (S : slot empty_header (str_bytes n) = Some (KStr, zero KStr)) by (cbn in I; repeat (destruct I as [<-|I]; [vm_compute; reflexivity|]); destruct I).
    destruct (header_field fo gs v n KStr F ltac:(apply in_or_app; now left) S _ L) as (old & w & Q & ->). destruct old; try discriminate. cbn in Q. congruence.
  - intros n lit z I L Z0. assert (S : slot empty_header (str_bytes n) = Some (KInt, zero KInt)) by (cbn in I; repeat (destruct I as [<-|I]; [vm_compute; reflexivity|]); destruct I).
    destruct (header_field fo gs v n KInt F ltac:(apply in_or_app; right; apply in_or_app; now left) S _ L) as (old & w & Q & ->). destruct old; try discriminate. cbn [store store_int] in Q. apply ParseInt_iff in Z0. rewrite Z0 in Q. cbn [rbind] in Q. congruence.
  - intros lit z L Dg B. assert (S : slot empty_header (str_bytes "time") = Some (KUint, zero KUint)) by (vm_compute; reflexivity).
    destruct (header_field fo gs v "time" KUint F ltac:(cbn; tauto) S _ L) as (old & w & Q & ->). destruct old; try discriminate. cbn [store store_uint] in Q. pose proof (proj2 (ParseUint_iff lit z) (conj Dg B)) as P. rewrite P in Q. cbn [rbind] in Q. congruence.
Qed.
Print Assumptions C112_header_fields.
(** ... except the hashes of the neighbours: 64 hexadecimal digits are read as base64 into 48 octets, whatever the hash. *)
Theorem C112_neighbours_refuted : forall Do float_ok x st fs gs v, Do (str_bytes "getblockheader") [PStr x] = Ok (st, JObj fs) -> answers fs (JObj gs) -> GetBlockHeader Do float_ok x = Ok v ->
  forall n h d, In n hash_fields -> last_of (str_bytes n) gs (JStr h) -> hexes h d -> length d = 32%nat ->
  exists b, field v (str_bytes n) = Some (VBytes (Some b)) /\ length b = 48%nat /\ b <> d /\ b <> rev d /\ base64_of b h.
Proof.
  intros Do fo x st fs gs v D A E n h d I L H N. destruct (header_result _ _ _ _ _ _ D E) as (gs' & A' & F). assert (JObj gs' = JObj gs) by (apply (one_verdict _ _ A); exact A'). assert (gs' = gs) by congruence. subst gs'.
  assert (S : slot empty_header (str_bytes n) = Some (KBytes, zero KBytes)) by (cbn in I; repeat (destruct I as [<-|I]; [vm_compute; reflexivity|]); destruct I).
  destruct (header_field fo gs v n KBytes F ltac:(apply in_or_app; right; apply in_or_app; right; right; right; exact I) S _ L) as (old & w & Q & ->). destruct old; try discriminate. cbn [store store_bytes] in Q.
  destruct (hexes_base64 h d H) as [Fb Lh]. destruct (decode_groups 16 h ltac:(lia) Fb) as (b0 & B & O & Lb). rewrite B in Q. cbn [rbind] in Q. exists b0. split; [congruence|]. split; [exact Lb|].
  split; [intros ->; lia|]. split; [|exact O]. intros ->. rewrite rev_length in Lb. lia.
Qed.
Print Assumptions C112_neighbours_refuted.
Definition zero_hash : bytes := repeat 48 64.
Definition header_answer : json := answer [("result", answer [("hash", JStr [97; 98]); ("height", n_lit "1"); ("versionHex", JStr [48; 49]); ("time", n_lit "1231469665");
  ("previousblockhash", JStr zero_hash)]%string); ("error", JNull); ("id", n_lit "0")]%string.
Example C112_example : match GetBlockHeader (fun _ _ => Ok (200, header_answer)) (fun _ => true) [97; 98] with
  | Ok v => field v (str_bytes "hash") = Some (VStr [97; 98]) /\ field v (str_bytes "height") = Some (VInt 1) /\ field v (str_bytes "time") = Some (VInt 1231469665) /\
            field v (str_bytes "previousblockhash") = Some (VBytes (Some (concat (repeat [0xd3; 0x4d; 0x34] 16))))
  | _ => False end.
Proof. vm_compute. repeat split. Qed.
Example C112_hash_example : hexes zero_hash (repeat 0 32).
Proof. unfold zero_hash. cbn [repeat]. repeat (apply (hx_cons 48 48 0 0); [apply (h_digit 0); split; discriminate|apply (h_digit 0); split; discriminate|]). constructor. Qed.
