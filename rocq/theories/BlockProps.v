(** C133, C134: the block of a node. *)
From Verif Require Import GoBase BaseLemmas AsmModel AsmSpec AsmProofs BuilderModel RpcModel RpcSpec RpcProofs RpcProps BlockModel BlockSpec BlockProofs.
From Coq Require Import SpecFloat.
Local Open Scope Z_scope.

Lemma block_of slow Do x st fs gs : Do (str_bytes "getblock") [PStr x; PInt 3] = Ok (st, JObj fs) -> answers fs (JObj gs) ->
  GetBlock slow Do x = decode slow (JObj gs) BlockResult (zero_of BlockResult).
Proof.
  intros D A. unfold GetBlock. destruct (call_object _ _ _ _ _ D) as [(j & r & C & -> & R)|[(r & C & -> & R)|(e & C & ->)]]; cbn [rbind].
  - rewrite R. cbn [deref rbind]. now rewrite (proj2 (proj2 (one_verdict _ _ C)) _ A).
  - elim (proj2 (nothing_verdict _ C) _ A).
  - elim (proj1 (proj2 (one_verdict _ _ A)) C).
Qed.
(** C133: every block that is in the node's best chain is returned as the node describes it, ... *)
Theorem C133_block_partial : forall slow Do x st fs gs b, Do (str_bytes "getblock") [PStr x; PInt 3] = Ok (st, JObj fs) -> answers fs (JObj gs) ->
  block_says (ParseFloat slow) b gs -> block_ok b -> 0 <= b_confirmations b -> exists v, GetBlock slow Do x = Ok v /\ shows_block b v.
Proof. intros slow Do x st fs gs b D A S K C. rewrite (block_of slow Do x st fs gs D A). now apply block_value. Qed.
Print Assumptions C133_block_partial.
(** ... and none that is not: the -1 confirmations do not go into an unsigned field. *)
Theorem C133_stale_refuted : forall slow Do x st fs gs b, Do (str_bytes "getblock") [PStr x; PInt 3] = Ok (st, JObj fs) -> answers fs (JObj gs) ->
  block_says (ParseFloat slow) b gs -> block_ok b -> b_confirmations b = -1 -> exists e, GetBlock slow Do x = Err e.
Proof.
  intros slow Do x st fs gs b D A S K C. rewrite (block_of slow Do x st fs gs D A). destruct (decode slow (JObj gs) BlockResult (zero_of BlockResult)) as [v|e|] eqn:E; [|now exists e|now apply dec_panic in E].
  assert (N : b_confirmations b < 0) by (rewrite C; reflexivity). elim (block_negative slow b gs S N v E).
Qed.
Print Assumptions C133_stale_refuted.
Theorem C133_no_panic_partial : forall slow Do x st fs, Do (str_bytes "getblock") [PStr x; PInt 3] = Ok (st, JObj fs) -> (GetBlock slow Do x = Panic <-> says_nothing fs).
Proof.
  intros slow Do x st fs D. unfold GetBlock. destruct (call_object _ _ _ _ _ D) as [(j & r & C & -> & R)|[(r & C & -> & R)|(e & C & ->)]]; cbn [rbind]; try rewrite R; cbn [deref rbind].
  - split; [intros E; now apply dec_panic in E|]. intros S. elim (proj1 (one_verdict _ _ C) S).
  - split; auto.
  - split; [discriminate|]. intros S. elim (proj1 (nothing_verdict _ S) C).
Qed.
Print Assumptions C133_no_panic_partial.

(** C134: what GetBlock returns tells any two blocks apart, down to the satoshi in every output, although amounts are
    floating point numbers. *)
Theorem C134_tells_apart : forall slow Do1 Do2 x1 x2 st1 st2 fs1 fs2 gs1 gs2 b1 b2,
  Do1 (str_bytes "getblock") [PStr x1; PInt 3] = Ok (st1, JObj fs1) -> answers fs1 (JObj gs1) -> block_says (ParseFloat slow) b1 gs1 -> block_ok b1 -> 0 <= b_confirmations b1 ->
  Do2 (str_bytes "getblock") [PStr x2; PInt 3] = Ok (st2, JObj fs2) -> answers fs2 (JObj gs2) -> block_says (ParseFloat slow) b2 gs2 -> block_ok b2 -> 0 <= b_confirmations b2 ->
  GetBlock slow Do1 x1 = GetBlock slow Do2 x2 -> b1 = b2.
Proof.
  intros slow Do1 Do2 x1 x2 st1 st2 fs1 fs2 gs1 gs2 b1 b2 D1 A1 S1 K1 C1 D2 A2 S2 K2 C2 E.
  destruct (C133_block_partial _ _ _ _ _ _ _ D1 A1 S1 K1 C1) as (v1 & G1 & H1). destruct (C133_block_partial _ _ _ _ _ _ _ D2 A2 S2 K2 C2) as (v2 & G2 & H2).
  assert (v1 = v2) by congruence. subst v2. now apply (shown_block b1 b2 v1).
Qed.
Print Assumptions C134_tells_apart.

(** A block with two transactions, with fields the client has no place for. *)
Definition str (s : string) : json := JStr (str_bytes s).
Definition ex_script (addresses : list json) : json := answer [("asm", str "OP_DUP"); ("hex", str "76"); ("reqSigs", n_lit "1"); ("type", str "pubkeyhash"); ("addresses", JArr addresses); ("desc", str "x")]%string.
Definition ex_tx (id : string) (ins : list json) (outs : list json) : json := answer [("txid", str id); ("hash", str "aa"); ("version", n_lit "-1"); ("size", n_lit "148"); ("vsize", n_lit "100"); ("weight", n_lit "592");
  ("locktime", n_lit "0"); ("vin", JArr ins); ("vout", JArr outs); ("hex", str "01")]%string.
Definition ex_block (confirmations : string) : list (string * json) := [("hash", str "00ab"); ("confirmations", n_lit confirmations); ("strippedsize", n_lit "752"); ("size", n_lit "752"); ("weight", n_lit "3008");
  ("height", n_lit "151182"); ("version", n_lit "2"); ("versionHex", str "00000002"); ("merkleroot", str "6a32");
  ("tx", JArr [ex_tx "5b" [answer [("coinbase", str "038e"); ("sequence", n_lit "4294967295")]%string] [answer [("value", n_lit "50.00010000"); ("n", n_lit "0"); ("scriptPubKey", ex_script [str "mgo"])]%string];
               ex_tx "4f" [answer [("txid", str "9d"); ("vout", n_lit "3"); ("scriptSig", answer [("asm", str "30"); ("hex", str "48")]%string); ("txinwitness", JArr [str "aa"]); ("sequence", n_lit "7")]%string]
                          [answer [("value", n_lit "0.29000000"); ("n", n_lit "0"); ("scriptPubKey", ex_script [str "mhp"])]%string; answer [("value", n_lit "20999999.97690000"); ("n", n_lit "1"); ("scriptPubKey", ex_script [str "mhp"])]%string]]);
  ("time", n_lit "1386475638"); ("mediantime", n_lit "1386475000"); ("nonce", n_lit "4294967295"); ("bits", str "1d00ffff"); ("difficulty", n_lit "8.5"); ("chainwork", str "0ff"); ("nTx", n_lit "2");
  ("previousblockhash", str "00aa")]%string.
Definition ex_node (confirmations : string) : bytes -> list param -> res (Z * json) :=
  fun m p => match p with [PStr [48]; PInt 3] => Ok (200, answer [("result", answer (ex_block confirmations)); ("error", JNull); ("id", n_lit "0")]%string) | _ => Err "" end.
Definition no_slow : bytes -> option spec_float := fun _ => None.
Definition ex_shown : gval :=
  let s l := GStruct [GStr (str_bytes "OP_DUP"); GStr (str_bytes "76"); GInt 1; GStr (str_bytes "pubkeyhash"); GSlice (map GStr l)] in
  let tx id ins outs := GStruct [GStr (str_bytes "01"); GStr (str_bytes id); GInt (-1); GInt 148; GInt 100; GInt 592; GInt 0; GSlice ins; GSlice outs] in
  GStruct [GStr (str_bytes "00ab"); GInt 356931; GInt 752; GInt 752; GInt 3008; GInt 151182; GInt 2; GStr (str_bytes "00000002"); GStr (str_bytes "6a32");
    GSlice [tx "5b"%string [GStruct [GStr (str_bytes "038e"); GStr []; GInt 0; GStruct [GStr []; GStr []]; GInt 4294967295]] [GStruct [GFloat (S754_finite false 7036888491515236 (-47)); GInt 0; s [str_bytes "mgo"]]];
            tx "4f"%string [GStruct [GStr []; GStr (str_bytes "9d"); GInt 3; GStruct [GStr (str_bytes "30"); GStr (str_bytes "48")]; GInt 7]]
               [GStruct [GFloat (S754_finite false 5224175567749775 (-54)); GInt 0; s [str_bytes "mhp"]]; GStruct [GFloat (S754_finite false 5637144569799141 (-28)); GInt 1; s [str_bytes "mhp"]]]];
    GInt 2; GInt 1386475638; GInt 4294967295; GStr (str_bytes "1d00ffff"); GFloat (S754_finite false 4785074604081152 (-49)); GStr (str_bytes "0ff"); GStr (str_bytes "00aa"); GStr []].
Example C133_example : GetBlock no_slow (ex_node "356931") [48] = Ok ex_shown /\ GetBlock no_slow (ex_node "-1") [48] = mismatch.
Proof. split; vm_compute; reflexivity. Qed.

(** The answer describes a block in the sense of the theorems, whichever the confirmations. *)
Lemma said_once n fs k j : of_name n fs = [(k, j)] -> once n fs j.
Proof.
  induction fs as [|[k' x] fs IH]; [discriminate|]. unfold of_name. cbn [filter fst]. destruct (key_eq k' n) eqn:K; intros E.
  - assert (k' = k /\ x = j) as [-> ->] by (split; congruence). assert (N : of_name n fs = []) by (unfold of_name; congruence). exists [], k, fs. split; [reflexivity|]. split; [now apply key_eq_iff|]. split; [intros ? ? []|].
    intros k' j' I S. apply key_eq_iff in S. assert (In (k', j') (of_name n fs)) by (apply filter_In; auto). rewrite N in H. exact H.
  - destruct (IH E) as (a & k1 & b & -> & S & Na & Nb). exists ((k', x) :: a), k1, b. split; [reflexivity|]. split; [exact S|]. split; [|exact Nb]. intros k2 j2 [I|I]; [|now apply (Na k2 j2)]. assert (k' = k2) as <- by congruence. intros S2. apply key_eq_iff in S2. congruence.
Qed.
Lemma said_none n fs : of_name n fs = [] -> none_of n fs.
Proof. intros E k j I S. apply key_eq_iff in S. assert (H : In (k, j) (of_name n fs)) by (apply filter_In; auto). rewrite E in H. exact H. Qed.
Lemma said_has fs n (P : json -> Prop) k j : of_name (str_bytes n) fs = [(k, j)] -> P j -> has fs n P.
Proof. intros E H. exists j. split; [now apply said_once in E|exact H]. Qed.
Lemma said_int lit z : ParseUint64 lit = Some z -> 0 <= z -> is_int z (JNum lit).
Proof. intros E Z0. exists lit. split; [reflexivity|]. left. apply ParseUint_iff in E. split; [exact Z0|apply E]. Qed.
Lemma said_minus lit z : ParseUint64 lit = Some (- z) -> z < 0 -> is_int z (JNum (45 :: lit)).
Proof. intros E Z0. exists (45 :: lit). split; [reflexivity|]. right. apply ParseUint_iff in E. split; [exact Z0|]. exists lit. split; [reflexivity|apply E]. Qed.
Lemma said_amount w f a b : ParseUint64 w = Some a -> ParseUint64 f = Some b -> length f = 8%nat -> is_amount (a * 100000000 + b) (JNum (w ++ 46 :: f)).
Proof. intros W F L. eexists. split; [reflexivity|]. exists w, f, a, b. apply ParseUint_iff in W, F. split; [reflexivity|]. split; [apply W|]. split; [apply F|]. auto. Qed.
Ltac field := eapply said_has; [vm_compute; reflexivity|]; first [reflexivity|apply said_int; [vm_compute; reflexivity|discriminate]|apply said_minus; [vm_compute; reflexivity|reflexivity]|idtac].
Definition ex_spk (l : list bytes) : script_info := {| s_asm := str_bytes "OP_DUP"; s_hex := str_bytes "76"; s_sigs := Some 1; s_type := str_bytes "pubkeyhash"; s_addresses := Some l |}.
Definition ex_t (id : string) (i : list in_info) (o : list out_info) : tx_info := {| t_hex := str_bytes "01"; t_id := str_bytes id; t_version := -1; t_size := 148; t_vsize := 100; t_weight := 592; t_locktime := 0; t_in := i; t_out := o |}.
Definition ex_info (c : Z) : block_info := {| b_hash := str_bytes "00ab"; b_confirmations := c; b_stripped := 752; b_size := 752; b_weight := 3008; b_height := 151182; b_version := 2; b_vhex := str_bytes "00000002"; b_root := str_bytes "6a32";
  b_tx := [ex_t "5b" [Mined (str_bytes "038e") 4294967295] [{| o_value := 5000010000; o_n := 0; o_script := ex_spk [str_bytes "mgo"] |}];
           ex_t "4f" [Spends (str_bytes "9d") 3 (str_bytes "30") (str_bytes "48") 7] [{| o_value := 29000000; o_n := 0; o_script := ex_spk [str_bytes "mhp"] |}; {| o_value := 2099999997690000; o_n := 1; o_script := ex_spk [str_bytes "mhp"] |}]];
  b_ntx := 2; b_time := 1386475638; b_nonce := 4294967295; b_bits := str_bytes "1d00ffff"; b_difficulty := S754_finite false 4785074604081152 (-49); b_work := str_bytes "0ff"; b_prev := Some (str_bytes "00aa"); b_next := None |}.
Example C133_said : forall lit c, (lit = "-1"%string /\ c = -1) \/ (lit = "356931"%string /\ c = 356931) ->
  block_says (ParseFloat no_slow) (ex_info c) (map (fun f => (str_bytes (fst f), snd f)) (ex_block lit)) /\ block_ok (ex_info c).
Proof.
  intros lit c H. split.
  - assert (S : forall l js, Forall2 is_text l js -> script_says (ex_spk l) (ex_script js)).
    { intros l js F. eexists. split; [reflexivity|]. split; [field|]. split; [field|]. split; [cbn [may_have s_sigs ex_spk]; field|]. split; [field|]. cbn [may_have s_addresses ex_spk]. field. exists js. auto. }
    unfold block_says. split; [field|]. split; [destruct H as [[-> ->]|[-> ->]]; field|]. do 7 (split; [field|]). split.
    { field. eexists. split; [reflexivity|]. constructor; [|constructor; [|constructor]]; (eexists; split; [reflexivity|]; do 7 (split; [field|]); split; field; eexists; (split; [reflexivity|])).
      - constructor; [|constructor]. eexists. split; [reflexivity|]. split; [field|]. split; [field|]. intros n [<-|[<-|[<-|[]]]]; apply said_none; reflexivity.
      - constructor; [|constructor]. eexists. split; [reflexivity|]. split; [field; apply (said_amount (str_bytes "50") (str_bytes "00010000") 50 10000); vm_compute; reflexivity|]. split; [field|]. field. apply S. repeat constructor.
      - constructor; [|constructor]. eexists. split; [reflexivity|]. split; [apply said_none; reflexivity|]. split; [field|]. split; [field|]. split; [|field]. field. eexists. split; [reflexivity|]. split; field.
      - constructor; [|constructor; [|constructor]]; (eexists; split; [reflexivity|]; split; [|split; [field|field; apply S; repeat constructor]]); field.
        + apply (said_amount (str_bytes "0") (str_bytes "29000000") 0 29000000); vm_compute; reflexivity.
        + apply (said_amount (str_bytes "20999999") (str_bytes "97690000") 20999999 97690000); vm_compute; reflexivity. }
    do 4 (split; [field|]). split; [field; eexists; split; [reflexivity|]; vm_compute; reflexivity|]. split; [field|]. split; [cbn [may_have b_prev ex_info]; field|]. apply said_none. reflexivity.
  - assert (K : forall l, l <> [] -> script_ok (ex_spk l)). { intros l N. split; cbn; intros ? E; [injection E as <-; split; discriminate|injection E as <-; exact N]. }
    unfold block_ok, int32, uint32. split; [destruct H as [[_ ->]|[_ ->]]; (split; [discriminate|reflexivity])|]. do 5 (split; [split; [discriminate|reflexivity]|]). split; [|repeat split; discriminate].
    assert (T : forall id i o, Forall in_ok i -> Forall out_ok o -> tx_ok (ex_t id i o)) by (intros id i o I O; unfold tx_ok, int32, uint32; cbn; repeat split; try discriminate; assumption).
    assert (W : forall v n l, 0 <= v <= max_money -> uint32 n -> l <> [] -> out_ok {| o_value := v; o_n := n; o_script := ex_spk l |}) by (intros v n l V N L; split; [exact V|]; split; [exact N|]; now apply K).
    constructor; [|constructor; [|constructor]]; apply T.
    + constructor; [|constructor]. split; [discriminate|]. split; [discriminate|reflexivity].
    + constructor; [|constructor]. apply W; [split; discriminate|split; [discriminate|reflexivity]|discriminate].
    + constructor; [|constructor]. repeat split; discriminate.
    + constructor; [|constructor; [|constructor]]; (apply W; [split; discriminate|split; [discriminate|reflexivity]|discriminate]).
Qed.
