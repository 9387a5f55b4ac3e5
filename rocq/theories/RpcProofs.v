(** Lemmas on the client. *)
From Verif Require Import GoBase BaseLemmas AsmModel AsmSpec AsmProofs RpcModel RpcSpec.
From Coq Require Import ZifyBool Lia.
Local Open Scope Z_scope.

Lemma lower_iff a b : lower a = lower b <-> same_letter a b.
Proof.
  split.
  - unfold lower. intro E. destruct (Z.eq_dec a b) as [->|N]; [constructor|].
    destruct ((65 <=? a) && (a <=? 90)) eqn:A; destruct ((65 <=? b) && (b <=? 90)) eqn:B; try lia.
    + replace a with (b - 32) by lia. apply sl_down. lia.
    + replace b with (a - 32) by lia. apply sl_up. lia.
  - intros [c|c H|c H]; unfold lower; [reflexivity| |]; replace ((65 <=? c) && (c <=? 90)) with false by lia; replace ((65 <=? c - 32) && (c - 32 <=? 90)) with true by lia; lia.
Qed.
Lemma key_eq_iff k n : key_eq k n = true <-> same_name k n.
Proof.
  unfold key_eq, same_name. rewrite list_Z_eqb_spec. revert n. induction k as [|a k IH]; intros [|b n]; cbn [map]; split; intro E; try discriminate; try constructor; try (inversion E; fail).
  - apply lower_iff. congruence.
  - apply IH. congruence.
  - inversion E; subst. f_equal; [now apply lower_iff|now apply IH].
Qed.
Lemma key_eq_other k n m : map lower n <> map lower m -> key_eq k n = true -> key_eq k m = false.
Proof. unfold key_eq. rewrite list_Z_eqb_spec, list_Z_eqb_neq. congruence. Qed.

(** The last value of that name. *)
Fixpoint last_val (name : bytes) (fs : list (bytes * json)) : option json :=
  match fs with [] => None | (k, j) :: r => match last_val name r with Some x => Some x | None => if key_eq k name then Some j else None end end.
Lemma last_val_none name fs : last_val name fs = None <-> none_of name fs.
Proof.
  unfold none_of. induction fs as [|[k j] fs IH]; cbn [last_val]; [split; [intros _ k j []|reflexivity]|].
  destruct (last_val name fs) as [x|].
  - split; [discriminate|]. intros H. assert (Some x = None) by (apply IH; intros k' j' I; apply (H k' j'); now right). discriminate.
  - destruct (key_eq k name) eqn:E.
    + split; [discriminate|]. intros H. elim (H k j (or_introl eq_refl)). now apply key_eq_iff.
    + split; [|reflexivity]. intros _ k' j' [I|I]; [|now apply (proj1 IH eq_refl k' j')]. intros S. assert (k = k') by congruence. subst k'. apply key_eq_iff in S. congruence.
Qed.
Lemma last_val_some name fs j : last_val name fs = Some j <-> last_of name fs j.
Proof.
  revert j. induction fs as [|[k x] fs IH]; intros j; cbn [last_val].
  - split; [discriminate|]. intros (a & k & b & E & _). destruct a; discriminate.
  - destruct (last_val name fs) as [y|] eqn:L.
    + split.
      * intros E. assert (y = j) by congruence. subst y. destruct (proj1 (IH j) eq_refl) as (a & k' & b & -> & S & N). exists ((k, x) :: a), k', b. auto.
      * intros (a & k' & b & E & S & N). destruct a as [|p a].
        -- cbn [app] in E. assert (fs = b) by congruence. subst b. assert (K : none_of name fs) by exact N. apply last_val_none in K. congruence.
        -- cbn [app] in E. assert (F : fs = a ++ (k', j) :: b) by congruence. apply IH. exists a, k', b. auto.
    + destruct (key_eq k name) eqn:E.
      * split.
        -- intros Q. assert (x = j) by congruence. subst x. exists [], k, fs. split; [reflexivity|]. split; [now apply key_eq_iff|]. now apply last_val_none.
        -- intros (a & k' & b & F & S & N). destruct a as [|p a]; cbn [app] in F; [congruence|].
           assert (G : fs = a ++ (k', j) :: b) by congruence. assert (X : last_of name fs j) by (exists a, k', b; auto). apply IH in X. discriminate.
      * split; [discriminate|]. intros (a & k' & b & F & S & N). destruct a as [|p a]; cbn [app] in F.
        -- assert (k = k') by congruence. subst k'. apply key_eq_iff in S. congruence.
        -- assert (G : fs = a ++ (k', j) :: b) by congruence. assert (X : last_of name fs j) by (exists a, k', b; auto). apply IH in X. discriminate.
Qed.
Lemma missing_iff name fs : missing name fs <-> last_val name fs = None \/ last_val name fs = Some JNull.
Proof. unfold missing. now rewrite last_val_none, last_val_some. Qed.


Lemma ParseUint_iff w v : ParseUint64 w = Some v <-> digits w v /\ v < 2 ^ 64.
Proof.
  unfold ParseUint64. cbv zeta. rewrite digits_value. set (u := fold_left _ w 0). split.
  - intros E. destruct ((0 <? len w) && forallb digit w) eqn:F; [|discriminate]. apply andb_true_iff in F. destruct F as [L F].
    destruct (u <? 2 ^ 64) eqn:U; [|discriminate]. assert (u = v) by congruence. subst v. split; [|lia]. split; [intros ->; discriminate L|]. auto.
  - intros ((N & F & ->) & U). rewrite F. replace (0 <? len w) with true by (destruct w; [contradiction|]; rewrite len_cons; pose proof (len_nonneg w); lia).
    cbn [andb]. fold u in U. replace (u <? 2 ^ 64) with true by lia. reflexivity.
Qed.
Lemma store_int_ok j o : (integer j /\ exists v, store_int j o = Ok v) \/ (~ integer j /\ exists e, store_int j o = Err e).
Proof.
  destruct j; cbn [store_int]; try (right; split; [intros [I|(l' & n' & I & _)]; discriminate|eexists; reflexivity]); [left; split; [now left|now exists o]|].
  destruct (ParseInt64 lit) as [v|] eqn:P.
  - left. split; [|now exists v]. right. apply ParseInt_iff in P. exists lit, v. auto.
  - right. split; [|eexists; reflexivity]. intros [I|(l' & n' & I & N)]; [discriminate|]. assert (l' = lit) by congruence. subst l'. apply ParseInt_iff in N. congruence.
Qed.
Lemma store_uint_ok j o : (natural j /\ exists v, store_uint j o = Ok v) \/ (~ natural j /\ exists e, store_uint j o = Err e).
Proof.
  destruct j; cbn [store_uint]; try (right; split; [intros [I|(l' & n' & I & _)]; discriminate|eexists; reflexivity]); [left; split; [now left|now exists o]|].
  destruct (ParseUint64 lit) as [v|] eqn:P.
  - left. split; [|now exists v]. right. apply ParseUint_iff in P. exists lit, v. auto.
  - right. split; [|eexists; reflexivity]. intros [I|(l' & n' & I & N)]; [discriminate|]. assert (l' = lit) by congruence. subst l'. apply ParseUint_iff in N. congruence.
Qed.
Lemma store_string_ok j o : (text j /\ exists v, store_string j o = Ok v) \/ (~ text j /\ exists e, store_string j o = Err e).
Proof.
  destruct j; cbn [store_string]; try (right; split; [intros [I|(s' & I)]; discriminate|eexists; reflexivity]).
  - left. split; [now left|now exists o].
  - left. split; [right; now exists s|now exists s].
Qed.

Definition typed_error (gs : list (bytes * json)) : Prop := forall k' j', In (k', j') gs ->
  (same_name k' (str_bytes "code") -> integer j') /\ (same_name k' (str_bytes "message") -> text j').
Lemma names_apart : map lower (str_bytes "code") <> map lower (str_bytes "message") /\ map lower (str_bytes "id") <> map lower (str_bytes "result") /\
  map lower (str_bytes "id") <> map lower (str_bytes "error") /\ map lower (str_bytes "result") <> map lower (str_bytes "error").
Proof. repeat split; discriminate. Qed.
Lemma not_named k n : key_eq k n = false -> ~ same_name k n.
Proof. intros E S. apply key_eq_iff in S. congruence. Qed.

Lemma error_fold gs : forall o, (typed_error gs /\ exists e, fold_res error_field gs o = Ok e) \/ (~ typed_error gs /\ exists e, fold_res error_field gs o = Err e).
Proof.
  destruct names_apart as (NA & _). induction gs as [|[k j] gs IH]; intros o; cbn [fold_res].
  - left. split; [intros k j []|now exists o].
  - assert (C : forall (P : Prop), (P -> typed_error [(k, j)]) -> (typed_error [(k, j)] -> P) -> forall r, (P /\ (exists v, r = Ok v)) \/ (~ P /\ exists e, r = Err e) -> error_field o (k, j) = r ->
        (typed_error ((k, j) :: gs) /\ exists e, (let! a := error_field o (k, j) in fold_res error_field gs a) = Ok e) \/ (~ typed_error ((k, j) :: gs) /\ exists e, (let! a := error_field o (k, j) in fold_res error_field gs a) = Err e)).
    { intros P P1 P2 r R E. rewrite E. destruct R as [(p & v & ->)|(p & e & ->)]; cbn [rbind].
      - destruct (IH v) as [(T & e & F)|(T & e & F)].
        + left. split; [|now exists e]. intros k' j' [I|I]; [apply (P1 p k' j'); left; exact I|now apply T].
        + right. split; [|now exists e]. intros T'. apply T. intros k' j' I. apply T'. now right.
      - right. split; [|now exists e]. intros T'. apply p, P2. intros k' j' [I|[]]. apply T'. now left. }
    unfold error_field in *. cbn [fst snd] in *. destruct (key_eq k (str_bytes "code")) eqn:K1; [|destruct (key_eq k (str_bytes "message")) eqn:K2].
    + apply (C (integer j) ) with (r := let! c := store_int j (fst o) in Ok (c, snd o)); [| | |reflexivity].
      * intros I k' j' [Q|[]]. assert (k' = k /\ j' = j) as [-> ->] by (split; congruence). split; [auto|]. intros S. apply key_eq_iff in S. rewrite (key_eq_other _ _ _ NA K1) in S. discriminate.
      * intros T. apply (T k j); [now left|now apply key_eq_iff].
      * destruct (store_int_ok j (fst o)) as [(I & v & ->)|(I & e & ->)]; cbn [rbind]; [left|right]; split; auto; eexists; reflexivity.
    + apply (C (text j)) with (r := let! m := store_string j (snd o) in Ok (fst o, m)); [| | |reflexivity].
      * intros I k' j' [Q|[]]. assert (k' = k /\ j' = j) as [-> ->] by (split; congruence). split; [|auto]. intros S. now apply not_named in S.
      * intros T. apply (T k j); [now left|now apply key_eq_iff].
      * destruct (store_string_ok j (snd o)) as [(I & v & ->)|(I & e & ->)]; cbn [rbind]; [left|right]; split; auto; eexists; reflexivity.
    + apply (C True) with (r := Ok o); [| | |reflexivity].
      * intros _ k' j' [Q|[]]. assert (k' = k /\ j' = j) as [-> ->] by (split; congruence). split; intros S; now apply not_named in S.
      * auto.
      * left. split; [auto|now exists o].
Qed.

Definition typed_err (j : json) : Prop := j = JNull \/ exists gs, j = JObj gs /\ typed_error gs.
Lemma store_error_ok j o : (typed_err j /\ exists v, store_error j o = Ok v /\ (v = None <-> j = JNull)) \/ (~ typed_err j /\ exists e, store_error j o = Err e).
Proof.
  destruct j; cbn [store_error]; try (right; split; [intros [I|(s' & I & _)]; discriminate|eexists; reflexivity]).
  - left. split; [now left|]. exists None. split; [reflexivity|]. split; reflexivity.
  - destruct (error_fold fs (match o with Some e => e | None => (0, []) end)) as [(T & e & ->)|(T & e & ->)]; cbn [rbind].
    + left. split; [right; now exists fs|]. exists (Some e). split; [reflexivity|]. split; discriminate.
    + right. split; [|now exists e]. intros [I|(gs & I & T')]; [discriminate|]. assert (gs = fs) by congruence. subst gs. contradiction.
Qed.

(** What one field does to the answer. *)
Definition wt1 (k : bytes) (j : json) : Prop := (same_name k (str_bytes "id") -> natural j) /\ (same_name k (str_bytes "error") -> typed_err j).
Lemma one_field k j o :
  (wt1 k j /\ exists r, response_field o (k, j) = Ok r /\
     resp_result r = (if key_eq k (str_bytes "result") then match j with JNull => None | _ => Some j end else resp_result o) /\
     (resp_error r = None <-> if key_eq k (str_bytes "error") then j = JNull else resp_error o = None)) \/
  (~ wt1 k j /\ exists e, response_field o (k, j) = Err e).
Proof.
  destruct names_apart as (_ & A & B & C). unfold response_field. cbn [fst snd].
  destruct (key_eq k (str_bytes "id")) eqn:K1; [|destruct (key_eq k (str_bytes "result")) eqn:K2; [|destruct (key_eq k (str_bytes "error")) eqn:K3]].
  - rewrite (key_eq_other _ _ _ A K1), (key_eq_other _ _ _ B K1). pose proof (key_eq_other _ _ _ B K1) as K3. destruct (store_uint_ok j (resp_id o)) as [(I & v & ->)|(I & e & ->)]; cbn [rbind].
    + left. split; [split; [auto|intros S; now apply not_named in S]|]. eexists. split; [reflexivity|]. cbn. split; [reflexivity|]. split; auto.
    + right. split; [|now exists e]. intros [W _]. apply I, W. now apply key_eq_iff.
  - rewrite (key_eq_other _ _ _ C K2). pose proof (key_eq_other _ _ _ C K2) as K3. left. split; [split; intros S; now apply not_named in S|]. eexists. split; [reflexivity|]. cbn. split; [reflexivity|]. split; auto.
  - destruct (store_error_ok j (resp_error o)) as [(T & v & -> & V)|(T & e & ->)]; cbn [rbind].
    + left. split; [split; [intros S; now apply not_named in S|auto]|]. eexists. split; [reflexivity|]. cbn. split; [reflexivity|exact V].
    + right. split; [|now exists e]. intros [_ W]. apply T, W. now apply key_eq_iff.
  - left. split; [split; intros S; now apply not_named in S|]. eexists. split; [reflexivity|]. split; [reflexivity|]. split; auto.
Qed.

Lemma all_fields fs : forall o,
  (well_typed fs /\ exists r, fold_res response_field fs o = Ok r /\
     resp_result r = match last_val (str_bytes "result") fs with None => resp_result o | Some JNull => None | Some j => Some j end /\
     (resp_error r = None <-> match last_val (str_bytes "error") fs with None => resp_error o = None | Some j => j = JNull end)) \/
  (~ well_typed fs /\ exists e, fold_res response_field fs o = Err e).
Proof.
  induction fs as [|[k j] fs IH]; intros o.
  - left. split; [intros k j []|]. exists o. cbn. split; [reflexivity|]. split; [reflexivity|]. split; auto.
  - cbn [fold_res]. destruct (one_field k j o) as [(W & r & -> & R & E)|(W & e & ->)]; cbn [rbind].
    + destruct (IH r) as [(T & r' & -> & R' & E')|(T & e & ->)].
      * left. split.
        { intros k' j' [Q|I]; [|now apply T]. assert (k' = k /\ j' = j) as [-> ->] by (split; congruence). exact W. }
        exists r'. split; [reflexivity|]. cbn [last_val]. split.
        { rewrite R'. destruct (last_val (str_bytes "result") fs); [reflexivity|]. rewrite R. destruct (key_eq k (str_bytes "result")); reflexivity. }
        { rewrite E'. destruct (last_val (str_bytes "error") fs); [reflexivity|]. rewrite E. destruct (key_eq k (str_bytes "error")); reflexivity. }
      * right. split; [|now exists e]. intros T'. apply T. intros k' j' I. apply T'. now right.
    + right. split; [|now exists e]. intros T'. apply W. exact (T' k j (or_introl eq_refl)).
Qed.

Lemma call_object Do m p st fs : Do m p = Ok (st, JObj fs) ->
  (exists j r, answers fs j /\ call Do m p = Ok r /\ resp_result r = Some j) \/
  (exists r, says_nothing fs /\ call Do m p = Ok r /\ resp_result r = None) \/
  (exists e, refuses fs /\ call Do m p = Err e).
Proof.
  intros D. unfold call. rewrite D. cbn [rbind snd decode_response]. destruct (all_fields fs no_response) as [(W & r & -> & R & E)|(W & e & ->)]; cbn [rbind].
  2: { right. right. exists e. split; [now left|reflexivity]. }
  cbn [resp_error resp_result no_response] in R, E.
  assert (M : resp_error r = None <-> missing (str_bytes "error") fs).
  { rewrite missing_iff, E. destruct (last_val (str_bytes "error") fs) as [j|]; [|split; [intros _; now left|reflexivity]]. split; [intros ->; now right|]. intros [Q|Q]; [discriminate|congruence]. }
  destruct (resp_error r) as [x|] eqn:X.
  - right. right. eexists. split; [right; intros Q; apply M in Q; discriminate|reflexivity].
  - pose proof (proj1 M eq_refl) as M'. destruct (last_val (str_bytes "result") fs) as [j|] eqn:L.
    + destruct (match j with JNull => true | _ => false end) eqn:J.
      * right. left. exists r. destruct j; try discriminate J. split; [|now split]. split; [exact W|]. split; [exact M'|]. apply missing_iff. now right.
      * left. exists j, r. assert (N : j <> JNull) by (intros ->; discriminate J). split; [|split; [reflexivity|]].
        -- split; [exact W|]. split; [exact M'|]. split; [now apply last_val_some|exact N].
        -- rewrite R. destruct j; try reflexivity. contradiction.
    + right. left. exists r. split; [|now split]. split; [exact W|]. split; [exact M'|]. apply missing_iff. now left.
Qed.
Lemma one_verdict fs j : answers fs j -> ~ says_nothing fs /\ ~ refuses fs /\ forall j', answers fs j' -> j' = j.
Proof.
  intros (W & M & L & N). apply last_val_some in L. split; [|split].
  - intros (_ & _ & Q). apply missing_iff in Q. destruct Q; congruence.
  - intros [Q|Q]; contradiction.
  - intros j' (_ & _ & L' & _). apply last_val_some in L'. congruence.
Qed.
Lemma nothing_verdict fs : says_nothing fs -> ~ refuses fs /\ forall j, ~ answers fs j.
Proof.
  intros S. split; [|intros j C; exact (proj1 (one_verdict fs j C) S)]. destruct S as (W & M & _). intros [Q|Q]; contradiction.
Qed.

(** Base64. *)
Lemma b64_some c n : b64 c = Some n -> 0 <= n < 64 /\ b64_char n = c.
Proof.
  unfold b64, b64_char. intros E.
  destruct ((65 <=? c) && (c <=? 90)) eqn:A1; [|destruct ((97 <=? c) && (c <=? 122)) eqn:A2; [|destruct ((48 <=? c) && (c <=? 57)) eqn:A3; [|destruct (c =? 43) eqn:A4; [|destruct (c =? 47) eqn:A5; [|discriminate]]]]];
    (match type of E with Some ?x = _ => assert (x = n) by congruence; subst n end); (split; [lia|]);
    repeat match goal with |- context [if ?b then _ else _] => destruct b eqn:? end; lia.
Qed.
Lemma loop_groups : forall k s, length s = (4 * k)%nat -> Forall (fun c => exists n, b64 c = Some n) s ->
  exists b, base64_loop s = Some b /\ base64_of b s /\ length b = (3 * k)%nat.
Proof.
  induction k as [|k IH]; intros s L F.
  - destruct s; [|discriminate]. exists []. split; [reflexivity|]. split; [constructor|reflexivity].
  - destruct s as [|c1 [|c2 [|c3 [|c4 s]]]]; try (cbn in L; lia).
    inversion F as [|? ? [n1 E1] F1]; subst. inversion F1 as [|? ? [n2 E2] F2]; subst. inversion F2 as [|? ? [n3 E3] F3]; subst. inversion F3 as [|? ? [n4 E4] F4]; subst.
    destruct (IH s) as (b & Q & O & N); [cbn in L; lia|exact F4|]. cbn [base64_loop]. rewrite E1, E2, E3, E4, Q.
    apply b64_some in E1, E2, E3, E4. destruct E1 as [R1 <-], E2 as [R2 <-], E3 as [R3 <-], E4 as [R4 <-].
    eexists. split; [reflexivity|]. split.
    + unfold quantum. cbv zeta. cbn [app]. set (v := ((n1 * 64 + n2) * 64 + n3) * 64 + n4) in *. assert (V : 0 <= v < 16777216) by (unfold v; lia).
      apply b64_group; try assumption; try (apply Z.mod_pos_bound; lia). fold v. clearbody v. clear - V. Z.div_mod_to_equations. lia.
    + cbn. rewrite N. lia.
Qed.
Lemma decode_groups k s : length s = (4 * k)%nat -> Forall (fun c => exists n, b64 c = Some n) s ->
  exists b, base64_decode s = Some b /\ base64_of b s /\ length b = (3 * k)%nat.
Proof.
  intros L F. destruct (loop_groups k s L F) as (b & Q & O & N). exists b. split; [|auto]. unfold base64_decode. replace (filter _ s) with s; [exact Q|].
  clear - F. induction F as [|c s [n E] _ IH]; [reflexivity|]. cbn [filter]. apply b64_some in E. destruct E as [R E]. replace (negb ((c =? 10) || (c =? 13))) with true; [now rewrite <- IH|].
  unfold b64_char in E. destruct (n <? 26) eqn:A1; [|destruct (n <? 52) eqn:A2; [|destruct (n <? 62) eqn:A3; [|destruct (n =? 62) eqn:A4]]]; lia.
Qed.
Lemma hex_in_base64 c x : hexdigit c x -> exists n, b64 c = Some n.
Proof.
  unfold b64. intros [n H|n H|n H].
  - exists (48 + n + 4). replace ((65 <=? 48 + n) && (48 + n <=? 90)) with false by lia. replace ((97 <=? 48 + n) && (48 + n <=? 122)) with false by lia. replace ((48 <=? 48 + n) && (48 + n <=? 57)) with true by lia. reflexivity.
  - exists (97 + (n - 10) - 71). replace ((65 <=? 97 + (n - 10)) && (97 + (n - 10) <=? 90)) with false by lia. replace ((97 <=? 97 + (n - 10)) && (97 + (n - 10) <=? 122)) with true by lia. reflexivity.
  - exists (65 + (n - 10) - 65). replace ((65 <=? 65 + (n - 10)) && (65 + (n - 10) <=? 90)) with true by lia. reflexivity.
Qed.
Lemma hexes_base64 h d : hexes h d -> Forall (fun c => exists n, b64 c = Some n) h /\ length h = (2 * length d)%nat.
Proof.
  induction 1 as [|a b x y t d A B _ [F L]]; [split; [constructor|reflexivity]|]. split.
  - constructor; [now apply (hex_in_base64 _ x)|]. constructor; [now apply (hex_in_base64 _ y)|exact F].
  - cbn. rewrite L. lia.
Qed.

(** Structs.  A field of the struct after all assignments. *)
Fixpoint slot (s : struct) (n : bytes) : option (kind * val) := match s with [] => None | (m, k, v) :: r => if key_eq n m then Some (k, v) else slot r n end.
Section Struct.
Variable float_ok : bytes -> bool.
Lemma set_slot s : forall f s', set_field float_ok s f = Ok s' -> map (fun x => fst (fst x)) s' = map (fun x => fst (fst x)) s /\
  forall n, slot s' n = match slot s n with
    | Some (k, v) => if key_eq (fst f) n then (match store float_ok k (snd f) v with Ok v' => Some (k, v') | _ => None end) else Some (k, v)
    | None => None end.
Proof.
  induction s as [|[[m k] v] s IH]; intros f s' E; cbn [set_field] in E.
  - assert (s' = []) by congruence. subst. split; reflexivity.
  - assert (TR : forall a b c, key_eq a b = true -> key_eq b c = key_eq a c). { intros a b c. unfold key_eq. rewrite list_Z_eqb_spec. intros ->. reflexivity. }
    assert (SY : forall a b, key_eq a b = key_eq b a). { intros a b. unfold key_eq. destruct (list_Z_eqb (map lower a) (map lower b)) eqn:Q; destruct (list_Z_eqb (map lower b) (map lower a)) eqn:Q'; try reflexivity; apply list_Z_eqb_spec in Q || apply list_Z_eqb_spec in Q'; [apply list_Z_eqb_neq in Q'|apply list_Z_eqb_neq in Q]; congruence. }
    destruct (key_eq (fst f) m) eqn:K.
    + destruct (store float_ok k (snd f) v) as [v'|e|] eqn:S; cbn [rbind] in E; try discriminate. assert (s' = (m, k, v') :: s) by congruence. subst s'. split; [reflexivity|].
      intros n. cbn [slot]. destruct (key_eq n m) eqn:N.
      * assert (Q : key_eq (fst f) n = true). { rewrite SY, <- (TR n m (fst f) N). rewrite SY. exact K. } rewrite Q, S. reflexivity.
      * assert (Q : key_eq (fst f) n = false). { rewrite <- (TR (fst f) m n K). rewrite SY. exact N. } rewrite Q. destruct (slot s n) as [[k0 v0]|]; reflexivity.
    + destruct (set_field float_ok s f) as [r'|e|] eqn:S; cbn [rbind] in E; try discriminate. assert (s' = (m, k, v) :: r') by congruence. subst s'. destruct (IH f r' S) as [M R]. split; [cbn [map fst]; now rewrite M|].
      intros n. cbn [slot]. destruct (key_eq n m) eqn:N.
      * assert (Q : key_eq (fst f) n = false). { destruct (key_eq (fst f) n) eqn:Q; [|reflexivity]. rewrite SY in Q. rewrite (TR n (fst f) m Q) in K. congruence. } now rewrite Q.
      * apply R.
Qed.
(** The last assignment to a field decides, when it is not a null. *)
Lemma fold_slot fs : forall s s', fold_res (set_field float_ok) fs s = Ok s' -> forall n k v, slot s n = Some (k, v) ->
  match last_val n fs with
  | None => slot s' n = Some (k, v)
  | Some j => exists old v', store float_ok k j old = Ok v' /\ slot s' n = Some (k, v')
  end.
Proof.
  induction fs as [|[m j] fs IH]; intros s s' E n k v S; cbn [fold_res last_val] in *; [congruence|].
  destruct (set_field float_ok s (m, j)) as [s1|e|] eqn:F; cbn [rbind] in E; try discriminate. destruct (set_slot s (m, j) s1 F) as [_ R]. specialize (R n). rewrite S in R. cbn [fst snd] in R.
  destruct (key_eq m n) eqn:K.
  - destruct (store float_ok k j v) as [v1|e|] eqn:Q; cbv iota in R.
    + specialize (IH s1 s' E n k v1 R). destruct (last_val n fs); [exact IH|]. exists v, v1. auto.
    + exfalso. clear IH E. revert s1 F R S Q. induction s as [|[[a b] c] s IHs]; intros s1 F R S Q; [discriminate|]. cbn [set_field slot fst snd] in *.
      destruct (key_eq n a) eqn:NA.
      * assert (MA : key_eq m a = true). { unfold key_eq in *. rewrite list_Z_eqb_spec in *. congruence. } rewrite MA in F. assert (b = k /\ c = v) as [-> ->] by (split; congruence). rewrite Q in F. discriminate.
      * assert (MA : key_eq m a = false). { unfold key_eq in *. apply list_Z_eqb_neq in NA. apply list_Z_eqb_neq. apply list_Z_eqb_spec in K. congruence. } rewrite MA in F.
        destruct (set_field float_ok s (m, j)) as [s2|e2|] eqn:F2; cbn [rbind] in F; try discriminate. assert (s1 = (a, b, c) :: s2) by congruence. subst s1. cbn [slot] in R. rewrite NA in R. exact (IHs s2 eq_refl R S Q).
    + exfalso. clear IH E. revert s1 F R S Q. induction s as [|[[a b] c] s IHs]; intros s1 F R S Q; [discriminate|]. cbn [set_field slot fst snd] in *.
      destruct (key_eq n a) eqn:NA.
      * assert (MA : key_eq m a = true). { unfold key_eq in *. rewrite list_Z_eqb_spec in *. congruence. } rewrite MA in F. assert (b = k /\ c = v) as [-> ->] by (split; congruence). rewrite Q in F. discriminate.
      * assert (MA : key_eq m a = false). { unfold key_eq in *. apply list_Z_eqb_neq in NA. apply list_Z_eqb_neq. apply list_Z_eqb_spec in K. congruence. } rewrite MA in F.
        destruct (set_field float_ok s (m, j)) as [s2|e2|] eqn:F2; cbn [rbind] in F; try discriminate. assert (s1 = (a, b, c) :: s2) by congruence. subst s1. cbn [slot] in R. rewrite NA in R. exact (IHs s2 eq_refl R S Q).
  - specialize (IH s1 s' E n k v R). destruct (last_val n fs); exact IH.
Qed.
Lemma fold_names fs : forall s s', fold_res (set_field float_ok) fs s = Ok s' -> map (fun x => fst (fst x)) s' = map (fun x => fst (fst x)) s.
Proof.
  induction fs as [|f fs IH]; intros s s' E; cbn [fold_res] in E; [congruence|]. destruct (set_field float_ok s f) as [s1|e|] eqn:F; cbn [rbind] in E; try discriminate.
  rewrite (IH _ _ E). exact (proj1 (set_slot _ _ _ F)).
Qed.
Lemma set_no_panic s f : set_field float_ok s f <> Panic.
Proof.
  induction s as [|[[m k] v] s IH]; cbn [set_field]; [discriminate|]. destruct (key_eq (fst f) m).
  - assert (P : store float_ok k (snd f) v <> Panic).
    { unfold store, store_string, store_int, store_uint, store_bytes, mismatch. destruct k, v, (snd f) ; cbn [rbind]; try discriminate;
        repeat match goal with |- context [match ?x with _ => _ end] => destruct x; cbn [rbind]; try discriminate end. }
    destruct (store float_ok k (snd f) v); cbn [rbind]; congruence.
  - destruct (set_field float_ok s f); cbn [rbind]; congruence.
Qed.
Lemma fold_no_panic fs : forall s, fold_res (set_field float_ok) fs s <> Panic.
Proof.
  induction fs as [|f fs IH]; intros s; cbn [fold_res]; [discriminate|]. pose proof (set_no_panic s f). destruct (set_field float_ok s f); cbn [rbind]; [apply IH|discriminate|congruence].
Qed.
End Struct.
Lemma slot_field s n : (forall m, In m (map (fun x => fst (fst x)) s) -> key_eq n m = list_Z_eqb m n) -> field s n = match slot s n with Some (_, v) => Some v | None => None end.
Proof.
  induction s as [|[[m k] v] s IH]; intros H; cbn [field slot]; [reflexivity|]. rewrite (H m) by now left. destruct (list_Z_eqb m n); [reflexivity|]. apply IH. intros m' I. apply H. now right.
Qed.
