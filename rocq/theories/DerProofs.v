(** DER signatures. *)

From Verif Require Import GoBase BaseLemmas BigInt BigIntProofs SecpModel SecpSpec SecpLink EcdsaModel EcdsaSpec EcdsaNonce PubKeyProofs DerModel DerSpec.
Local Open Scope Z_scope.

(** ** Bits of bytes *)

Lemma land_80 : forall x, is_byte x -> (Z.land x 0x80 =? 0) = (x <? 128) /\ (Z.land x 0x80 =? 0x80) = (128 <=? x)
  /\ Z.land x 0x7f = (if x <? 128 then x else x - 128).
Proof.
  intros x Hx.
  assert (A : eqb (Z.land x 0x80 =? 0) (x <? 128) && eqb (Z.land x 0x80 =? 0x80) (128 <=? x)
              && (Z.land x 0x7f =? (if x <? 128 then x else x - 128)) = true).
  { apply (all_bytes (fun x => eqb (Z.land x 0x80 =? 0) (x <? 128) && eqb (Z.land x 0x80 =? 0x80) (128 <=? x)
              && (Z.land x 0x7f =? (if x <? 128 then x else x - 128)))); [vm_compute; reflexivity | exact Hx]. }
  rewrite !andb_true_iff, !eqb_true_iff, Z.eqb_eq in A. tauto.
Qed.

Lemma id_byte : forall x, is_byte x ->
  (Z.land x 0x1f =? 0x1f) = false /\ Z.shiftr x 6 = 0 /\ Z.land x 0x1f = 16 /\ (Z.land x 0x20 =? 0x20) = true <-> x = 48.
Proof.
  intros x Hx. split; [ | intros ->; repeat split; reflexivity].
  intros (_ & A & B & C).
  assert (E : negb ((Z.shiftr x 6 =? 0) && (Z.land x 0x1f =? 16) && (Z.land x 0x20 =? 0x20)) || (x =? 48) = true).
  { apply (all_bytes (fun x => negb ((Z.shiftr x 6 =? 0) && (Z.land x 0x1f =? 16) && (Z.land x 0x20 =? 0x20)) || (x =? 48)));
      [vm_compute; reflexivity | exact Hx]. }
  rewrite A, B, C in E. cbn [negb orb andb] in E. apply Z.eqb_eq. exact E.
Qed.

Lemma id_byte2 : forall x, is_byte x ->
  (Z.land x 0x1f =? 0x1f) = false /\ Z.shiftr x 6 = 0 /\ Z.land x 0x1f = 2 /\ (Z.land x 0x20 =? 0x20) = false <-> x = 2.
Proof.
  intros x Hx. split; [ | intros ->; repeat split; reflexivity].
  intros (_ & A & B & C).
  assert (E : negb ((Z.shiftr x 6 =? 0) && (Z.land x 0x1f =? 2) && negb (Z.land x 0x20 =? 0x20)) || (x =? 2) = true).
  { apply (all_bytes (fun x => negb ((Z.shiftr x 6 =? 0) && (Z.land x 0x1f =? 2) && negb (Z.land x 0x20 =? 0x20)) || (x =? 2)));
      [vm_compute; reflexivity | exact Hx]. }
  rewrite A, B, C in E. cbn [negb orb andb] in E. apply Z.eqb_eq. exact E.
Qed.

Lemma lor_byte : forall l x, 0 <= l -> is_byte x -> Z.lor (Z.shiftl l 8) x = l * 256 + x.
Proof.
  intros l x Hl Hx. rewrite Z.lor_comm, lor_shl by (try exact Hx; lia). change (2 ^ 8) with 256. ring.
Qed.

(** ** Lengths *)

Lemma parse_length_sound : forall n l b v rest, bytes_ok b -> 0 <= l ->
  parse_length n l b = Ok (v, rest) ->
  exists d, b = d ++ rest /\ length d = n /\ v = l * 256 ^ len d + set_bytes d /\
    (n <> O -> v < 2 ^ 31 /\ (l = 0 -> hd 0 d <> 0)).
Proof.
  induction n as [ | n IH]; intros l b v rest Hb Hl E; cbn [parse_length] in E.
  - exists []. injection E as -> ->. split; [reflexivity | ]. split; [reflexivity | ].
    split; [rewrite len_nil; change (set_bytes []) with 0; rewrite Z.pow_0_r; ring | ]. intro C. contradiction.
  - destruct b as [ | x b]; [discriminate E | ]. apply bytes_ok_cons in Hb. destruct Hb as [Hx Hb].
    destruct (2 ^ 23 <=? l) eqn:L; [discriminate E | ]. apply Z.leb_gt in L. cbv zeta in E.
    rewrite lor_byte in E by assumption.
    destruct (l * 256 + x =? 0) eqn:Z0; [discriminate E | ]. apply Z.eqb_neq in Z0.
    assert (Hx' := Hx). unfold is_byte in Hx'.
    assert (Hl' : 0 <= l * 256 + x) by lia. destruct (IH _ _ _ _ Hb Hl' E) as (d & Eb & Ld & Ev & C).
    exists (x :: d). split; [rewrite Eb; reflexivity | ]. split; [cbn [length]; lia | ].
    split.
    + rewrite Ev, len_cons, set_bytes_cons. pose proof (len_nonneg d).
      rewrite Z.pow_add_r by lia. ring.
    + intros _. split; [ | intros -> ; cbn [hd]; lia].
      destruct n as [ | n]; [ | apply C; discriminate].
      destruct d; [ | discriminate Ld]. rewrite Ev. rewrite len_nil, Z.pow_0_r. change (set_bytes []) with 0. lia.
Qed.

Lemma parse_length_complete : forall d l rest, bytes_ok d -> 0 <= l ->
  l * 256 ^ len d + set_bytes d < 2 ^ 31 -> l <> 0 \/ hd 1 d <> 0 ->
  parse_length (length d) l (d ++ rest) = Ok (l * 256 ^ len d + set_bytes d, rest).
Proof.
  induction d as [ | x d IH]; intros l rest Hd Hl V C.
  - rewrite len_nil, Z.pow_0_r. change (set_bytes []) with 0. cbn [length parse_length app]. f_equal. f_equal. ring.
  - cbn [length parse_length app]. apply bytes_ok_cons in Hd. destruct Hd as [Hx Hd].
    rewrite len_cons, set_bytes_cons in *. pose proof (len_nonneg d) as LD.
    rewrite Z.pow_add_r in * by lia. change (256 ^ 1) with 256 in *.
    pose proof (set_bytes_nonneg d Hd). unfold is_byte in Hx.
    assert (PW : 1 <= 256 ^ len d) by (pose proof (Z.pow_pos_nonneg 256 (len d)); lia).
    assert (L23 : l < 2 ^ 23).
    { change (2 ^ 31) with (2 ^ 23 * 256) in V. nia. }
    destruct (2 ^ 23 <=? l) eqn:L; [apply Z.leb_le in L; lia | ]. cbv zeta.
    rewrite lor_byte by (try assumption; unfold is_byte; lia).
    cbn [hd] in C. destruct (l * 256 + x =? 0) eqn:Z0; [apply Z.eqb_eq in Z0; lia | ].
    apply Z.eqb_neq in Z0. rewrite IH; [f_equal; f_equal; ring | assumption | lia | | left; exact Z0].
    replace ((l * 256 + x) * 256 ^ len d + set_bytes d) with (l * (256 * 256 ^ len d) + (x * 256 ^ len d + set_bytes d)) by ring.
    exact V.
Qed.

(** Minimal digits of a positive number. *)
Lemma top_digit : forall d, bytes_ok d -> d <> [] -> hd 0 d <> 0 ->
  256 ^ (len d - 1) <= set_bytes d < 256 ^ len d.
Proof.
  intros d Hd N H. destruct d as [ | x d]; [contradiction | ]. cbn [hd] in H.
  split; [ | apply set_bytes_lt; exact Hd].
  apply bytes_ok_cons in Hd. destruct Hd as [Hx Hd]. rewrite set_bytes_cons, len_cons.
  replace (1 + len d - 1) with (len d) by lia. pose proof (set_bytes_nonneg d Hd).
  unfold is_byte in Hx. pose proof (Z.pow_pos_nonneg 256 (len d) ltac:(lia) (len_nonneg d)). nia.
Qed.

Lemma big_bytes_hd : forall n, 0 < n -> big_bytes n <> [] /\ hd 0 (big_bytes n) <> 0.
Proof.
  intros n Hn. destruct (split_zeros (big_bytes n)) as (z & c & E & Hc).
  assert (O : bytes_ok (big_bytes n)) by apply big_bytes_ok.
  assert (Oc : bytes_ok c) by (rewrite E in O; apply bytes_ok_app in O; tauto).
  assert (Ec : big_bytes n = c).
  { rewrite <- (big_bytes_strip z c Oc Hc), <- E, big_bytes_set by lia. reflexivity. }
  rewrite Ec. destruct c as [ | x c].
  - exfalso. pose proof (big_bytes_set n ltac:(lia)) as V. rewrite Ec in V. cbn in V. lia.
  - split; [discriminate | exact Hc].
Qed.

Lemma big_bytes_octets : forall n, 0 < n -> exists k, (0 < k)%nat /\ big_bytes n = octets k n /\
  256 ^ (Z.of_nat k - 1) <= n < 256 ^ Z.of_nat k.
Proof.
  intros n Hn. exists (length (big_bytes n)). destruct (big_bytes_hd n Hn) as [N H].
  split; [destruct (big_bytes n); [contradiction | cbn; lia] | ]. split.
  - rewrite <- (padded_octets n (length (big_bytes n))) by (unfold len; lia).
    rewrite Nat.sub_diag. reflexivity.
  - pose proof (top_digit _ (big_bytes_ok n) N H) as T. rewrite big_bytes_set in T by lia. exact T.
Qed.

Lemma pow_between : forall a b n, 0 <= a -> 0 <= b -> 256 ^ (a - 1) <= n < 256 ^ a ->
  256 ^ (b - 1) <= n < 256 ^ b -> 0 < n -> a = b.
Proof.
  intros a b n Ha Hb A B Hn.
  destruct (Z.lt_trichotomy a b) as [L | [E | L]]; [exfalso | exact E | exfalso].
  - assert (256 ^ a <= 256 ^ (b - 1)) by (apply Z.pow_le_mono_r; lia). lia.
  - assert (256 ^ b <= 256 ^ (a - 1)) by (apply Z.pow_le_mono_r; lia). lia.
Qed.

(** The length octets the encoder writes. *)
Lemma tag_and_length_form : forall id n, 0 <= n < 2 ^ 31 ->
  exists l, length_form l n /\ tag_and_length id n = id :: l.
Proof.
  intros id n Hn. unfold tag_and_length, length_octets. destruct (128 <=? n) eqn:E.
  - apply Z.leb_le in E. destruct (big_bytes_octets n ltac:(lia)) as (k & K & B & P).
    assert (L4 : len (big_bytes n) <= 4).
    { apply big_bytes_len; [ | lia]. change (256 ^ 4) with (2 ^ 32). lia. }
    assert (LK : len (big_bytes n) = Z.of_nat k) by (rewrite B; unfold len; rewrite octets_length; reflexivity).
    eexists. split; [ | reflexivity]. right. split; [exact E | ]. exists k. split; [lia | ]. split; [exact P | ].
    rewrite <- B. f_equal. rewrite LK. assert (C : k = 1%nat \/ k = 2%nat \/ k = 3%nat \/ k = 4%nat) by lia.
    destruct C as [-> | [-> | [-> | ->]]]; reflexivity.
  - apply Z.leb_gt in E. eexists. split; [ | reflexivity]. left. split; [exact E | ].
    unfold u8. rewrite Z.mod_small by lia. reflexivity.
Qed.

Lemma length_form_unique : forall l l' n, 0 <= n -> length_form l n -> length_form l' n -> l = l'.
Proof.
  intros l l' n Hn [[A ->] | (A & k & K & P & ->)] [[A' ->] | (A' & k' & K' & P' & ->)]; try lia; [reflexivity | ].
  assert (E : Z.of_nat k = Z.of_nat k') by (apply (pow_between _ _ n); lia).
  apply Nat2Z.inj in E. subst k'. reflexivity.
Qed.

(** ** Headers *)

(** The header of a field of length l, after the identifier. *)
Lemma parse_header_ok : forall x b class comp tag l rest, is_byte x -> bytes_ok b ->
  parse_header (x :: b) = Ok (class, comp, tag, l, rest) <->
  ((Z.land x 0x1f =? 0x1f) = false /\ class = Z.shiftr x 6 /\ comp = (Z.land x 0x20 =? 0x20) /\ tag = Z.land x 0x1f /\
   0 <= l < 2 ^ 31 /\ exists lf, length_form lf l /\ b = lf ++ rest).
Proof.
  intros x b class comp tag l rest Hx Hb. unfold parse_header. cbv zeta.
  destruct (Z.land x 0x1f =? 0x1f) eqn:T.
  { split; [discriminate | ]. intros (C & _). discriminate C. }
  destruct b as [ | y b].
  { split; [discriminate | ]. intros (_ & _ & _ & _ & _ & lf & LF & E).
    destruct LF as [[_ ->] | (_ & k & _ & _ & ->)]; discriminate E. }
  apply bytes_ok_cons in Hb. destruct Hb as [Hy Hb].
  destruct (land_80 y Hy) as (A & _ & B). rewrite A, B. assert (Hy' := Hy). unfold is_byte in Hy'.
  destruct (y <? 128) eqn:Y.
  - apply Z.ltb_lt in Y. split.
    + intro E. assert (l = y) by congruence. assert (rest = b) by congruence. subst l rest.
      split; [reflexivity | ]. split; [congruence | ]. split; [congruence | ]. split; [congruence | ].
      split; [lia | ]. exists [y]. split; [left; split; [exact Y | reflexivity] | reflexivity].
    + intros (_ & -> & -> & -> & R & lf & LF & E).
      destruct LF as [[S ->] | (S & k & K & P & ->)].
      * cbn [app] in E. injection E as -> ->. reflexivity.
      * cbn [app] in E. injection E as -> _. lia.
  - apply Z.ltb_ge in Y. destruct (y - 128 =? 0) eqn:Y0.
    { apply Z.eqb_eq in Y0. split; [discriminate | ].
      intros (_ & _ & _ & _ & R & lf & LF & E). exfalso.
      destruct LF as [[S ->] | (S & k & K & P & ->)]; cbn [app] in E; assert (y = y) by reflexivity.
      - assert (y = l) by congruence. lia.
      - assert (y = 128 + Z.of_nat k) by congruence. lia. }
    apply Z.eqb_neq in Y0.
    destruct (parse_length (Z.to_nat (y - 128)) 0 b) as [[v rest'] | e | ] eqn:PL; cbn [rbind].
    + destruct (parse_length_sound _ _ _ _ _ Hb (Z.le_refl 0) PL) as (d & Eb & Ld & Ev & C).
      rewrite Z.mul_0_l, Z.add_0_l in Ev. destruct (C ltac:(lia)) as (V & H0). specialize (H0 eq_refl).
      assert (Od : bytes_ok d) by (rewrite Eb in Hb; apply bytes_ok_app in Hb; tauto).
      assert (Nd : d <> []) by (intros ->; cbn in Ld; lia).
      pose proof (top_digit d Od Nd H0) as TD.
      assert (FO : d = octets (length d) v) by (rewrite Ev; symmetry; apply octets_set; exact Od).
      destruct (v <? 0x80) eqn:V8.
      * apply Z.ltb_lt in V8. split; [discriminate | ]. intros (_ & _ & _ & _ & R & lf & LF & E). exfalso.
        destruct LF as [[S ->] | (S & k & K & P & ->)]; cbn [app] in E.
        -- assert (y = l) by congruence. lia.
        -- assert (EY : y = 128 + Z.of_nat k) by congruence. assert (EB : b = octets k l ++ rest) by congruence.
           assert (KD : length d = k) by lia. rewrite Eb in EB. apply app_inj_len in EB; [ | rewrite octets_length; exact KD].
           destruct EB as [EB _]. apply (f_equal set_bytes) in EB. rewrite octets_val, <- Ev in EB.
           rewrite Z.mod_small in EB by lia. lia.
      * apply Z.ltb_ge in V8. split.
        -- intro E. assert (Q : l = v) by congruence. assert (rest' = rest) by congruence. subst rest'. rewrite Q in *. clear Q l.
           split; [reflexivity | ]. split; [congruence | ]. split; [congruence | ]. split; [congruence | ].
           split; [lia | ]. exists (y :: d). split; [ | rewrite Eb; reflexivity].
           right. split; [exact V8 | ]. exists (length d).
           assert (L31 : 256 ^ (len d - 1) < 2 ^ 31) by lia.
           assert (LD4 : len d - 1 < 4).
           { destruct (Z_lt_le_dec (len d - 1) 4) as [X | X]; [exact X | exfalso].
             assert (256 ^ 4 <= 256 ^ (len d - 1)) by (apply Z.pow_le_mono_r; lia).
             change (256 ^ 4) with (2 ^ 32) in *. lia. }
           unfold len in *. rewrite <- Ev in TD. split; [lia | ]. split; [exact TD | ].
           f_equal; [lia | exact FO].
        -- intros (_ & -> & -> & -> & R & lf & LF & E). cbn in E.
           destruct LF as [[S ->] | (S & k & K & P & ->)]; cbn [app] in E.
           ++ assert (y = l) by congruence. lia.
           ++ assert (EY : y = 128 + Z.of_nat k) by congruence. assert (EB : b = octets k l ++ rest) by congruence.
              assert (KD : length d = k) by lia. rewrite Eb in EB. apply app_inj_len in EB; [ | rewrite octets_length; exact KD].
              destruct EB as [EB ER]. apply (f_equal set_bytes) in EB. rewrite octets_val, <- Ev in EB.
              rewrite Z.mod_small in EB by lia. rewrite EB, ER. reflexivity.
    + split; [discriminate | ]. intros (_ & _ & _ & _ & R & lf & LF & E). exfalso.
      destruct LF as [[S ->] | (S & k & K & P & ->)]; cbn [app] in E.
      * assert (y = l) by congruence. lia.
      * assert (EY : y = 128 + Z.of_nat k) by congruence. assert (EB : b = octets k l ++ rest) by congruence.
        rewrite EB in PL. replace (Z.to_nat (y - 128)) with (length (octets k l)) in PL by (rewrite octets_length; lia).
        rewrite parse_length_complete in PL; [discriminate PL | apply octets_ok | lia | | right].
        -- rewrite Z.mul_0_l, Z.add_0_l, octets_val, Z.mod_small by lia. lia.
        -- intro Z0. assert (X : set_bytes (octets k l) = l) by (rewrite octets_val; apply Z.mod_small; lia).
           destruct (octets k l) as [ | o os] eqn:EO; [apply (f_equal (@length Z)) in EO; rewrite octets_length in EO; cbn in EO; lia | ].
           cbn [hd] in Z0. subst o. rewrite set_bytes_cons in X.
           assert (OO : bytes_ok os) by (pose proof (octets_ok k l) as OO; rewrite EO in OO; apply bytes_ok_cons in OO; tauto).
           pose proof (set_bytes_lt os OO) as LT.
           assert (len os = Z.of_nat k - 1).
           { apply (f_equal (@length Z)) in EO. rewrite octets_length in EO. cbn [length] in EO. unfold len. lia. }
           rewrite H in LT. lia.
    + exfalso. revert PL. clear. generalize 0. generalize (Z.to_nat (y - 128)). intro n. revert b.
      induction n as [ | n IH]; intros b l; cbn [parse_length]; [discriminate | ].
      destruct b; [discriminate | ]. destruct (2 ^ 23 <=? l); [discriminate | ].
      destruct (Z.lor (Z.shiftl l 8) z =? 0); [discriminate | apply IH].
Qed.

(** A field with a one-byte identifier, exactly. *)
Lemma parse_field_exact : forall wt wc id b c rest, bytes_ok b ->
  (forall x, is_byte x ->
     (Z.land x 0x1f =? 0x1f) = false /\ Z.shiftr x 6 = 0 /\ Z.land x 0x1f = wt /\ (Z.land x 0x20 =? 0x20) = wc <-> x = id) ->
  is_byte id ->
  parse_field wt wc b = Ok (c, rest) <->
  (len c < 2 ^ 31 /\ exists t, tlv id c t /\ b = t ++ rest).
Proof.
  intros wt wc id b c rest Hb ID Hid. unfold parse_field. destruct b as [ | x b].
  { split; [discriminate | ]. intros (_ & t & (l & _ & ->) & E). discriminate E. }
  destruct (len (x :: b) =? 0) eqn:L0.
  { apply Z.eqb_eq in L0. rewrite len_cons in L0. pose proof (len_nonneg b). lia. }
  clear L0. apply bytes_ok_cons in Hb. destruct Hb as [Hx Hb]. split.
  - intro E. destruct (parse_header (x :: b)) as [[[[[class comp] tag] l] r] | e | ] eqn:PH; cbn [rbind] in E; try discriminate E.
    apply (parse_header_ok x b class comp tag l r Hx Hb) in PH.
    destruct PH as (T & -> & -> & -> & R & lf & LF & Eb).
    destruct (negb (Z.shiftr x 6 =? 0) || negb (Z.land x 31 =? wt) || negb (eqb (Z.land x 32 =? 32) wc)) eqn:M; [discriminate E | ].
    rewrite !orb_false_iff, !negb_false_iff, eqb_true_iff, !Z.eqb_eq in M. destruct M as [[M1 M2] M3].
    destruct (len r <? l) eqn:LR; [discriminate E | ]. apply Z.ltb_ge in LR.
    assert (Ec : c = firstn (Z.to_nat l) r) by congruence. assert (Er : rest = skipn (Z.to_nat l) r) by congruence. clear E.
    assert (Lc : len c = l).
    { rewrite Ec. unfold len in *. rewrite firstn_length. lia. }
    split; [lia | ]. exists (x :: lf ++ c). split.
    + exists lf. assert (x = id) by (apply ID; [exact Hx | repeat split; assumption]). subst x.
      unfold len in Lc. rewrite Lc. split; [exact LF | reflexivity].
    + rewrite Eb. cbn [app]. f_equal. rewrite <- app_assoc. f_equal. rewrite Ec, Er. symmetry. apply firstn_skipn.
  - intros (Lc & t & (lf & LF & ->) & E). cbn [app] in E. injection E as -> Eb. rewrite <- app_assoc in Eb.
    destruct (proj2 (ID id Hx) eq_refl) as (T & M1 & M2 & M3).
    assert (PH : parse_header (id :: b) = Ok (Z.shiftr id 6, Z.land id 0x20 =? 0x20, Z.land id 0x1f, len c, c ++ rest)).
    { apply (parse_header_ok id b _ _ _ _ _ Hx Hb). repeat (split; [reflexivity || assumption | ]).
      split; [pose proof (len_nonneg c); lia | ]. exists lf. split; [exact LF | exact Eb]. }
    rewrite PH. cbn [rbind]. rewrite M1, M2, M3, !Z.eqb_refl, eqb_reflx. cbn [negb orb].
    rewrite len_app. destruct (len c + len rest <? len c) eqn:LL; [apply Z.ltb_lt in LL; pose proof (len_nonneg rest); lia | ].
    unfold len. rewrite Nat2Z.id, firstn_app, Nat.sub_diag, firstn_O, app_nil_r, firstn_all.
    rewrite skipn_app, Nat.sub_diag, skipn_O, skipn_all. reflexivity.
Qed.

Lemma parse_field_never : forall wt wc b, parse_field wt wc b <> Panic.
Proof.
  intros wt wc b. unfold parse_field. destruct (len b =? 0) eqn:L0; [discriminate | ].
  assert (PLN : forall n b l, parse_length n l b <> Panic).
  { induction n as [ | n IH]; intros b0 l; cbn [parse_length]; [discriminate | ].
    destruct b0; [discriminate | ]. destruct (2 ^ 23 <=? l); [discriminate | ]. cbv zeta.
    destruct (Z.lor (Z.shiftl l 8) z =? 0); [discriminate | apply IH]. }
  assert (PHN : parse_header b <> Panic).
  { unfold parse_header. destruct b as [ | x b]; [discriminate | ]. cbv zeta.
    destruct (Z.land x 31 =? 31); [discriminate | ]. destruct b as [ | y b]; [discriminate | ].
    destruct (Z.land y 128 =? 0); [discriminate | ]. destruct (Z.land y 127 =? 0); [discriminate | ].
    specialize (PLN (Z.to_nat (Z.land y 127)) b 0).
    destruct (parse_length (Z.to_nat (Z.land y 127)) 0 b) as [[v r] | e | ]; cbn [rbind]; [ | discriminate | contradiction].
    destruct (v <? 0x80); discriminate. }
  destruct (parse_header b) as [[[[[class comp] tag] l] r] | e | ]; cbn [rbind]; [ | discriminate | contradiction].
  destruct (negb (class =? 0) || negb (tag =? wt) || negb (eqb comp wc)); [discriminate | ].
  destruct (len r <? l); discriminate.
Qed.

(** ** Integers *)

Lemma map_not_val : forall b, bytes_ok b -> set_bytes (map (fun x => 255 - x) b) = 256 ^ len b - 1 - set_bytes b.
Proof.
  induction b as [ | x b IH]; intro Hb; [reflexivity | ].
  apply bytes_ok_cons in Hb. destruct Hb as [Hx Hb]. cbn [map]. rewrite !set_bytes_cons, IH by exact Hb.
  replace (len (map (fun x => 255 - x) b)) with (len b) by (unfold len; rewrite map_length; reflexivity).
  rewrite len_cons, Z.pow_add_r by (pose proof (len_nonneg b); lia). change (256 ^ 1) with 256. ring.
Qed.
Lemma map_not_ok : forall b, bytes_ok b -> bytes_ok (map (fun x => 255 - x) b).
Proof.
  induction b as [ | x b IH]; intro Hb; [constructor | ].
  apply bytes_ok_cons in Hb. destruct Hb as [Hx Hb]. cbn [map]. apply bytes_ok_cons.
  split; [unfold is_byte in *; lia | apply IH; exact Hb].
Qed.

(** parseBigInt reads exactly the minimal two's complements. *)
Lemma parse_big_int_exact : forall c x, bytes_ok c -> parse_big_int c = Ok x <-> twos c x /\ minimal c.
Proof.
  intros c x Hc. unfold parse_big_int, check_integer. destruct c as [ | h t].
  { split; [discriminate | intros [[] _]]. }
  assert (Hc' := Hc). apply bytes_ok_cons in Hc'. destruct Hc' as [Hh Ht].
  destruct (land_80 h Hh) as (_ & B & _). rewrite B.
  assert (V : forall y, (if 128 <=? h then Ok (- (set_bytes (map (fun x => 255 - x) (h :: t)) + 1)) else Ok (set_bytes (h :: t))) = Ok y
     <-> twos (h :: t) y).
  { intro y. unfold twos. rewrite be_set_bytes. change (Z.of_nat (length (h :: t))) with (len (h :: t)).
    rewrite map_not_val by exact Hc. generalize (set_bytes (h :: t)) (256 ^ len (h :: t)). intros sb w. destruct (128 <=? h).
    - split; intro E; [injection E as <-; ring | f_equal; rewrite E; ring].
    - split; intro E; [injection E as <-; ring | f_equal; rewrite E; ring]. }
  destruct t as [ | k u].
  - cbn [rbind]. rewrite V. unfold minimal. tauto.
  - apply bytes_ok_cons in Ht. destruct Ht as [Hk Hu]. destruct (land_80 k Hk) as (A & B' & _). rewrite A, B'.
    destruct ((h =? 0) && (k <? 128) || (h =? 255) && (128 <=? k)) eqn:M; cbn [rbind].
    + split; [discriminate | ]. intros [_ [M1 M2]]. exfalso.
      rewrite orb_true_iff, !andb_true_iff, !Z.eqb_eq, Z.ltb_lt, Z.leb_le in M. tauto.
    + rewrite V. unfold minimal. rewrite orb_false_iff, !andb_false_iff, !Z.eqb_neq, Z.ltb_ge, Z.leb_gt in M.
      split; [intro T; split; [exact T | lia] | tauto].
Qed.

Lemma parse_big_int_never : forall c, parse_big_int c <> Panic.
Proof.
  intro c. unfold parse_big_int, check_integer. destruct c as [ | h t]; [discriminate | ].
  destruct t as [ | k u]; cbn [rbind].
  - destruct (Z.land h 128 =? 128); discriminate.
  - destruct ((h =? 0) && (Z.land k 128 =? 0) || (h =? 255) && (Z.land k 128 =? 128)); cbn [rbind]; [discriminate | ].
    destruct (Z.land h 128 =? 128); discriminate.
Qed.

Lemma twos_range : forall c x, bytes_ok c -> twos c x ->
  - 256 ^ len c <= 2 * x < 256 ^ len c /\
  (minimal c -> 2 <= len c -> ~ (- 256 ^ (len c - 1) <= 2 * x < 256 ^ (len c - 1))).
Proof.
  intros c x Hc T. destruct c as [ | h t]; [destruct T | ]. unfold twos in T. rewrite be_set_bytes in T. fold (len (h :: t)) in T.
  apply bytes_ok_cons in Hc. destruct Hc as [Hh Ht]. unfold is_byte in Hh.
  rewrite len_cons in *. rewrite set_bytes_cons in T. pose proof (len_nonneg t) as NT.
  rewrite Z.pow_add_r in * by lia. change (256 ^ 1) with 256 in *.
  pose proof (set_bytes_nonneg t Ht) as T0. pose proof (set_bytes_lt t Ht) as T1.
  split.
  - clear -Hh T T0 T1. destruct (128 <=? h) eqn:E; [apply Z.leb_le in E | apply Z.leb_gt in E]; subst x; nia.
  - intros M L. destruct t as [ | k u]; [change (len []) with 0 in L; lia | ]. cbn [minimal] in M.
    apply bytes_ok_cons in Ht. destruct Ht as [Hk Hu]. unfold is_byte in Hk.
    replace (1 + len (k :: u) - 1) with (len (k :: u)) by lia.
    rewrite set_bytes_cons, len_cons in *. pose proof (len_nonneg u) as NU.
    rewrite Z.pow_add_r in * by lia. change (256 ^ 1) with 256 in *.
    pose proof (set_bytes_nonneg u Hu) as U0. pose proof (set_bytes_lt u Hu) as U1.
    assert (W : 0 < 256 ^ len u) by (apply Z.pow_pos_nonneg; lia).
    revert T U0 U1 W. generalize (256 ^ len u) (set_bytes u). intros w U T U0 U1 W. clear -M Hh Hk T U0 U1 W.
    destruct M as [M1 M2]. intros [R1 R2].
    destruct (128 <=? h) eqn:E; [apply Z.leb_le in E | apply Z.leb_gt in E]; subst x.
    + assert (h = 255) by nia. subst h. assert (128 <= k) by nia. tauto.
    + assert (h = 0) by nia. subst h. assert (k < 128) by nia. tauto.
Qed.

Lemma twos_unique : forall c c' x, bytes_ok c -> bytes_ok c' -> twos c x -> twos c' x -> minimal c -> minimal c' -> c = c'.
Proof.
  intros c c' x Hc Hc' T T' M M'.
  destruct (twos_range c x Hc T) as [R S]. destruct (twos_range c' x Hc' T') as [R' S']. specialize (S M). specialize (S' M').
  assert (P : 1 <= len c) by (destruct c; [destruct T | rewrite len_cons; pose proof (len_nonneg c); lia]).
  assert (P' : 1 <= len c') by (destruct c'; [destruct T' | rewrite len_cons; pose proof (len_nonneg c'); lia]).
  assert (E : len c = len c').
  { destruct (Z.lt_trichotomy (len c) (len c')) as [L | [L | L]]; [exfalso | exact L | exfalso].
    - apply S'; [lia | ]. assert (256 ^ len c <= 256 ^ (len c' - 1)) by (apply Z.pow_le_mono_r; lia). lia.
    - apply S; [lia | ]. assert (256 ^ len c' <= 256 ^ (len c - 1)) by (apply Z.pow_le_mono_r; lia). lia. }
  apply set_bytes_inj; [exact Hc | exact Hc' | unfold len in E; lia | ].
  destruct c as [ | h t]; [destruct T | ]. destruct c' as [ | h' t']; [destruct T' | ].
  unfold twos in T, T'. rewrite be_set_bytes in T, T'. fold (len (h :: t)) in T. fold (len (h' :: t')) in T'.
  rewrite <- E in T'. pose proof (set_bytes_nonneg _ Hc). pose proof (set_bytes_lt _ Hc).
  pose proof (set_bytes_nonneg _ Hc'). pose proof (set_bytes_lt _ Hc'). rewrite <- E in *.
  destruct (128 <=? h), (128 <=? h'); lia.
Qed.

Lemma make_big_int_ok : forall n, bytes_ok (make_big_int n) /\ twos (make_big_int n) n /\ minimal (make_big_int n).
Proof.
  intro n. unfold make_big_int. destruct (n <? 0) eqn:E.
  - apply Z.ltb_lt in E. cbv zeta. set (m := - n - 1). assert (Hm : 0 <= m) by (unfold m; lia).
    assert (V := map_not_val (big_bytes m) (big_bytes_ok m)). rewrite (big_bytes_set m Hm) in V.
    assert (O := map_not_ok (big_bytes m) (big_bytes_ok m)).
    assert (LL : len (map (fun x => 255 - x) (big_bytes m)) = len (big_bytes m)) by (unfold len; rewrite map_length; reflexivity).
    rewrite <- LL in V. clear LL.
    assert (H0 : forall x l, map (fun x => 255 - x) (big_bytes m) = x :: l -> x <> 255).
    { intros x l Q. destruct (big_bytes m) as [ | y b] eqn:B; [discriminate Q | ]. cbn [map] in Q. injection Q as Q _.
      assert (0 < m). { destruct (Z.eq_dec m 0) as [Z0 | ]; [rewrite Z0 in B; discriminate B | lia]. }
      destruct (big_bytes_hd m H) as [_ HD]. rewrite B in HD. cbn [hd] in HD. lia. }
    destruct (map (fun x => 255 - x) (big_bytes m)) as [ | x b] eqn:B.
    + change (set_bytes []) with 0 in V. change (256 ^ len []) with 1 in V.
      split; [repeat constructor; unfold is_byte; lia | ]. split; [ | exact I].
      unfold twos. change (be [255]) with 255. change (128 <=? 255) with true. cbv iota.
      change (256 ^ Z.of_nat (length [255])) with 256. unfold m in V. lia.
    + assert (O' := O). apply bytes_ok_cons in O'. destruct O' as [Ox Ob].
      destruct (land_80 x Ox) as (A & _ & _). rewrite A. destruct (x <? 128) eqn:X.
      * apply Z.ltb_lt in X. split; [apply bytes_ok_cons; split; [unfold is_byte; lia | exact O] | ].
        split; [ | cbn [minimal]; lia].
        unfold twos. rewrite be_set_bytes. change (128 <=? 255) with true. cbv iota. fold (len (255 :: x :: b)).
        rewrite set_bytes_cons, V, (len_cons 255), Z.pow_add_r by (pose proof (len_nonneg (x :: b)); lia).
        change (256 ^ 1) with 256. unfold m. ring.
      * apply Z.ltb_ge in X. split; [exact O | ]. split.
        -- unfold twos. rewrite be_set_bytes. rewrite (proj2 (Z.leb_le 128 x) X). fold (len (x :: b)). rewrite V. unfold m. ring.
        -- destruct b as [ | y b]; [exact I | ]. cbn [minimal]. specialize (H0 x _ eq_refl). lia.
  - apply Z.ltb_ge in E. destruct (n =? 0) eqn:E0.
    + apply Z.eqb_eq in E0. subst n. split; [repeat constructor; unfold is_byte; lia | ]. split; [reflexivity | exact I].
    + apply Z.eqb_neq in E0. cbv zeta. destruct (big_bytes_hd n ltac:(lia)) as [N H]. assert (O := big_bytes_ok n).
      assert (V := big_bytes_set n ltac:(lia)). destruct (big_bytes n) as [ | x b]; [contradiction | ]. cbn [hd] in H.
      assert (O' := O). apply bytes_ok_cons in O'. destruct O' as [Ox Ob].
      destruct (land_80 x Ox) as (A & _ & _). rewrite A. assert (Ox' := Ox). unfold is_byte in Ox'.
      destruct (x <? 128) eqn:X; cbn [negb].
      * apply Z.ltb_lt in X. split; [exact O | ]. split.
        -- unfold twos. rewrite be_set_bytes, (proj2 (Z.leb_gt 128 x) X), V. ring.
        -- destruct b as [ | y b]; [exact I | ]. cbn [minimal]. lia.
      * apply Z.ltb_ge in X. split; [apply bytes_ok_cons; split; [unfold is_byte; lia | exact O] | ].
        split; [ | cbn [minimal]; lia].
        unfold twos. rewrite be_set_bytes. change (128 <=? 0) with false. cbv iota. rewrite set_bytes_cons, V. ring.
Qed.

(** ** A signature *)

Lemma tlv_unique : forall id c t t', tlv id c t -> tlv id c t' -> t = t'.
Proof.
  intros id c t t' (l & F & ->) (l' & F' & ->). rewrite (length_form_unique l l' (Z.of_nat (length c)) ltac:(lia) F F'). reflexivity.
Qed.

(** A string starts with at most one field. *)
Lemma tlv_ok : forall id c t, is_byte id -> bytes_ok c -> len c < 2 ^ 31 -> tlv id c t -> bytes_ok t.
Proof.
  intros id c t Hid Hc L (l & F & ->). apply bytes_ok_cons. split; [exact Hid | ]. apply bytes_ok_app. split; [ | exact Hc].
  destruct F as [[S ->] | (S & k & K & P & ->)].
  - repeat constructor; unfold is_byte; lia.
  - apply bytes_ok_cons. split; [unfold is_byte; lia | apply octets_ok].
Qed.

Lemma tag_and_length_tlv : forall id c, len c < 2 ^ 31 -> tlv id c (tag_and_length id (len c) ++ c).
Proof.
  intros id c L. destruct (tag_and_length_form id (len c) ltac:(pose proof (len_nonneg c); lia)) as (l & F & E).
  rewrite E. exists l. split; [exact F | reflexivity].
Qed.

Lemma marshal_int_ok : forall n, len (make_big_int n) < 2 ^ 31 -> der_int (marshal_int n) n.
Proof.
  intros n L. destruct (make_big_int_ok n) as (O & T & M). exists (make_big_int n).
  split; [exact T | ]. split; [exact M | ]. apply tag_and_length_tlv. exact L.
Qed.

Lemma tlv_len : forall id c t, tlv id c t -> len c < len t.
Proof.
  intros id c t (l & _ & ->). rewrite len_cons, len_app. pose proof (len_nonneg l). lia.
Qed.

Lemma der_int_bytes : forall b x, bytes_ok b -> der_int b x ->
  exists c, bytes_ok c /\ twos c x /\ minimal c /\ tlv 2 c b /\ len c < len b.
Proof.
  intros b x Hb (c & T & M & TL). exists c. assert (L := tlv_len _ _ _ TL). destruct TL as (l & F & E).
  split; [ | repeat split; try assumption; exists l; split; assumption].
  rewrite E in Hb. apply bytes_ok_cons in Hb. destruct Hb as [_ Hb]. apply bytes_ok_app in Hb. tauto.
Qed.

(** What Unmarshal accepts, exactly. *)
Definition accepted (b : bytes) (r s : Z) : Prop :=
  exists ir is junk t trail, der_int ir r /\ der_int is s /\ len (ir ++ is ++ junk) < 2 ^ 31 /\
    tlv 48 (ir ++ is ++ junk) t /\ b = t ++ trail.

Lemma parse_seq : forall b c rest, bytes_ok b ->
  parse_field 16 true b = Ok (c, rest) <-> (len c < 2 ^ 31 /\ exists t, tlv 48 c t /\ b = t ++ rest).
Proof. intros. apply parse_field_exact; [assumption | apply id_byte | unfold is_byte; lia]. Qed.
Lemma parse_int : forall b c rest, bytes_ok b ->
  parse_field 2 false b = Ok (c, rest) <-> (len c < 2 ^ 31 /\ exists t, tlv 2 c t /\ b = t ++ rest).
Proof. intros. apply parse_field_exact; [assumption | apply id_byte2 | unfold is_byte; lia]. Qed.

Lemma unmarshal_exact : forall b r s, bytes_ok b -> unmarshal_sig b = Ok (r, s) <-> accepted b r s.
Proof.
  intros b r s Hb. unfold unmarshal_sig. split.
  - intro E. destruct (parse_field 16 true b) as [[c rest] | | ] eqn:P1; cbn [rbind] in E; try discriminate E.
    apply (parse_seq b c rest Hb) in P1. destruct P1 as (L1 & t & T1 & E1).
    assert (Hc : bytes_ok c).
    { destruct T1 as (l & _ & T1). rewrite E1, T1 in Hb. cbn [app] in Hb. apply bytes_ok_cons in Hb. destruct Hb as [_ Hb].
      rewrite <- app_assoc in Hb. apply bytes_ok_app in Hb. destruct Hb as [_ Hb]. apply bytes_ok_app in Hb. tauto. }
    destruct (parse_field 2 false c) as [[c1 r1] | | ] eqn:P2; cbn [rbind] in E; try discriminate E.
    apply (parse_int c c1 r1 Hc) in P2. destruct P2 as (L2 & t1 & T2 & E2).
    assert (Hr1 : bytes_ok r1) by (rewrite E2 in Hc; apply bytes_ok_app in Hc; tauto).
    assert (Hc1 : bytes_ok c1).
    { destruct T2 as (l & _ & T2). rewrite E2, T2 in Hc. cbn [app] in Hc. apply bytes_ok_cons in Hc. destruct Hc as [_ Hc].
      rewrite <- app_assoc in Hc. apply bytes_ok_app in Hc. destruct Hc as [_ Hc]. apply bytes_ok_app in Hc. tauto. }
    destruct (parse_big_int c1) as [r' | | ] eqn:B1; cbn [rbind] in E; try discriminate E.
    destruct (parse_field 2 false r1) as [[c2 r2] | | ] eqn:P3; cbn [rbind] in E; try discriminate E.
    apply (parse_int r1 c2 r2 Hr1) in P3. destruct P3 as (L3 & t2 & T3 & E3).
    assert (Hc2 : bytes_ok c2).
    { destruct T3 as (l & _ & T3). rewrite E3, T3 in Hr1. cbn [app] in Hr1. apply bytes_ok_cons in Hr1. destruct Hr1 as [_ Hr1].
      rewrite <- app_assoc in Hr1. apply bytes_ok_app in Hr1. destruct Hr1 as [_ Hr1]. apply bytes_ok_app in Hr1. tauto. }
    destruct (parse_big_int c2) as [s' | | ] eqn:B2; cbn [rbind] in E; try discriminate E.
    assert (r' = r) by congruence. assert (s' = s) by congruence. subst r' s'.
    apply (parse_big_int_exact c1 r Hc1) in B1. apply (parse_big_int_exact c2 s Hc2) in B2.
    exists t1, t2, r2, t, rest. split; [exists c1; tauto | ]. split; [exists c2; tauto | ].
    rewrite <- E3, <- E2. split; [exact L1 | ]. split; [exact T1 | exact E1].
  - intros (ir & is & junk & t & trail & D1 & D2 & L & T & E).
    assert (HI : bytes_ok (ir ++ is ++ junk)).
    { destruct T as (l & _ & T). rewrite E, T in Hb. cbn [app] in Hb. apply bytes_ok_cons in Hb. destruct Hb as [_ Hb].
      rewrite <- (app_assoc l) in Hb. apply bytes_ok_app in Hb. destruct Hb as [_ Hb]. apply bytes_ok_app in Hb. tauto. }
    assert (H1 := HI). apply bytes_ok_app in H1. destruct H1 as [H1 H2]. assert (H3 := H2). apply bytes_ok_app in H3. destruct H3 as [H3 H4].
    destruct (der_int_bytes ir r H1 D1) as (c1 & O1 & W1 & M1 & T1 & L1).
    destruct (der_int_bytes is s H3 D2) as (c2 & O2 & W2 & M2 & T2 & L2).
    pose proof (len_nonneg junk) as NJ. pose proof (len_nonneg ir). pose proof (len_nonneg is).
    assert (LL : len ir + (len is + len junk) < 2 ^ 31) by (rewrite !len_app in L; exact L).
    rewrite (proj2 (parse_seq b (ir ++ is ++ junk) trail Hb)) by (split; [exact L | exists t; tauto]). cbn [rbind].
    rewrite (proj2 (parse_int (ir ++ is ++ junk) c1 (is ++ junk) HI)) by (split; [lia | exists ir; tauto]). cbn [rbind].
    rewrite (proj2 (parse_big_int_exact c1 r O1)) by tauto. cbn [rbind].
    rewrite (proj2 (parse_int (is ++ junk) c2 junk H2)) by (split; [lia | exists is; tauto]). cbn [rbind].
    rewrite (proj2 (parse_big_int_exact c2 s O2)) by tauto. reflexivity.
Qed.

Lemma unmarshal_never : forall b, unmarshal_sig b <> Panic.
Proof.
  intro b. unfold unmarshal_sig.
  pose proof (parse_field_never 16 true b). destruct (parse_field 16 true b) as [[c rest] | | ]; cbn [rbind]; [ | discriminate | contradiction].
  pose proof (parse_field_never 2 false c). destruct (parse_field 2 false c) as [[c1 r1] | | ]; cbn [rbind]; [ | discriminate | contradiction].
  pose proof (parse_big_int_never c1). destruct (parse_big_int c1); cbn [rbind]; [ | discriminate | contradiction].
  pose proof (parse_field_never 2 false r1). destruct (parse_field 2 false r1) as [[c2 r2] | | ]; cbn [rbind]; [ | discriminate | contradiction].
  pose proof (parse_big_int_never c2). destruct (parse_big_int c2); cbn [rbind]; [discriminate | discriminate | contradiction].
Qed.

Lemma marshal_sig_ok : forall r s, len (marshal_int r ++ marshal_int s) < 2 ^ 31 ->
  bytes_ok (marshal_sig r s) /\ der_sig (marshal_sig r s) r s.
Proof.
  intros r s L. assert (L' := L). rewrite len_app in L'. unfold marshal_int in L' at 1 2. cbv zeta in L'. rewrite !len_app in L'.
  pose proof (len_nonneg (tag_and_length 2 (len (make_big_int r)))). pose proof (len_nonneg (tag_and_length 2 (len (make_big_int s)))).
  pose proof (len_nonneg (make_big_int r)). pose proof (len_nonneg (make_big_int s)).
  assert (L1 : len (make_big_int r) < 2 ^ 31) by lia. assert (L2 : len (make_big_int s) < 2 ^ 31) by lia.
  assert (O1 : bytes_ok (marshal_int r)).
  { apply (tlv_ok 2 (make_big_int r)); [unfold is_byte; lia | apply make_big_int_ok | exact L1 | ]. apply tag_and_length_tlv. exact L1. }
  assert (O2 : bytes_ok (marshal_int s)).
  { apply (tlv_ok 2 (make_big_int s)); [unfold is_byte; lia | apply make_big_int_ok | exact L2 | ]. apply tag_and_length_tlv. exact L2. }
  assert (T := tag_and_length_tlv 48 (marshal_int r ++ marshal_int s) L).
  split.
  - apply (tlv_ok 48 (marshal_int r ++ marshal_int s)); [unfold is_byte; lia | apply bytes_ok_app; tauto | exact L | exact T].
  - exists (marshal_int r), (marshal_int s). split; [apply marshal_int_ok; exact L1 | ].
    split; [apply marshal_int_ok; exact L2 | exact T].
Qed.

Lemma der_int_unique : forall b b' x, bytes_ok b -> bytes_ok b' -> der_int b x -> der_int b' x -> b = b'.
Proof.
  intros b b' x Hb Hb' D D'.
  destruct (der_int_bytes b x Hb D) as (c & O & T & M & TL & _). destruct (der_int_bytes b' x Hb' D') as (c' & O' & T' & M' & TL' & _).
  assert (c = c') by (apply (twos_unique c c' x); assumption). subst c'. apply (tlv_unique 2 c); assumption.
Qed.

Lemma der_sig_unique : forall b b' r s, bytes_ok b -> bytes_ok b' -> der_sig b r s -> der_sig b' r s -> b = b'.
Proof.
  intros b b' r s Hb Hb' (ir & is & D1 & D2 & T) (ir' & is' & D1' & D2' & T').
  assert (Inner : forall i t, bytes_ok t -> tlv 48 i t -> bytes_ok i).
  { intros i t Ht (l & _ & ->). apply bytes_ok_cons in Ht. destruct Ht as [_ Ht]. apply bytes_ok_app in Ht. tauto. }
  assert (I1 := Inner _ _ Hb T). assert (I2 := Inner _ _ Hb' T'). apply bytes_ok_app in I1, I2.
  assert (ir = ir') by (apply (der_int_unique ir ir' r); tauto). assert (is = is') by (apply (der_int_unique is is' s); tauto).
  subst ir' is'. apply (tlv_unique 48 (ir ++ is)); assumption.
Qed.
