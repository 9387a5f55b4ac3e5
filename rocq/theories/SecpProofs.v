(** The curve arithmetic of the Go program computes in the group of
    [SecpGroup]. *)

From Coq Require Import ZArith Znumtheory Lia Bool List Field Ring.
From Verif Require Import GoBase BaseLemmas BigInt BigIntProofs NumTheory BigMod Fp EcGroup AbGroup SecpModel SecpGroup SecpOrder SecpOrderN.
Import ListNotations.
Local Open Scope Z_scope.

Add Field KF2 : K_field.


(** A point as the pair of big.Ints the program uses. *)
Definition encP (P : spt) : Z * Z :=
  match P with
  | Inf => (0, 0)
  | Aff x y => (fval x, fval y)
  end.
Definition enc (a : gp) : Z * Z := encP (gpt a).

(** A Jacobian triple of the program. *)
Definition jrep (t : Z * Z * Z) (P : spt) : Prop :=
  let '(x, y, z) := t in
  0 <= z < curveP /\ repJ K (fof curveP 0) fmul (fk x) (fk y) (fk z) P.

Lemma fk_add : forall x y, fk (x + y) = fadd (fk x) (fk y).
Proof. intros. apply fof_add. Qed.
Lemma fk_sub : forall x y, fk (x - y) = fsub (fk x) (fk y).
Proof. intros. apply fof_sub. Qed.
Lemma fk_mul : forall x y, fk (x * y) = fmul (fk x) (fk y).
Proof. intros. apply fof_mul. Qed.
Lemma fk_mod : forall x, fk (x mod curveP) = fk x.
Proof. intros. apply fof_mod. Qed.
Lemma fk_eq : forall x y, fk x = fk y <-> x mod curveP = y mod curveP.
Proof. intros. apply fof_eq. Qed.
Lemma fk_1 : fk 1 = fof curveP 1.
Proof. reflexivity. Qed.
Lemma fk_2 : fk 2 = fadd (fof curveP 1) (fof curveP 1).
Proof. change 2 with (1 + 1). apply fk_add. Qed.
Lemma fk_3 : fk 3 = fadd (fadd (fof curveP 1) (fof curveP 1)) (fof curveP 1).
Proof. change 3 with (1 + 1 + 1). rewrite !fk_add. reflexivity. Qed.

Lemma fk_adjust : forall v, fk (adjust v) = fk v.
Proof.
  intros v. unfold adjust. destruct (v <? 0); [ | apply fk_mod].
  apply fk_eq. rewrite <- (Z.mul_1_l curveP) at 1. apply Z_mod_plus_full.
Qed.

Lemma fk_up : forall v, fk (if v <? 0 then v + curveP else v) = fk v.
Proof.
  intros v. destruct (v <? 0); [ | reflexivity].
  apply fk_eq. rewrite <- (Z.mul_1_l curveP) at 1. apply Z_mod_plus_full.
Qed.

Lemma up_0 : forall v, - curveP < v -> ((if v <? 0 then v + curveP else v) =? 0) = (v =? 0).
Proof.
  intros v H. destruct (v <? 0) eqn:E; [ | reflexivity].
  apply Z.ltb_lt in E.
  assert (A : v + curveP <> 0) by lia. assert (B : v <> 0) by lia.
  apply Z.eqb_neq in A, B. rewrite A, B. reflexivity.
Qed.

Lemma mod_range : forall v, 0 <= v mod curveP < curveP.
Proof. intros v. apply Z.mod_pos_bound. reflexivity. Qed.

Lemma fk_nz : forall z, 0 <= z < curveP -> (z =? 0) = false -> fk z <> fof curveP 0.
Proof.
  intros z Hz H E. apply Z.eqb_neq in H. apply H.
  apply (fof_0 curveP z) in E; [ | reflexivity].
  rewrite Z.mod_small in E by exact Hz. exact E.
Qed.

Lemma double_ok : forall x y z P, s_on P -> jrep (x, y, z) P ->
  jrep (doubleJacobian x y z) (s_add P P).
Proof.
  intros x y z P HP [Hz HJ]. unfold doubleJacobian. split; [apply mod_range | ].
  pose proof (dbl_J K _ _ _ _ _ _ _ _ K_field K_dec (fk 7) K_two_nz K_no_y0
                (fk x) (fk y) (fk z) P HP HJ) as R. cbv zeta in R.
  change 8 with (2 * (2 * 2)).
  repeat rewrite ?fk_adjust, ?fk_mod, ?fk_add, ?fk_sub, ?fk_mul, ?fk_2, ?fk_3.
  match goal with |- repJ _ _ _ ?a ?b ?c _ =>
    match type of R with repJ _ _ _ ?a' ?b' ?c' _ =>
      replace a with a' by ring; replace b with b' by ring; replace c with c' by ring
    end end.
  exact R.
Qed.

Lemma add_ok : forall x1 y1 z1 x2 y2 z2 P Q, s_on P -> s_on Q ->
  jrep (x1, y1, z1) P -> jrep (x2, y2, z2) Q ->
  jrep (addJacobian x1 y1 z1 x2 y2 z2) (s_add P Q).
Proof.
  intros x1 y1 z1 x2 y2 z2 P Q HP HQ [Hz1 J1] [Hz2 J2]. unfold addJacobian.
  destruct (z1 =? 0) eqn:E1.
  { apply Z.eqb_eq in E1. subst z1. assert (P = Inf).
    { destruct P; [reflexivity | ]. destruct J1 as [C _]. contradiction. }
    subst P. cbn. destruct Q; split; assumption. }
  destruct (z2 =? 0) eqn:E2.
  { apply Z.eqb_eq in E2. subst z2. assert (Q = Inf).
    { destruct Q; [reflexivity | ]. destruct J2 as [C _]. contradiction. }
    subst Q. cbn. destruct P; split; assumption. }
  pose proof (fk_nz z1 Hz1 E1) as N1. pose proof (fk_nz z2 Hz2 E2) as N2.
  set (u1 := (x1 * ((z2 * z2) mod curveP)) mod curveP).
  set (u2 := (x2 * ((z1 * z1) mod curveP)) mod curveP).
  set (s1 := (y1 * z2 * ((z2 * z2) mod curveP)) mod curveP).
  set (s2 := (y2 * z1 * ((z1 * z1) mod curveP)) mod curveP).
  cbv zeta.
  assert (R1 : 0 <= u1 < curveP) by apply mod_range.
  assert (R2 : 0 <= u2 < curveP) by apply mod_range.
  assert (R3 : 0 <= s1 < curveP) by apply mod_range.
  assert (R4 : 0 <= s2 < curveP) by apply mod_range.
  assert (U1 : fk u1 = fmul (fk x1) (fmul (fk z2) (fk z2))).
  { unfold u1. repeat rewrite ?fk_mod, ?fk_mul. reflexivity. }
  assert (U2 : fk u2 = fmul (fk x2) (fmul (fk z1) (fk z1))).
  { unfold u2. repeat rewrite ?fk_mod, ?fk_mul. reflexivity. }
  assert (S1 : fk s1 = fmul (fmul (fk y1) (fk z2)) (fmul (fk z2) (fk z2))).
  { unfold s1. repeat rewrite ?fk_mod, ?fk_mul. reflexivity. }
  assert (S2 : fk s2 = fmul (fmul (fk y2) (fk z1)) (fmul (fk z1) (fk z1))).
  { unfold s2. repeat rewrite ?fk_mod, ?fk_mul. reflexivity. }
  clearbody u1 u2 s1 s2.
  rewrite up_0 by lia.
  destruct ((u2 - u1 =? 0) && (s2 - s1 =? 0)) eqn:EQ.
  - apply andb_true_iff in EQ. rewrite !Z.eqb_eq in EQ. destruct EQ as [Eu Es].
    assert (P = Q).
    { apply (add_J_eq K _ _ _ _ _ _ _ _ K_field K_dec _ _ _ _ _ _ P Q N1 N2 J1 J2).
      - rewrite <- U1, <- U2. f_equal. lia.
      - rewrite <- S1, <- S2. f_equal. lia. }
    subst Q. apply double_ok; [exact HP | ]. split; assumption.
  - split; [apply mod_range | ].
    assert (NE : ~ (fsub (fk u2) (fk u1) = fof curveP 0 /\ fsub (fk s2) (fk s1) = fof curveP 0)).
    { intros [A B].
      apply (sub_eq0 _ _ _ _ _ _ _ _ _ K_field) in A.
      apply (sub_eq0 _ _ _ _ _ _ _ _ _ K_field) in B.
      apply fk_eq in A. apply fk_eq in B. rewrite !Z.mod_small in A, B by assumption.
      subst u2 s2. rewrite !Z.sub_diag in EQ. discriminate EQ. }
    rewrite U1, U2, S1, S2 in NE.
    pose proof (add_J K _ _ _ _ _ _ _ _ K_field K_dec (fk 7) K_two_nz
                  (fk x1) (fk y1) (fk z1) (fk x2) (fk y2) (fk z2) P Q HP HQ
                  N1 N2 J1 J2 NE) as R. cbv zeta in R.
    repeat rewrite ?fk_mod, ?fk_add, ?fk_sub, ?fk_mul, ?fk_up, ?fk_2.
    rewrite U1, U2, S1, S2.
    match goal with |- repJ _ _ _ ?a ?b ?c _ =>
      match type of R with repJ _ _ _ ?a' ?b' ?c' _ =>
        replace a with a' by ring; replace b with b' by ring; replace c with c' by ring
      end end.
    exact R.
Qed.

Lemma fk_pos : forall a : K, fk (fval a) = a.
Proof. intros a. apply fof_fval. Qed.

Lemma fval_fk : forall z, fval (fk z) = z mod curveP.
Proof. reflexivity. Qed.

Lemma affine_ok : forall x y z P, jrep (x, y, z) P ->
  affineFromJacobian (x, y, z) = Ok (encP P).
Proof.
  intros x y z P [Hz HJ]. unfold affineFromJacobian.
  destruct (z =? 0) eqn:E.
  - apply Z.eqb_eq in E. subst z. destruct P; [reflexivity | ].
    destruct HJ as [C _]. contradiction.
  - pose proof (fk_nz z Hz E) as Nz. apply Z.eqb_neq in E.
    destruct (mod_inverse_prime curveP z curveP_prime) as (i & Ei & Hi & Hm).
    { rewrite Z.mod_small by exact Hz. exact E. }
    rewrite Ei. destruct P as [ | ax ay]; [cbn in HJ; contradiction | ].
    destruct HJ as (_ & Jx & Jy).
    pose proof (fof_inv curveP z i curveP_prime Hm) as Fi.
    change (fof curveP i) with (fk i) in Fi. change (fof curveP z) with (fk z) in Fi.
    assert (Ex : fk (x * (i * i)) = ax).
    { rewrite !fk_mul, Fi, Jx. field. exact Nz. }
    assert (Ey : fk (y * (i * i * i)) = ay).
    { rewrite !fk_mul, Fi, Jy. field. exact Nz. }
    cbn [encP]. rewrite <- Ex, <- Ey. reflexivity.
Qed.

Lemma zfor_ok : forall P, s_on P ->
  jrep (fst (encP P), snd (encP P), zForAffine (fst (encP P)) (snd (encP P))) P.
Proof.
  intros [ | x y] HP; cbn [encP fst snd].
  - split; [split; [discriminate | reflexivity] | reflexivity].
  - pose proof (on_y_nz _ _ _ _ _ _ _ _ _ K_field _ K_no_y0 _ _ HP) as Hy.
    assert (E : zForAffine (fval x) (fval y) = 1).
    { unfold zForAffine. destruct (fval y =? 0) eqn:F.
      - exfalso. apply Hy. apply Z.eqb_eq in F. rewrite <- (fk_pos y), F. reflexivity.
      - rewrite orb_true_r. reflexivity. }
    rewrite E. split; [split; [discriminate | reflexivity] | ].
    rewrite !fk_pos, fk_1. split; [ | split; ring].
    exact (F_1_neq_0 K_field).
Qed.

Lemma affine_ok' : forall t P, jrep t P -> affineFromJacobian t = Ok (encP P).
Proof. intros [[x y] z] P. apply affine_ok. Qed.

(** Add and Double. *)
Theorem curveAdd_ok : forall a b : gp,
  curveAdd (fst (enc a)) (snd (enc a)) (fst (enc b)) (snd (enc b)) = Ok (enc (gadd a b)).
Proof.
  intros a b. unfold curveAdd. apply affine_ok'. unfold enc.
  apply add_ok; try apply gp_on; apply zfor_ok; apply gp_on.
Qed.

Theorem curveDouble_ok : forall a : gp,
  curveDouble (fst (enc a)) (snd (enc a)) = Ok (enc (gadd a a)).
Proof.
  intros a. unfold curveDouble. apply affine_ok'. unfold enc.
  apply double_ok; try apply gp_on; apply zfor_ok; apply gp_on.
Qed.

(** ** Scalar multiplication *)

(** Value of the top [n] bits of a byte. *)
Lemma byte_step : forall byte, 0 <= byte < 256 ->
  (Z.land byte 128 =? 128) = (128 <=? byte).
Proof.
  intros byte H.
  assert (G : forallb (fun b => Bool.eqb (Z.land b 128 =? 128) (128 <=? b))
                (map Z.of_nat (seq 0 256)) = true) by (vm_compute; reflexivity).
  rewrite forallb_forall in G. apply eqb_prop. apply G.
  apply in_map_iff. exists (Z.to_nat byte). split; [lia | ]. apply in_seq. lia.
Qed.

Lemma multBits_ok : forall n Bx By byte t (a : gp) m,
  0 <= byte < 256 -> jrep (Bx, By, 1) (gpt a) -> jrep t (gpt (gmul m a)) ->
  jrep (multBits n Bx By byte t)
       (gpt (gmul (m * 2 ^ Z.of_nat n + byte * 2 ^ Z.of_nat n / 256) a)) \/ (8 < n)%nat.
Proof.
  induction n as [ | n IH]; intros Bx By byte t a m Hb HB Ht.
  - left. cbn [multBits]. change (2 ^ Z.of_nat 0) with 1.
    rewrite !Z.mul_1_r, (Z.div_small byte 256), Z.add_0_r by lia. exact Ht.
  - destruct (le_lt_dec (S n) 8) as [Hn | Hn]; [ | right; lia]. left.
    destruct t as [[x y] z]. cbn [multBits].
    pose proof (double_ok x y z _ (gp_on _) Ht) as Hd.
    change (s_add (gpt (gmul m a)) (gpt (gmul m a)))
      with (gpt (gadd (gmul m a) (gmul m a))) in Hd.
    rewrite <- gmul_add in Hd.
    destruct (doubleJacobian x y z) as [[x' y'] z'].
    rewrite byte_step by exact Hb.
    set (bit := if 128 <=? byte then 1 else 0).
    assert (Hs : jrep (if 128 <=? byte then addJacobian Bx By 1 x' y' z' else (x', y', z'))
                      (gpt (gmul (m + m + bit) a))).
    { unfold bit. destruct (128 <=? byte).
      - rewrite (Z.add_comm (m + m) 1), gmul_add, gmul_1.
        apply add_ok; try apply gp_on; assumption.
      - rewrite Z.add_0_r. exact Hd. }
    destruct (IH Bx By ((2 * byte) mod 256) _ a (m + m + bit)
                (Z.mod_pos_bound (2 * byte) 256 eq_refl) HB Hs) as [R | R]; [ | lia].
    rewrite Nat2Z.inj_succ, Z.pow_succ_r by lia.
    set (k := 2 ^ Z.of_nat n) in *.
    replace (m * (2 * k) + byte * (2 * k) / 256)
      with ((m + m + bit) * k + (2 * byte) mod 256 * k / 256); [exact R | ].
    assert (B : 2 * byte = 256 * bit + (2 * byte) mod 256).
    { unfold bit. destruct (128 <=? byte) eqn:E.
      - apply Z.leb_le in E. rewrite (Z.mod_eq (2 * byte) 256) by lia.
        assert (2 * byte / 256 = 1); [ | lia].
        symmetry. apply Z.div_unique with (2 * byte - 256); lia.
      - apply Z.leb_gt in E. rewrite Z.mod_small by lia. lia. }
    replace (byte * (2 * k)) with ((2 * byte) * k) by ring.
    rewrite B at 2.
    replace ((256 * bit + (2 * byte) mod 256) * k)
      with ((2 * byte) mod 256 * k + (bit * k) * 256) by ring.
    rewrite Z.div_add by lia. ring.
Qed.

Lemma multBytes_ok : forall k Bx By t (a : gp) m,
  bytes_ok k -> jrep (Bx, By, 1) (gpt a) -> jrep t (gpt (gmul m a)) ->
  jrep (multBytes Bx By k t) (gpt (gmul (m * 256 ^ len k + set_bytes k) a)).
Proof.
  induction k as [ | byte k IH]; intros Bx By t a m Hk HB Ht.
  - cbn [multBytes]. change (len (@nil Z)) with 0. change (set_bytes []) with 0.
    rewrite Z.pow_0_r, Z.mul_1_r, Z.add_0_r. exact Ht.
  - inversion Hk as [ | b' k' Hb Hk']; subst. cbn [multBytes].
    destruct (multBits_ok 8 Bx By byte t a m Hb HB Ht) as [R | R]; [ | lia].
    change (2 ^ Z.of_nat 8) with 256 in R. rewrite Z.div_mul in R by lia.
    pose proof (IH Bx By _ a _ Hk' HB R) as R'.
    rewrite set_bytes_cons, len_cons.
    rewrite Z.pow_add_r, Z.pow_1_r by (pose proof (len_nonneg k); lia).
    replace (m * (256 * 256 ^ len k) + (byte * 256 ^ len k + set_bytes k))
      with ((m * 256 + byte) * 256 ^ len k + set_bytes k) by ring.
    exact R'.
Qed.

Lemma base_jrep : forall a : gp, a <> g0 -> jrep (fst (enc a), snd (enc a), 1) (gpt a).
Proof.
  intros a Ha. pose proof (zfor_ok (gpt a) (gp_on a)) as H. unfold enc.
  destruct (gpt a) as [ | x y] eqn:E.
  - exfalso. apply Ha. apply gp_eq. exact E.
  - pose proof (gp_on a) as HP. rewrite E in HP.
    pose proof (on_y_nz _ _ _ _ _ _ _ _ _ K_field _ K_no_y0 _ _ HP) as Hy.
    cbn [encP fst snd] in *.
    assert (F : zForAffine (fval x) (fval y) = 1).
    { unfold zForAffine. destruct (fval y =? 0) eqn:F.
      - exfalso. apply Hy. apply Z.eqb_eq in F. rewrite <- (fk_pos y), F. reflexivity.
      - rewrite orb_true_r. reflexivity. }
    rewrite F in H. exact H.
Qed.

Lemma zero_mult : forall k t, t = (0, 0, 0) \/ t = (0, 0, 1) ->
  multBytes 0 0 k t = (0, 0, 0) \/ multBytes 0 0 k t = (0, 0, 1).
Proof.
  assert (B : forall n byte t, t = (0, 0, 0) \/ t = (0, 0, 1) ->
     multBits n 0 0 byte t = (0, 0, 0) \/ multBits n 0 0 byte t = (0, 0, 1)).
  { induction n as [ | n IH]; intros byte t Ht; [exact Ht | ].
    destruct Ht as [-> | ->]; cbn [multBits].
    - change (doubleJacobian 0 0 0) with (0, 0, 0). cbv iota beta.
      apply IH. destruct (Z.land byte 128 =? 128); [right | left]; reflexivity.
    - change (doubleJacobian 0 0 1) with (0, 0, 0). cbv iota beta.
      apply IH. destruct (Z.land byte 128 =? 128); [right | left]; reflexivity. }
  induction k as [ | byte k IH]; intros t Ht; [exact Ht | ].
  cbn [multBytes]. apply IH. apply B. exact Ht.
Qed.

Theorem ScalarMult_ok : forall (a : gp) k, bytes_ok k ->
  ScalarMult (fst (enc a)) (snd (enc a)) k = Ok (enc (gmul (set_bytes k) a)).
Proof.
  intros a k Hk. unfold ScalarMult. destruct (gp_dec a g0) as [E | E].
  - subst a. rewrite gmul_g0. change (enc g0) with (0, 0). cbn [fst snd].
    destruct (zero_mult k (0, 0, 0) (or_introl eq_refl)) as [H | H]; rewrite H; reflexivity.
  - apply affine_ok'. change (set_bytes k) with (0 * 256 ^ len k + set_bytes k).
    apply multBytes_ok; [exact Hk | apply base_jrep; exact E | ].
    split; [split; [discriminate | reflexivity] | reflexivity].
Qed.

Theorem ScalarBaseMult_ok : forall k, bytes_ok k ->
  ScalarBaseMult k = Ok (enc (gmul (set_bytes k) gG)).
Proof.
  intros k Hk. exact (ScalarMult_ok gG k Hk).
Qed.

(** ** Which pairs are encodings of points *)

(** Reduced coordinates satisfying the equation, or (0, 0) for infinity. *)
Definition valid (p : Z * Z) : Prop :=
  p = (0, 0) \/
  (0 <= fst p < curveP /\ 0 <= snd p < curveP /\
   (snd p * snd p) mod curveP = (fst p * fst p * fst p + 7) mod curveP).

Lemma enc_valid : forall a, valid (enc a).
Proof.
  intros [[ | x y] H]; [left; reflexivity | right].
  unfold enc. cbn in H |- *. apply Z.eqb_eq in H.
  rewrite <- (fval_mod _ x) at 1 2. rewrite <- (fval_mod _ y) at 1 2.
  split; [apply mod_range | ]. split; [apply mod_range | exact H].
Qed.

Lemma valid_enc : forall p, valid p -> exists a, p = enc a.
Proof.
  intros [x y] [E | (Hx & Hy & H)].
  - exists g0. exact E.
  - cbn [fst snd] in *.
    assert (O : s_onb (Aff (fk x) (fk y)) = true).
    { cbn. apply Z.eqb_eq. rewrite (Z.mod_small x), (Z.mod_small y) by assumption. exact H. }
    exists (exist _ (Aff (fk x) (fk y)) O). unfold enc. cbn.
    rewrite !Z.mod_small by assumption. reflexivity.
Qed.

Lemma enc_inj : forall a b, enc a = enc b -> a = b.
Proof.
  intros a b H. apply gp_eq. unfold enc in H.
  pose proof (gp_on a) as Ha. pose proof (gp_on b) as Hb.
  destruct (gpt a) as [ | x1 y1], (gpt b) as [ | x2 y2]; cbn in H.
  - reflexivity.
  - exfalso. pose proof (on_y_nz _ _ _ _ _ _ _ _ _ K_field _ K_no_y0 _ _ Hb) as N.
    apply N. injection H as _ E. rewrite <- (fk_pos y2), <- E. reflexivity.
  - exfalso. pose proof (on_y_nz _ _ _ _ _ _ _ _ _ K_field _ K_no_y0 _ _ Ha) as N.
    apply N. injection H as _ E. rewrite <- (fk_pos y1), E. reflexivity.
  - injection H as E1 E2. f_equal; apply fval_eq; assumption.
Qed.

Lemma enc_G : enc gG = (curveGx, curveGy).
Proof. reflexivity. Qed.

Lemma enc_g0 : enc g0 = (0, 0).
Proof. reflexivity. Qed.

Lemma gmul_N : forall k, gmul (k mod curveN) gG = gmul k gG.
Proof. intros k. apply gmul_mod; [discriminate | exact G_order]. Qed.

Lemma gG_nz : gG <> g0.
Proof. intro H. apply (f_equal enc) in H. rewrite enc_G, enc_g0 in H. discriminate H. Qed.

(** N is the exact order of G. *)
Lemma gmul_G_0 : forall k, gmul k gG = g0 <-> k mod curveN = 0.
Proof.
  intros k. split; intro H.
  - destruct (Z.eq_dec (k mod curveN) 0) as [E | E]; [exact E | exfalso].
    pose proof (prime_gcd curveN k curveN_prime E) as G.
    destruct (Z.gcd_bezout _ _ _ G) as (u & v & B).
    apply gG_nz. rewrite <- (gmul_1 gG), <- B, gmul_add, !gmul_mul, H, G_order, !gmul_g0.
    apply gadd_0_l.
  - rewrite <- gmul_N, H. reflexivity.
Qed.

Lemma gmul_G_inj : forall j k, gmul j gG = gmul k gG -> j mod curveN = k mod curveN.
Proof.
  intros j k H. apply eqm_sub; [reflexivity | ]. apply Zmod_divide; [discriminate | ].
  apply gmul_G_0. replace (j - k) with (j + - k) by lia.
  rewrite gmul_add, gmul_opp, H. apply gadd_opp.
Qed.
