(** Schnorr signatures. *)

From Coq Require Import Znumtheory Field Ring.
From Verif Require Import GoBase BaseLemmas BigInt BigIntProofs NumTheory BigMod Fp EcGroup SecpModel SecpGroup SecpOrder SecpOrderN SecpProofs SecpCyclic SecpSpec SecpLink EcdsaModel EcdsaSpec EcdsaNonce EcdsaProofs PubKeyModel PubKeySpec PubKeyProofs SchnorrModel SchnorrSpec.
Local Open Scope Z_scope.

Add Field KF3 : K_field.

(** ** Squares modulo a prime that is 3 modulo 4 *)
Section Squares.
Variable p : Z.
Hypothesis Hp : prime p.
Hypothesis H4 : p mod 4 = 3.

Lemma p_pos : 2 < p.
Proof. pose proof (prime_ge_2 p Hp). destruct (Z.eq_dec p 2) as [-> | N]; [discriminate H4 | lia]. Qed.

Lemma half : (p - 1) / 2 = 2 * (p / 4) + 1 /\ p = 4 * (p / 4) + 3 /\ 0 <= p / 4.
Proof.
  pose proof (Z.div_mod p 4 ltac:(lia)) as D. rewrite H4 in D. pose proof p_pos.
  assert (Q : 0 <= p / 4) by (apply Z.div_pos; lia).
  split; [ | lia]. symmetry. apply Z.div_unique with (r := 0); lia.
Qed.

Lemma jacobi_pow : forall y, jacobi y p = 1 <-> y mod p <> 0 /\ y ^ ((p - 1) / 2) mod p = 1.
Proof.
  intro y. unfold jacobi. pose proof p_pos. destruct half as (E & _ & Q).
  destruct (y mod p =? 0) eqn:Z0.
  { apply Z.eqb_eq in Z0. split; [discriminate | ]. intros [N _]. contradiction. }
  apply Z.eqb_neq in Z0. unfold big_exp.
  destruct ((p - 1) / 2) as [ | e | e] eqn:F; [lia | | lia].
  rewrite powm_spec by lia. 
  destruct (Z.eq_dec (y ^ Z.pos e mod p) 1) as [O | O].
  - rewrite O. tauto.
  - split; [ | tauto]. destruct (y ^ Z.pos e mod p) as [ | [ | | ] | ]; try discriminate.
    contradiction.
Qed.

Lemma jacobi_square : forall y,
  jacobi y p = 1 <-> y mod p <> 0 /\ exists z, (z * z) mod p = y mod p.
Proof.
  intro y. rewrite jacobi_pow. pose proof p_pos as PP. destruct half as (E & P4 & Q).
  split; intros [N H]; (split; [exact N | ]).
  - exists (y ^ (p / 4 + 1)). rewrite <- Z.pow_add_r by lia.
    replace (p / 4 + 1 + (p / 4 + 1)) with ((p - 1) / 2 + 1) by lia.
    rewrite Z.pow_add_r, Z.pow_1_r by lia.
    rewrite Z.mul_mod, H, Z.mul_1_l, Zmod_mod by lia. reflexivity.
  - destruct H as (z & Z0).
    rewrite <- pow_mod_base, <- Z0, pow_mod_base by lia.
    replace (z * z) with (z ^ 2) by ring. rewrite <- Z.pow_mul_r by lia.
    replace (2 * ((p - 1) / 2)) with (p - 1) by lia.
    apply fermat; [exact Hp | ]. apply mod_nz_rel; [exact Hp | ].
    intro Z1. apply N. rewrite <- Z0, Z.mul_mod, Z1 by lia. reflexivity.
Qed.

Lemma pow_opp_odd : forall y e, 0 <= e -> (- y) ^ (2 * e + 1) = - y ^ (2 * e + 1).
Proof.
  intros y e He. rewrite !Z.pow_add_r, !Z.pow_mul_r, !Z.pow_1_r by lia.
  replace ((- y) ^ 2) with (y ^ 2) by ring. ring.
Qed.

Lemma pow_half : forall y, y mod p <> 0 ->
  y ^ ((p - 1) / 2) mod p = 1 \/ (- y) ^ ((p - 1) / 2) mod p = 1.
Proof.
  intros y N. pose proof p_pos as PP. destruct half as (E & P4 & Q).
  set (h := y ^ ((p - 1) / 2)).
  assert (D : (p | (h - 1) * (h + 1))).
  { replace ((h - 1) * (h + 1)) with (h * h - 1) by ring. apply eqm_div; [lia | ].
    rewrite (Z.mod_small 1) by lia. unfold h. rewrite <- Z.pow_add_r by lia.
    replace ((p - 1) / 2 + (p - 1) / 2) with (p - 1) by lia.
    apply fermat; [exact Hp | ]. apply mod_nz_rel; assumption. }
  destruct (prime_mult p Hp _ _ D) as [C | C].
  - left. apply eqm_sub in C; [ | lia]. rewrite (Z.mod_small 1) in C by lia. exact C.
  - right. rewrite E, pow_opp_odd, <- E by exact Q. fold h.
    rewrite <- (Z.mod_small 1 p) by lia. apply eqm_sub; [lia | ].
    destruct C as (k & C). exists (- k). lia.
Qed.

Lemma jacobi_opp : forall y, y mod p <> 0 -> jacobi y p <> 1 -> jacobi (- y) p = 1.
Proof.
  intros y N J. apply jacobi_pow. pose proof p_pos. split.
  - intro Z0. apply N. apply Zmod_divide in Z0; [ | lia]. apply Zdivide_mod.
    apply Zdivide_opp_r in Z0. rewrite Z.opp_involutive in Z0. exact Z0.
  - destruct (pow_half y N) as [H1 | H1]; [ | exact H1].
    exfalso. apply J. apply jacobi_pow. tauto.
Qed.

Lemma jacobi_mod : forall y, jacobi (y mod p) p = jacobi y p.
Proof.
  intro y. pose proof p_pos as PP. unfold jacobi. rewrite Zmod_mod.
  destruct (y mod p =? 0); [reflexivity | ].
  unfold big_exp. destruct ((p - 1) / 2) as [ | e | e] eqn:F; [reflexivity | | destruct half; lia].
  rewrite !powm_spec, pow_mod_base by lia. reflexivity.
Qed.
End Squares.

Lemma jac_square : forall y, jacobi y curveP = 1 <-> is_square y.
Proof.
  intro y. rewrite (jacobi_square curveP curveP_prime mod4). unfold is_square.
  rewrite eqp_fk, fk_eq. change (0 mod curveP) with 0. split; intros [N (z & H)]; (split; [exact N | exists z]).
  - apply eqp_fk, fk_eq. exact H.
  - apply eqp_fk, fk_eq in H. exact H.
Qed.

(** ** Points *)

Lemma enc_range : forall a, a <> g0 -> 0 <= fst (enc a) < curveP /\ 0 < snd (enc a) < curveP.
Proof.
  intros a N. unfold enc. pose proof (gp_on a) as O.
  destruct (gpt a) as [ | x y] eqn:E.
  - exfalso. apply N. apply gp_eq. exact E.
  - cbn [encP fst snd]. split; [apply fval_rng | exact (y_range _ _ O)].
Qed.

Lemma enc_bounds : forall a, 0 <= fst (enc a) < curveP /\ 0 <= snd (enc a) < curveP.
Proof.
  intro a. destruct (gp_dec a g0) as [-> | N]; [split; (split; [discriminate | reflexivity]) | ].
  pose proof (enc_range a N). lia.
Qed.

Lemma enc_opp_y : forall a, a <> g0 -> snd (enc (gopp a)) = curveP - snd (enc a).
Proof.
  intros a N. pose proof (enc_range a N) as (_ & R).
  assert (E : snd (enc (gopp a)) = (- snd (enc a)) mod curveP).
  { unfold enc. change (gpt (gopp a)) with (s_neg (gpt a)).
    destruct (gpt a) as [ | x y]; [reflexivity | ]. cbn [s_neg neg encP snd]. reflexivity. }
  rewrite E. symmetry. apply Z.mod_unique with (q := -1); lia.
Qed.

Lemma enc_opp : forall a, a <> g0 -> enc (gopp a) = (fst (enc a), curveP - snd (enc a)).
Proof.
  intros a N. rewrite <- (enc_opp_x a), <- (enc_opp_y a N). apply surjective_pairing.
Qed.

(** The third point of the line through (x, y) and (0, 0), in any field. *)
Section Third.
Variable F : Type.
Variables zero one : F.
Variables add mul sub : F -> F -> F.
Variable opp : F -> F.
Variable div : F -> F -> F.
Variable inv : F -> F.
Hypothesis Fth : Field_theory.field_theory zero one add mul sub opp div inv (@eq F).
Add Field FF : Fth.

Lemma third_point : forall x y b, add one one <> zero -> x <> zero ->
  mul y y = add (mul (mul x x) x) b ->
  mul (sub (sub (sub (mul (mul (add one one) (opp y)) (mul (add one one) (opp y)))
                     (mul (opp x) (mul (mul (add one one) (opp x)) (mul (add one one) (opp x)))))
                (mul x (mul (mul (add one one) (opp x)) (mul (add one one) (opp x)))))
           (mul x (mul (mul (add one one) (opp x)) (mul (add one one) (opp x)))))
      (mul (inv (mul (add one one) (opp x))) (inv (mul (add one one) (opp x)))) = x ->
  mul (mul x x) x = b.
Proof.
  intros x y b T X ON E.
  assert (Q : b = sub (mul y y) (mul (mul x x) x)) by (rewrite ON; ring).
  match type of E with ?l = _ => assert (A : mul l (mul x x) = sub (mul y y) (mul (mul x x) x)) end.
  { field. split; [ | exact T]. intro O. apply X.
    transitivity (opp (opp x)); [ring | rewrite O; ring]. }
  rewrite E in A. rewrite Q, <- A. ring.
Qed.
End Third.

(** Adding what the program computes for minus infinity. *)
Lemma add_bad : forall a, a <> g0 ->
  exists x y, curveAdd (fst (enc a)) (snd (enc a)) 0 curveP = Ok (x, y) /\
    (x = 0 /\ y = 0 \/ x <> fst (enc a)).
Proof.
  intros a N. pose proof (enc_range a N) as (Rx & Ry).
  assert (ON : fmul (fk (snd (enc a))) (fk (snd (enc a))) =
               fadd (fmul (fmul (fk (fst (enc a))) (fk (fst (enc a)))) (fk (fst (enc a)))) (fk 7)).
  { unfold enc. pose proof (gp_on a) as O. destruct (gpt a) as [ | x y] eqn:E.
    - exfalso. apply N. apply gp_eq. exact E.
    - cbn [encP fst snd]. rewrite !fk_pos. exact O. }
  set (x1 := fst (enc a)) in *. set (y1 := snd (enc a)) in *. clearbody x1 y1.
  unfold curveAdd. 
  assert (Z1 : zForAffine x1 y1 = 1).
  { unfold zForAffine. destruct (y1 =? 0) eqn:E; [apply Z.eqb_eq in E; lia | ].
    rewrite orb_true_r. reflexivity. }
  change (zForAffine 0 curveP) with 1. rewrite Z1. unfold addJacobian.
  change (1 =? 0) with false. cbv iota. cbv zeta.
  change ((1 * 1) mod curveP) with 1. change ((0 * 1) mod curveP) with 0.
  rewrite !Z.mul_1_r. change (curveP mod curveP) with 0.
  rewrite (Z.mod_small x1), (Z.mod_small y1) by lia.
  rewrite (Z.sub_0_l x1), (Z.sub_0_l y1).
  assert (YE : ((if - y1 <? 0 then - y1 + curveP else - y1) =? 0) = false).
  { apply Z.eqb_neq. destruct (- y1 <? 0) eqn:F; [lia | apply Z.ltb_ge in F; lia]. }
  rewrite YE, andb_false_r. change ((1 + 1) * (1 + 1) - 1 - 1) with 2.
  set (h := if - x1 <? 0 then - x1 + curveP else - x1).
  set (r1 := if - y1 <? 0 then - y1 + curveP else - y1).
  assert (Fh : fk h = fopp (fk x1)).
  { unfold h. rewrite fk_up. rewrite <- Z.sub_0_l, fk_sub. change (fk 0) with (fof curveP 0). ring. }
  assert (Fr : fk r1 = fopp (fk y1)).
  { unfold r1. rewrite fk_up. rewrite <- Z.sub_0_l, fk_sub. change (fk 0) with (fof curveP 0). ring. }
  unfold affineFromJacobian.
  destruct ((2 * h) mod curveP =? 0) eqn:ZE.
  { exists 0, 0. split; [reflexivity | left; split; reflexivity]. }
  apply Z.eqb_neq in ZE.
  destruct (mod_inverse_prime curveP ((2 * h) mod curveP) curveP_prime) as (i & Ei & Hi & Hm).
  { rewrite Zmod_mod. exact ZE. }
  rewrite Ei.
  eexists _, _. split; [reflexivity | right]. intro E.
  pose proof (fof_inv curveP _ i curveP_prime Hm) as Fi.
  change (fof curveP i) with (fk i) in Fi.
  change (fof curveP ((2 * h) mod curveP)) with (fk ((2 * h) mod curveP)) in Fi.
  rewrite fk_mod, fk_mul, fk_2 in Fi.
  apply (f_equal fk) in E. repeat rewrite ?fk_mod, ?fk_sub, ?fk_mul, ?fk_2 in E.
  rewrite Fi, Fh, Fr in E.
  assert (X0 : fk x1 <> fof curveP 0).
  { intro X0. apply ZE. apply (fk_eq (2 * h) 0). rewrite fk_mul, Fh, X0, fk_2.
    change (fk 0) with (fof curveP 0). ring. }
  assert (C3 : fmul (fmul (fk x1) (fk x1)) (fk x1) = fk 7).
  { exact (third_point K _ _ _ _ _ _ _ _ K_field (fk x1) (fk y1) (fk 7) K_two_nz X0 ON E). }
  apply (curve_no_cube (- x1)). apply (fk_eq _ 0).
  replace (- x1 * - x1 * - x1 + 7) with (7 - x1 * x1 * x1) by ring.
  rewrite fk_sub, !fk_mul, C3. change (fk 0) with (fof curveP 0). ring.
Qed.

(** ** The program in the group *)

Lemma IntToByte_ok : forall x, 0 <= x < 2 ^ 256 -> IntToByte x = Ok (octets 32 x).
Proof. exact pad32_ok. Qed.

Lemma octets_back : forall x, 0 <= x < 2 ^ 256 -> set_bytes (octets 32 x) = x.
Proof.
  intros x H. rewrite octets_val. change (256 ^ Z.of_nat 32) with (2 ^ 256).
  apply Z.mod_small. exact H.
Qed.

Lemma N_lt : curveN < 2 ^ 256. Proof. reflexivity. Qed.

(** The challenge as the program computes it. *)
Definition echal (sha : bytes -> bytes) (a : gp) (m : bytes) (r : Z) : Z :=
  set_bytes (sha (octets 32 r ++ ((2 + parity (snd (enc a))) :: octets 32 (fst (enc a))) ++ m)) mod curveN.

Lemma echal_range : forall sha a m r, 0 <= echal sha a m r < curveN.
Proof. intros. apply Z.mod_pos_bound. exact N_pos. Qed.

Lemma echal_challenge : forall sha Q a m r, gof Q a -> challenge sha Q m r = echal sha a m r.
Proof.
  intros sha Q a m r H. unfold challenge, echal, compressed, parity.
  rewrite (gof_enc _ _ H), be_set_bytes, order_n_eq. reflexivity.
Qed.

Lemma GetE_ok : forall sha m a r,
  GetE sha m (fst (enc a)) (snd (enc a)) (octets 32 r) = Ok (echal sha a m r).
Proof.
  intros sha m a r. unfold GetE. pose proof (enc_bounds a) as (R & _). pose proof P_lt.
  rewrite SecMarshal_ok by lia. cbn [rbind]. rewrite <- app_assoc. reflexivity.
Qed.

(** The point Verify computes. *)
Definition rpoint (sha : bytes -> bytes) (a : gp) (m : bytes) (r s : Z) : gp :=
  gadd (gmul s gG) (gopp (gmul (echal sha a m r) a)).

Definition accepts (p : gp) (r : Z) : Prop :=
  p <> g0 /\ jacobi (snd (enc p)) curveP = 1 /\ fst (enc p) = r.

Lemma SchnorrVerify_out : forall sha px py m r s, curveP < r \/ curveN < s ->
  SchnorrVerifyRS sha px py m r s = Ok false.
Proof.
  intros sha px py m r s H. unfold SchnorrVerifyRS.
  destruct ((curveP <? r) || (curveN <? s)) eqn:E; [reflexivity | ].
  apply orb_false_iff in E. rewrite !Z.ltb_ge in E. lia.
Qed.

Lemma SchnorrVerify_group : forall sha a m r s, 0 <= r <= curveP -> 0 <= s <= curveN ->
  gmul (echal sha a m r) a <> g0 ->
  exists b, SchnorrVerifyRS sha (fst (enc a)) (snd (enc a)) m r s = Ok b /\
    (b = true <-> accepts (rpoint sha a m r s) r).
Proof.
  intros sha a m r s Hr Hs NE. unfold SchnorrVerifyRS. pose proof P_lt. pose proof N_lt.
  destruct ((curveP <? r) || (curveN <? s)) eqn:E.
  { apply orb_true_iff in E. rewrite !Z.ltb_lt in E. lia. }
  rewrite IntToByte_ok by lia. cbn [rbind]. rewrite GetE_ok. cbn [rbind].
  rewrite IntToByte_ok by lia. cbn [rbind].
  pose proof (echal_range sha a m r) as RE. set (e := echal sha a m r) in *.
  rewrite ScalarBaseMult_ok by apply octets_ok. rewrite octets_back by lia. cbn [rbind].
  rewrite IntToByte_ok by lia.
  destruct (enc (gmul s gG)) as [x1 y1] eqn:E1. cbn [rbind].
  rewrite ScalarMult_ok by apply octets_ok. rewrite octets_back by lia. cbn [rbind].
  pose proof (enc_opp _ NE) as EO.
  destruct (enc (gmul e a)) as [x2 y2] eqn:E2. cbn [fst snd] in EO.
  pose proof (curveAdd_ok (gmul s gG) (gopp (gmul e a))) as CA.
  rewrite E1, EO in CA. cbn [fst snd] in CA. rewrite CA. cbn [rbind].
  change (gadd (gmul s gG) (gopp (gmul e a))) with (rpoint sha a m r s).
  unfold accepts. pose proof (enc_zero (rpoint sha a m r s)) as EZ.
  destruct (enc (rpoint sha a m r s)) as [x y]. cbn [fst snd] in *.
  destruct ((x =? 0) && (y =? 0)) eqn:Z0; cbn [orb].
  { exists false. split; [reflexivity | ]. split; [discriminate | ].
    intros (N & _). exfalso. apply N. apply EZ. reflexivity. }
  destruct (jacobi y curveP =? 1) eqn:J; cbn [negb orb].
  - apply Z.eqb_eq in J. destruct (x =? r) eqn:X; cbn [negb].
    + apply Z.eqb_eq in X. exists true. split; [reflexivity | ]. split; [ | reflexivity].
      intros _. split; [intro G; apply EZ in G; discriminate G | ]. split; assumption.
    + apply Z.eqb_neq in X. exists false. split; [reflexivity | ]. split; [discriminate | ].
      intros (_ & _ & X'). contradiction.
  - apply Z.eqb_neq in J. exists false. split; [reflexivity | ]. split; [discriminate | ].
    intros (_ & J' & _). contradiction.
Qed.

Lemma jacobi_P : jacobi curveP curveP = 0.
Proof. unfold jacobi. rewrite Z_mod_same_full. reflexivity. Qed.

(** When eP is infinity the signature is refused if r is the x of sG, and if
    sG is infinity too. *)
Lemma SchnorrVerify_bad : forall sha a m r s, 0 <= r <= curveP -> 0 <= s <= curveN ->
  gmul (echal sha a m r) a = g0 -> gmul s gG = g0 \/ fst (enc (gmul s gG)) = r ->
  SchnorrVerifyRS sha (fst (enc a)) (snd (enc a)) m r s = Ok false.
Proof.
  intros sha a m r s Hr Hs NE X. unfold SchnorrVerifyRS. pose proof P_lt. pose proof N_lt.
  destruct ((curveP <? r) || (curveN <? s)) eqn:E; [reflexivity | ].
  rewrite IntToByte_ok by lia. cbn [rbind]. rewrite GetE_ok. cbn [rbind].
  rewrite IntToByte_ok by lia. cbn [rbind].
  pose proof (echal_range sha a m r) as RE. set (e := echal sha a m r) in *.
  rewrite ScalarBaseMult_ok by apply octets_ok. rewrite octets_back by lia. cbn [rbind].
  rewrite IntToByte_ok by lia.
  destruct (enc (gmul s gG)) as [x1 y1] eqn:E1. cbn [rbind].
  rewrite ScalarMult_ok by apply octets_ok. rewrite octets_back by lia. cbn [rbind].
  rewrite NE. change (enc g0) with (0, 0). cbv iota beta. rewrite Z.sub_0_r.
  destruct (gp_dec (gmul s gG) g0) as [Z0 | NZ].
  - rewrite Z0 in E1. change (enc g0) with (0, 0) in E1. injection E1 as <- <-.
    assert (C : curveAdd 0 0 0 curveP = Ok (0, 0)) by (vm_compute; reflexivity).
    rewrite C. reflexivity.
  - destruct X as [X | X]; [contradiction | ].
    destruct (add_bad _ NZ) as (x & y & C & D). cbn [fst snd] in X. rewrite E1 in C, D. cbn [fst snd] in C, D.
    rewrite C. cbn [rbind]. destruct D as [[-> ->] | D]; [reflexivity | ].
    destruct (x =? r) eqn:XR; [apply Z.eqb_eq in XR; congruence | ].
    cbn [negb]. rewrite orb_true_r. reflexivity.
Qed.

(** Sign. *)
Definition nonce0 (sha : bytes -> bytes) (D : Z) (m : bytes) : Z :=
  set_bytes (sha (octets 32 D ++ m)) mod curveN.

Lemma GetK_point : forall k0, gmul k0 gG <> g0 -> forall k, k = GetK (snd (enc (gmul k0 gG))) k0 ->
  (k = k0 \/ k = curveN - k0) /\
  gmul k gG <> g0 /\ jacobi (snd (enc (gmul k gG))) curveP = 1 /\
  fst (enc (gmul k gG)) = fst (enc (gmul k0 gG)).
Proof.
  intros k0 N k E. unfold GetK in E. pose proof (enc_range _ N) as (_ & RY).
  destruct (jacobi (snd (enc (gmul k0 gG))) curveP =? 1) eqn:J; subst k.
  - apply Z.eqb_eq in J. auto.
  - apply Z.eqb_neq in J. split; [right; reflexivity | ].
    assert (G : gmul (curveN - k0) gG = gopp (gmul k0 gG)).
    { replace (curveN - k0) with (curveN + - k0) by lia.
      rewrite gmul_add, gmul_opp, G_order, gadd_0_l. reflexivity. }
    rewrite G. split; [intro Z0; apply N, gopp_0; exact Z0 | ]. split; [ | apply enc_opp_x].
    rewrite enc_opp_y by exact N.
    rewrite <- (jacobi_mod curveP curveP_prime mod4).
    replace ((curveP - snd (enc (gmul k0 gG))) mod curveP) with ((- snd (enc (gmul k0 gG))) mod curveP).
    + rewrite (jacobi_mod curveP curveP_prime mod4).
      apply (jacobi_opp curveP curveP_prime mod4); [ | exact J].
      rewrite Z.mod_small; lia.
    + apply eqm_sub; [lia | ]. exists (-1). ring.
Qed.

Lemma Sign_ok : forall sha D m, 0 <= D < 2 ^ 256 ->
  let a := gmul D gG in
  (nonce0 sha D m = 0 /\ SchnorrSignRS sha D m = Err "k0 is zero") \/
  (exists k r s, SchnorrSignRS sha D m = Ok (r, s) /\
     (k = nonce0 sha D m \/ k = curveN - nonce0 sha D m) /\
     r = fst (enc (gmul k gG)) /\ s = (k + echal sha a m r * D) mod curveN /\
     gmul k gG <> g0 /\ jacobi (snd (enc (gmul k gG))) curveP = 1).
Proof.
  intros sha D m HD a. unfold SchnorrSignRS. rewrite IntToByte_ok by exact HD. cbn [rbind].
  unfold GetK0. fold (nonce0 sha D m).
  assert (RK : 0 <= nonce0 sha D m < curveN) by (apply Z.mod_pos_bound; exact N_pos).
  set (k0 := nonce0 sha D m) in *.
  destruct (k0 =? 0) eqn:Z0.
  { left. apply Z.eqb_eq in Z0. split; [exact Z0 | reflexivity]. }
  apply Z.eqb_neq in Z0. right. cbn [rbind].
  rewrite base_mult_big by lia. cbn [rbind].
  assert (NK : gmul k0 gG <> g0).
  { intro G. apply gmul_G_0 in G. rewrite Z.mod_small in G by lia. contradiction. }
  pose proof (GetK_point k0 NK _ eq_refl) as (KS & K0 & KJ & KX).
  set (k := GetK (snd (enc (gmul k0 gG))) k0) in *.
  pose proof (enc_bounds (gmul k0 gG)) as (RX & _). pose proof P_lt.
  destruct (enc (gmul k0 gG)) as [Rx Ry] eqn:E1. cbn [fst snd] in *.
  rewrite IntToByte_ok by lia. cbn [rbind].
  rewrite ScalarBaseMult_ok by apply octets_ok. rewrite octets_back by exact HD. cbn [rbind].
  fold a. pose proof (GetE_ok sha m a Rx) as GE.
  destruct (enc a) as [Px Py] eqn:E2. cbn [fst snd] in GE. rewrite GE. cbn [rbind].
  exists k, Rx, ((k + echal sha a m Rx * D) mod curveN).
  split; [reflexivity | ]. split; [exact KS | ]. split; [symmetry; exact KX | ].
  split; [reflexivity | ]. split; assumption.
Qed.

Lemma sign_point : forall k e D,
  gadd (gmul ((k + e * D) mod curveN) gG) (gopp (gmul e (gmul D gG))) = gmul k gG.
Proof.
  intros k e D. rewrite gmul_any_mod, gmul_add, gmul_mul, gadd_assoc, gadd_opp, gadd_0_r. reflexivity.
Qed.

(** The group statement and the statement in points. *)
Lemma schnorr_valid_group : forall sha Q a m r s, gof Q a ->
  (schnorr_valid sha Q m r s <->
   0 <= r < curveP /\ 0 <= s < curveN /\ accepts (rpoint sha a m r s) r).
Proof.
  intros sha Q a m r s HQ. unfold schnorr_valid. rewrite prime_p_eq, order_n_eq.
  rewrite (echal_challenge _ _ _ _ _ HQ). pose proof (echal_range sha a m r) as RE.
  split.
  - intros (Rr & Rs & S & E & y & MS & ME & SR & SQ).
    apply (gof_multiple _ _ _ _ gof_base) in MS; [ | lia].
    apply (gof_multiple _ _ _ _ HQ) in ME; [ | lia].
    apply (gof_sum _ _ _ _ _ MS (gof_opp _ _ ME)) in SR. fold (rpoint sha a m r s) in SR.
    split; [exact Rr | ]. split; [exact Rs | ]. split.
    + intro Z0. rewrite Z0 in SR. pose proof (gof_inj _ _ _ SR gof_inf). discriminate.
    + rewrite (gof_enc _ _ SR). cbn [fst snd px py]. split; [apply jac_square; exact SQ | reflexivity].
  - intros (Rr & Rs & NZ & J & X). split; [exact Rr | ]. split; [exact Rs | ].
    destruct (gof_ex (gmul s gG)) as (S & MS). destruct (gof_ex (gmul (echal sha a m r) a)) as (E & ME).
    destruct (gof_ex (rpoint sha a m r s)) as (R & MR).
    destruct R as [[x y] | ].
    + rewrite (gof_enc _ _ MR) in J, X. cbn [fst snd px py] in J, X. subst x.
      exists S, E, y. split; [apply (gof_multiple _ _ _ _ gof_base); [lia | exact MS] | ].
      split; [apply (gof_multiple _ _ _ _ HQ); [lia | exact ME] | ].
      split; [ | apply jac_square; exact J].
      apply (gof_sum _ _ _ _ _ MS (gof_opp _ _ ME)). exact MR.
    + exfalso. apply NZ. exact (gof_fun _ _ _ MR gof_inf).
Qed.
