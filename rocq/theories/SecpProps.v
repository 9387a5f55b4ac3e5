(** C68, C69, C88, C89: the curve arithmetic. *)

From Coq Require Import Znumtheory.
From Verif Require Import GoBase BaseLemmas BigInt BigIntProofs NumTheory SecpPrimes SecpModel SecpGroup SecpOrder SecpOrderN SecpProofs SecpSpec SecpLink.
Local Open Scope Z_scope.

Lemma add_points : forall P Q a b, gof P a -> gof Q b ->
  curveAdd (px P) (py P) (px Q) (py Q) = Ok (enc (gadd a b)).
Proof.
  intros P Q a b HP HQ. pose proof (curveAdd_ok a b) as H.
  rewrite (gof_enc _ _ HP), (gof_enc _ _ HQ) in H. exact H.
Qed.

Lemma mult_points : forall P a k, gof P a -> bytes_ok k ->
  ScalarMult (px P) (py P) k = Ok (enc (gmul (be k) a)).
Proof.
  intros P a k HP Hk. pose proof (ScalarMult_ok a k Hk) as H.
  rewrite (gof_enc _ _ HP), <- be_set_bytes in H. exact H.
Qed.

Lemma be_nonneg : forall k, bytes_ok k -> 0 <= be k.
Proof. intros k Hk. rewrite be_set_bytes. apply set_bytes_nonneg. exact Hk. Qed.

(** The pair determines the point. *)
Lemma pair_point : forall P a b, gof P b -> enc a = (px P, py P) -> gof P a.
Proof.
  intros P a b HP E. rewrite <- (gof_enc _ _ HP) in E. apply enc_inj in E. subst b. exact HP.
Qed.

(** Add never fails on points of the curve (or infinity), and its result is
    the chord-and-tangent sum, again a reduced point of the curve. *)
Theorem C68_add : forall P Q, good P -> good Q ->
  exists R, good R /\ sum_of P Q R /\
    curveAdd (px P) (py P) (px Q) (py Q) = Ok (px R, py R).
Proof.
  intros P Q HP HQ. destruct (gof_good P HP) as (a & Ha), (gof_good Q HQ) as (b & Hb).
  destruct (gof_ex (gadd a b)) as (R & HR). exists R.
  split; [exact (gof_is_good _ _ HR) | ].
  split; [apply (gof_sum P Q R a b Ha Hb); exact HR | ].
  rewrite (add_points P Q a b Ha Hb), (gof_enc _ _ HR). reflexivity.
Qed.
Print Assumptions C68_add.

(** And it is that sum only: the specification determines the output. *)
Theorem C68_add_unique : forall P Q R, good P -> good Q -> good R ->
  (curveAdd (px P) (py P) (px Q) (py Q) = Ok (px R, py R) <-> sum_of P Q R).
Proof.
  intros P Q R HP HQ HR.
  destruct (gof_good P HP) as (a & Ha), (gof_good Q HQ) as (b & Hb), (gof_good R HR) as (c & Hc).
  rewrite (add_points P Q a b Ha Hb), (gof_sum P Q R a b Ha Hb). split.
  - intro E. apply (pair_point R _ c Hc). congruence.
  - intro H. rewrite (gof_enc _ _ H). reflexivity.
Qed.
Print Assumptions C68_add_unique.

Theorem C68_double : forall P, good P ->
  exists R, good R /\ sum_of P P R /\
    curveDouble (px P) (py P) = Ok (px R, py R).
Proof.
  intros P HP. destruct (gof_good P HP) as (a & Ha).
  destruct (gof_ex (gadd a a)) as (R & HR). exists R.
  split; [exact (gof_is_good _ _ HR) | ].
  split; [apply (gof_sum P P R a a Ha Ha); exact HR | ].
  pose proof (curveDouble_ok a) as H. rewrite (gof_enc _ _ Ha), (gof_enc _ _ HR) in H.
  exact H.
Qed.
Print Assumptions C68_double.

(** IsOnCurve decides the curve equation. *)
Theorem C68_on_curve : forall x y,
  IsOnCurve x y = true <-> eqp (y * y) (x * x * x + 7).
Proof.
  intros x y. rewrite eqp_fk, fk_eq. unfold IsOnCurve, curveB. rewrite Z.eqb_eq.
  split; intro H; symmetry; exact H.
Qed.
Print Assumptions C68_on_curve.

(** Opposite points cancel, and there is no point with y = 0. *)
Theorem C68_inverse : forall P, good P ->
  good (opposite P) /\
  curveAdd (px P) (py P) (px (opposite P)) (py (opposite P)) = Ok (0, 0).
Proof.
  intros P HP. destruct (gof_good P HP) as (a & Ha). pose proof (gof_opp P a Ha) as Ho.
  split; [exact (gof_is_good _ _ Ho) | ].
  rewrite (add_points _ _ _ _ Ha Ho), gadd_opp. reflexivity.
Qed.
Print Assumptions C68_inverse.

(** ScalarMult is the k-fold sum. *)
Theorem C69_scalar_mult : forall P k, good P -> bytes_ok k ->
  exists R, good R /\ multiple P (be k) R /\
    ScalarMult (px P) (py P) k = Ok (px R, py R).
Proof.
  intros P k HP Hk. destruct (gof_good P HP) as (a & Ha).
  destruct (gof_ex (gmul (be k) a)) as (R & HR). exists R.
  split; [exact (gof_is_good _ _ HR) | ].
  split; [apply (gof_multiple P a _ R Ha (be_nonneg k Hk)); exact HR | ].
  rewrite (mult_points P a k Ha Hk), (gof_enc _ _ HR). reflexivity.
Qed.
Print Assumptions C69_scalar_mult.

Theorem C69_leading_zeros : forall P k n, good P -> bytes_ok k ->
  ScalarMult (px P) (py P) (repeat 0 n ++ k) = ScalarMult (px P) (py P) k.
Proof.
  intros P k n HP Hk. destruct (gof_good P HP) as (a & Ha).
  assert (Hz : bytes_ok (repeat 0 n ++ k)).
  { apply Forall_app. split; [ | exact Hk]. apply Forall_forall. intros x Hx.
    apply repeat_spec in Hx. subst x. split; [discriminate | reflexivity]. }
  rewrite (mult_points P a _ Ha Hz), (mult_points P a k Ha Hk). do 3 f_equal.
  clear. induction n as [ | n IH]; [reflexivity | ]. cbn [repeat app be].
  rewrite IH. ring.
Qed.
Print Assumptions C69_leading_zeros.

(** Scalars add: modulo the order for the base point, exactly for any point. *)
Theorem C69_homomorphism : forall ka kb kc,
  bytes_ok ka -> bytes_ok kb -> bytes_ok kc ->
  be kc = (be ka + be kb) mod order_n ->
  exists A B, good A /\ good B /\
    ScalarBaseMult ka = Ok (px A, py A) /\ ScalarBaseMult kb = Ok (px B, py B) /\
    ScalarBaseMult kc = curveAdd (px A) (py A) (px B) (py B).
Proof.
  intros ka kb kc Ha Hb Hc E.
  assert (M : forall k, bytes_ok k -> ScalarBaseMult k = Ok (enc (gmul (be k) gG))).
  { intros k Hk. rewrite be_set_bytes. apply ScalarBaseMult_ok. exact Hk. }
  destruct (gof_ex (gmul (be ka) gG)) as (A & HA).
  destruct (gof_ex (gmul (be kb) gG)) as (B & HB).
  exists A, B. split; [exact (gof_is_good _ _ HA) | ].
  split; [exact (gof_is_good _ _ HB) | ].
  rewrite (M ka Ha), (M kb Hb), (M kc Hc), (gof_enc _ _ HA), (gof_enc _ _ HB).
  split; [reflexivity | ]. split; [reflexivity | ].
  rewrite (add_points _ _ _ _ HA HB), <- gmul_add, E, order_n_eq, gmul_N. reflexivity.
Qed.
Print Assumptions C69_homomorphism.

Theorem C69_homomorphism_any : forall P ka kb kc, good P ->
  bytes_ok ka -> bytes_ok kb -> bytes_ok kc -> be kc = be ka + be kb ->
  exists A B, good A /\ good B /\
    ScalarMult (px P) (py P) ka = Ok (px A, py A) /\
    ScalarMult (px P) (py P) kb = Ok (px B, py B) /\
    ScalarMult (px P) (py P) kc = curveAdd (px A) (py A) (px B) (py B).
Proof.
  intros P ka kb kc HP Ha Hb Hc E. destruct (gof_good P HP) as (p & Hp).
  destruct (gof_ex (gmul (be ka) p)) as (A & HA).
  destruct (gof_ex (gmul (be kb) p)) as (B & HB).
  exists A, B. split; [exact (gof_is_good _ _ HA) | ].
  split; [exact (gof_is_good _ _ HB) | ].
  rewrite (mult_points P p ka Hp Ha), (mult_points P p kb Hp Hb), (mult_points P p kc Hp Hc).
  rewrite (gof_enc _ _ HA), (gof_enc _ _ HB).
  split; [reflexivity | ]. split; [reflexivity | ].
  rewrite (add_points _ _ _ _ HA HB), <- gmul_add, E. reflexivity.
Qed.
Print Assumptions C69_homomorphism_any.

(** Multiplying a multiple multiplies the scalars. *)
Theorem C69_compose : forall P ka kb kc, good P ->
  bytes_ok ka -> bytes_ok kb -> bytes_ok kc -> be kc = be ka * be kb ->
  exists B, good B /\ ScalarMult (px P) (py P) kb = Ok (px B, py B) /\
    ScalarMult (px B) (py B) ka = ScalarMult (px P) (py P) kc.
Proof.
  intros P ka kb kc HP Ha Hb Hc E. destruct (gof_good P HP) as (p & Hp).
  destruct (gof_ex (gmul (be kb) p)) as (B & HB).
  exists B. split; [exact (gof_is_good _ _ HB) | ].
  rewrite (mult_points P p kb Hp Hb), (mult_points P p kc Hp Hc), (mult_points B _ ka HB Ha).
  rewrite (gof_enc _ _ HB), E, gmul_mul. split; reflexivity.
Qed.
Print Assumptions C69_compose.

(** The points are an abelian group under Add. *)
Theorem C88_add_group : forall P Q R, good P -> good Q -> good R ->
  curveAdd (px P) (py P) (px Q) (py Q) = curveAdd (px Q) (py Q) (px P) (py P) /\
  curveAdd 0 0 (px P) (py P) = Ok (px P, py P) /\
  exists S T, good S /\ good T /\
    curveAdd (px P) (py P) (px Q) (py Q) = Ok (px S, py S) /\
    curveAdd (px Q) (py Q) (px R) (py R) = Ok (px T, py T) /\
    curveAdd (px S) (py S) (px R) (py R) = curveAdd (px P) (py P) (px T) (py T).
Proof.
  intros P Q R HP HQ HR.
  destruct (gof_good P HP) as (a & Ha), (gof_good Q HQ) as (b & Hb), (gof_good R HR) as (c & Hc).
  split; [ | split].
  - rewrite (add_points _ _ _ _ Ha Hb), (add_points _ _ _ _ Hb Ha), gadd_comm. reflexivity.
  - change (curveAdd 0 0 (px P) (py P)) with (curveAdd (px None) (py None) (px P) (py P)).
    rewrite (add_points _ _ _ _ gof_inf Ha), gadd_0_l, (gof_enc _ _ Ha). reflexivity.
  - destruct (gof_ex (gadd a b)) as (S & HS), (gof_ex (gadd b c)) as (T & HT).
    exists S, T. split; [exact (gof_is_good _ _ HS) | ].
    split; [exact (gof_is_good _ _ HT) | ].
    rewrite (add_points _ _ _ _ Ha Hb), (add_points _ _ _ _ Hb Hc),
      (add_points _ _ _ _ HS Hc), (add_points _ _ _ _ Ha HT), gadd_assoc.
    rewrite (gof_enc _ _ HS), (gof_enc _ _ HT). repeat split; reflexivity.
Qed.
Print Assumptions C88_add_group.

(** The constants: P and N are prime, the base point is on the curve. *)
Theorem C89_parameters :
  prime prime_p /\ prime order_n /\ good base /\
  curveP = prime_p /\ curveN = order_n /\ (px base, py base) = (curveGx, curveGy).
Proof.
  rewrite prime_p_eq, order_n_eq. split; [exact curveP_prime | ].
  split; [exact curveN_prime | ]. split; [exact (gof_is_good _ _ gof_base) | ].
  repeat split; reflexivity.
Qed.
Print Assumptions C89_parameters.

(** The base point has order exactly N. *)
Theorem C89_base_order : forall k, bytes_ok k ->
  (ScalarBaseMult k = Ok (0, 0) <-> (order_n | be k)).
Proof.
  intros k Hk. rewrite ScalarBaseMult_ok by exact Hk. rewrite <- be_set_bytes.
  rewrite order_n_eq. split.
  - intro E. assert (E' : enc (gmul (be k) gG) = enc g0).
    { rewrite enc_g0. congruence. }
    apply enc_inj in E'. apply gmul_G_0 in E'.
    apply Zmod_divide; [discriminate | exact E'].
  - intro D. apply Zdivide_mod in D. apply gmul_G_0 in D. rewrite D, enc_g0. reflexivity.
Qed.
Print Assumptions C89_base_order.

(** Distinct scalars below N give distinct points. *)
Theorem C89_base_injective : forall j k, bytes_ok j -> bytes_ok k ->
  be j < order_n -> be k < order_n ->
  ScalarBaseMult j = ScalarBaseMult k -> be j = be k.
Proof.
  intros j k Hj Hk Lj Lk E. rewrite !ScalarBaseMult_ok in E by assumption.
  rewrite <- !be_set_bytes in E.
  assert (E' : enc (gmul (be j) gG) = enc (gmul (be k) gG)) by congruence.
  apply enc_inj, gmul_G_inj in E'. rewrite order_n_eq in Lj, Lk.
  rewrite !Z.mod_small in E'; [exact E' | | ];
    (split; [apply be_nonneg; assumption | assumption]).
Qed.
Print Assumptions C89_base_injective.

(** ** Examples *)

Definition base2 : point :=
  Some (89565891926547004231252920425935692360644145829622209833684329913297188986597,
        12158399299693830322967808612713398636155367887041628176798871954788371653930).

Example base_good : good base.
Proof. exact (gof_is_good _ _ gof_base). Qed.

Example ex_double : curveDouble (px base) (py base) = Ok (px base2, py base2).
Proof. vm_compute. reflexivity. Qed.

Example ex_add_equal : curveAdd (px base) (py base) (px base) (py base) = Ok (px base2, py base2).
Proof. vm_compute. reflexivity. Qed.

Example ex_base2_good : good base2.
Proof.
  cbn. split; [split; [discriminate | reflexivity] | ].
  split; [split; [discriminate | reflexivity] | ]. vm_compute. reflexivity.
Qed.

Example ex_three : ScalarBaseMult [0; 3] = curveAdd (px base) (py base) (px base2) (py base2).
Proof. vm_compute. reflexivity. Qed.

Example ex_opposite : curveAdd (px base) (py base) (px (opposite base)) (py (opposite base)) = Ok (0, 0).
Proof. vm_compute. reflexivity. Qed.
