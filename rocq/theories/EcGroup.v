(** The chord-and-tangent law on y^2 = x^3 + b over an arbitrary field in
    which 2 and 3 do not vanish and no point has y = 0, and a proof that it
    is an abelian group.

    This is the specification side of the curve arithmetic: nothing here
    comes from the Go program.  The last part relates the Jacobian formulas
    the program uses (EFD add-2007-bl and dbl-2009-l) to the law.  The proof of
    the group laws goes through the complete projective addition
    formulas of Renes, Costello and Batina (EUROCRYPT 2016, a = 0), which
    have no exceptional cases on such a curve, so that associativity is one
    polynomial identity. *)

From Coq Require Import Field Ring Bool.

Inductive pt (K : Type) : Type := Inf | Aff (x y : K).
Arguments Inf {K}.
Arguments Aff {K} x y.

Section Ec.
  Variable K : Type.
  Variables (k0 k1 : K) (kadd kmul ksub kdiv : K -> K -> K) (kopp kinv : K -> K).
  Hypothesis Kth : field_theory k0 k1 kadd kmul ksub kopp kdiv kinv (@eq K).
  Hypothesis Kdec : forall x y : K, {x = y} + {x <> y}.
  Variable b : K.

  Local Notation "0" := k0.
  Local Notation "1" := k1.
  Local Infix "+" := kadd.
  Local Infix "-" := ksub.
  Local Infix "*" := kmul.
  Local Infix "/" := kdiv.
  Local Notation "- x" := (kopp x).
  Local Notation "2" := (1 + 1).
  Local Notation "3" := (1 + 1 + 1).

  Hypothesis two_nz : 2 <> 0.
  Hypothesis no_y0 : forall x, x * x * x + b <> 0.

  Add Field Kfield : Kth.

  (** A point is on the curve. *)
  Definition on (P : pt K) : Prop :=
    match P with
    | Inf => True
    | Aff x y => y * y = x * x * x + b
    end.

  Definition neg (P : pt K) : pt K :=
    match P with
    | Inf => Inf
    | Aff x y => Aff x (- y)
    end.

  (** The textbook law: third intersection of the line of slope [l] through
      (x1, y1) and a point of abscissa x2, reflected. *)
  Definition third (l x1 y1 x2 : K) : pt K :=
    let x := l * l - x1 - x2 in Aff x (l * (x1 - x) - y1).

  Definition padd (P Q : pt K) : pt K :=
    match P, Q with
    | Inf, _ => Q
    | _, Inf => P
    | Aff x1 y1, Aff x2 y2 =>
        if Kdec x1 x2 then
          if Kdec y1 (- y2) then Inf
          else third (3 * x1 * x1 / (2 * y1)) x1 y1 x1
        else third ((y2 - y1) / (x2 - x1)) x1 y1 x2
    end.

  (** ** Field facts *)

  Lemma mul_eq0 : forall x y, x * y = 0 -> x = 0 \/ y = 0.
  Proof.
    intros x y H. destruct (Kdec x 0) as [E | E]; [left; exact E | right].
    assert (A : y = (x * y) / x) by (field; exact E).
    rewrite A, H. field. exact E.
  Qed.

  Lemma mul_nz : forall x y, x <> 0 -> y <> 0 -> x * y <> 0.
  Proof. intros x y A B H. destruct (mul_eq0 x y H); contradiction. Qed.

  Lemma sub_eq0 : forall x y, x - y = 0 -> x = y.
  Proof.
    intros x y H. assert (A : x = (x - y) + y) by ring. rewrite A, H. ring.
  Qed.

  Lemma sub_nz : forall x y, x <> y -> x - y <> 0.
  Proof. intros x y H A. apply H, sub_eq0, A. Qed.

  Lemma mul_cancel : forall c x y, c <> 0 -> c * x = c * y -> x = y.
  Proof.
    intros c x y Hc H.
    assert (A : x = (c * x) / c) by (field; exact Hc).
    rewrite A, H. field. exact Hc.
  Qed.

  Lemma opp_eq0 : forall x, - x = 0 -> x = 0.
  Proof. intros x H. assert (A : x = - - x) by ring. rewrite A, H. ring. Qed.

  Lemma on_y_nz : forall x y, on (Aff x y) -> y <> 0.
  Proof.
    intros x y H E. apply (no_y0 x). cbn in H. rewrite <- H, E. ring.
  Qed.

  Lemma opp_ne : forall y, y <> 0 -> y <> - y.
  Proof.
    intros y Hy E. assert (A : 2 * y = 0).
    { assert (B : 2 * y = y - (- y)) by ring. rewrite B, <- E. ring. }
    destruct (mul_eq0 _ _ A); contradiction.
  Qed.

  (** Two points of the curve with the same abscissa are equal or opposite. *)
  Lemma same_x : forall x y1 y2,
    on (Aff x y1) -> on (Aff x y2) -> y1 = y2 \/ y1 = - y2.
  Proof.
    intros x y1 y2 H1 H2. cbn in H1, H2.
    assert (A : (y1 - y2) * (y1 + y2) = 0).
    { assert (B : (y1 - y2) * (y1 + y2) = y1 * y1 - y2 * y2) by ring.
      rewrite B, H1, H2. ring. }
    destruct (mul_eq0 _ _ A) as [E | E].
    - left. apply sub_eq0. exact E.
    - right. apply sub_eq0. assert (B : y1 - - y2 = y1 + y2) by ring.
      rewrite B. exact E.
  Qed.

  (** ** Projective vectors and the complete formulas *)

  Definition vec : Type := (K * K * K)%type.

  Definition vx (v : vec) : K := fst (fst v).
  Definition vy (v : vec) : K := snd (fst v).
  Definition vz (v : vec) : K := snd v.

  Definition cX (X1 Y1 Z1 X2 Y2 Z2 : K) : K :=
    (X1 * Y2 + X2 * Y1) * (Y1 * Y2 - 3 * b * (Z1 * Z2))
    - 3 * b * ((Y1 * Z2 + Y2 * Z1) * (X1 * Z2 + X2 * Z1)).
  Definition cY (X1 Y1 Z1 X2 Y2 Z2 : K) : K :=
    (Y1 * Y2 + 3 * b * (Z1 * Z2)) * (Y1 * Y2 - 3 * b * (Z1 * Z2))
    + 3 * (3 * b) * (X1 * X2 * (X1 * Z2 + X2 * Z1)).
  Definition cZ (X1 Y1 Z1 X2 Y2 Z2 : K) : K :=
    (Y1 * Z2 + Y2 * Z1) * (Y1 * Y2 + 3 * b * (Z1 * Z2))
    + 3 * (X1 * X2 * (X1 * Y2 + X2 * Y1)).

  Definition cadd (v w : vec) : vec :=
    (cX (vx v) (vy v) (vz v) (vx w) (vy w) (vz w),
     cY (vx v) (vy v) (vz v) (vx w) (vy w) (vz w),
     cZ (vx v) (vy v) (vz v) (vx w) (vy w) (vz w)).

  Definition toV (P : pt K) : vec :=
    match P with
    | Inf => (0, 1, 0)
    | Aff x y => (x, y, 1)
    end.

  Definition toP (v : vec) : pt K :=
    if Kdec (vz v) 0 then Inf else Aff (vx v / vz v) (vy v / vz v).

  (** [v] is a non-zero multiple of the representative of [P]. *)
  Definition reps (v : vec) (P : pt K) : Prop :=
    exists c, c <> 0 /\
      vx v = c * vx (toV P) /\ vy v = c * vy (toV P) /\ vz v = c * vz (toV P).

  Lemma one_nz : 1 <> 0.
  Proof. exact (F_1_neq_0 Kth). Qed.

  Lemma reps_toP : forall v P, reps v P -> toP v = P.
  Proof.
    intros v P (c & Hc & Hx & Hy & Hz). unfold toP.
    destruct P as [ | x y]; cbn in Hx, Hy, Hz.
    - destruct (Kdec (vz v) 0) as [E | E]; [reflexivity | ].
      exfalso. apply E. rewrite Hz. ring.
    - destruct (Kdec (vz v) 0) as [E | E].
      + exfalso. apply Hc. rewrite <- E, Hz. ring.
      + rewrite Hx, Hy, Hz. f_equal; field; exact Hc.
  Qed.

  Lemma reps_refl : forall P, reps (toV P) P.
  Proof.
    intros P. exists 1. split; [exact one_nz | ]. repeat split; ring.
  Qed.

  (** The law agrees with the complete formulas. *)
  Lemma cadd_pts : forall P Q, on P -> on Q ->
    reps (cadd (toV P) (toV Q)) (padd P Q).
  Proof.
    intros [ | x1 y1] [ | x2 y2] HP HQ.
    - exists 1. cbn. unfold cX, cY, cZ. split; [exact one_nz | ].
      repeat split; ring.
    - pose proof (on_y_nz _ _ HQ) as Hy. exists y2.
      cbn. unfold cX, cY, cZ. cbn in HQ.
      split; [exact Hy | ]. repeat split; ring.
    - pose proof (on_y_nz _ _ HP) as Hy. exists y1.
      cbn. unfold cX, cY, cZ. cbn in HP.
      split; [exact Hy | ]. repeat split; ring.
    - pose proof (on_y_nz _ _ HP) as Hy1. pose proof (on_y_nz _ _ HQ) as Hy2.
      cbn [padd]. destruct (Kdec x1 x2) as [Ex | Ex].
      + subst x2. destruct (Kdec y1 (- y2)) as [Ey | Ey].
        * (* opposite points *)
          subst y1. cbn in HP, HQ.
          pose (l := 3 * x1 * x1 / (2 * y2)).
          pose (x := l * l - x1 - x1).
          pose (D := y2 * y2 * (y2 * y2) + 2 * (3 * (3 * b)) * (y2 * y2)
                     - 3 * (3 * (3 * (b * b)))).
          assert (Dnz : D <> 0).
          { intro E.
            assert (C : (l * (x1 - x) - y2) * (2 * y2 * (2 * y2) * (2 * y2)) = D).
            { unfold D, x, l. field_simplify_eq; [ | split; [exact Hy2 | exact two_nz] ].
              ring [HQ]. }
            assert (O : (l * (x1 - x) - y2) * (l * (x1 - x) - y2) = x * x * x + b).
            { unfold x, l. field_simplify_eq; [ | split; [exact Hy2 | exact two_nz] ].
              ring [HQ]. }
            rewrite E in C. destruct (mul_eq0 _ _ C) as [F | F].
            - apply (no_y0 x). rewrite <- O, F. ring.
            - revert F. repeat apply mul_nz; assumption. }
          exists D. split; [exact Dnz | ].
          cbn. unfold cX, cY, cZ, D. repeat split; ring [HQ].
        * (* doubling *)
          destruct (same_x _ _ _ HP HQ) as [E | E]; [ | contradiction].
          subst y2. clear Ey Hy2 HQ. cbn in HP.
          exists (2 * y1 * (2 * y1) * (2 * y1)).
          split; [repeat apply mul_nz; assumption | ].
          unfold third. cbn. unfold cX, cY, cZ.
          repeat split; field_simplify_eq; try (split; assumption);
            ring [HP].
      + (* chord *)
        assert (Hd : x2 - x1 <> 0).
        { apply sub_nz. intro E. apply Ex. symmetry. exact E. }
        cbn in HP, HQ.
        pose (Z3 := cZ x1 y1 1 x2 y2 1).
        assert (Znz : Z3 <> 0).
        { pose (l := (- y2 - y1) / (x2 - x1)).
          pose (x := l * l - x1 - x2).
          intro E.
          assert (O : (l * (x1 - x) - y1) * (l * (x1 - x) - y1) = x * x * x + b).
          { unfold x, l. field_simplify_eq; [ | exact Hd].
            ring [HP HQ]. }
          assert (C : (l * (x1 - x) - y1) * ((x2 - x1) * (x2 - x1) * (x2 - x1)) = Z3).
          { unfold Z3, cZ, x, l. field_simplify_eq; [ | exact Hd].
            ring [HP HQ]. }
          rewrite E in C. destruct (mul_eq0 _ _ C) as [F | F].
          - apply (no_y0 x). rewrite <- O, F. ring.
          - revert F. repeat apply mul_nz; assumption. }
        exists Z3. split; [exact Znz | ].
        unfold third. cbn. unfold Z3, cX, cY, cZ.
        repeat split; field_simplify_eq; try exact Hd; ring [HP HQ].
  Qed.

  (** The formulas only depend on the points represented. *)
  Lemma cadd_reps : forall v w P Q, on P -> on Q ->
    reps v P -> reps w Q -> reps (cadd v w) (padd P Q).
  Proof.
    intros v w P Q HP HQ (c & Hc & Hvx & Hvy & Hvz) (d & Hd & Hwx & Hwy & Hwz).
    destruct (cadd_pts P Q HP HQ) as (e & He & Hx & Hy & Hz).
    exists (c * c * (d * d) * e).
    split; [repeat apply mul_nz; assumption | ].
    destruct v as [[vx1 vy1] vz1], w as [[wx1 wy1] wz1].
    destruct (toV P) as [[a1 a2] a3], (toV Q) as [[b1 b2] b3].
    cbn in *. rewrite Hvx, Hvy, Hvz, Hwx, Hwy, Hwz.
    assert (Ax : cX (c * a1) (c * a2) (c * a3) (d * b1) (d * b2) (d * b3)
                 = c * c * (d * d) * cX a1 a2 a3 b1 b2 b3) by (unfold cX; ring).
    assert (Ay : cY (c * a1) (c * a2) (c * a3) (d * b1) (d * b2) (d * b3)
                 = c * c * (d * d) * cY a1 a2 a3 b1 b2 b3) by (unfold cY; ring).
    assert (Az : cZ (c * a1) (c * a2) (c * a3) (d * b1) (d * b2) (d * b3)
                 = c * c * (d * d) * cZ a1 a2 a3 b1 b2 b3) by (unfold cZ; ring).
    rewrite Ax, Ay, Az, Hx, Hy, Hz. repeat split; ring.
  Qed.

  (** ** The group laws *)

  Lemma padd_on : forall P Q, on P -> on Q -> on (padd P Q).
  Proof.
    intros [ | x1 y1] [ | x2 y2] HP HQ; try assumption.
    pose proof (on_y_nz _ _ HP) as Hy1.
    cbn [padd]. destruct (Kdec x1 x2) as [Ex | Ex].
    - destruct (Kdec y1 (- y2)) as [Ey | Ey]; [exact I | ].
      cbn in HP |- *. field_simplify_eq; [ | split; assumption].
      ring [HP].
    - assert (Hd : x2 - x1 <> 0).
      { apply sub_nz. intro E. apply Ex. symmetry. exact E. }
      cbn in HP, HQ |- *. field_simplify_eq; [ | exact Hd].
      ring [HP HQ].
  Qed.

  Lemma neg_on : forall P, on P -> on (neg P).
  Proof.
    intros [ | x y] H; [exact I | ]. cbn in *. rewrite <- H. ring.
  Qed.

  Lemma neg_neg : forall P, neg (neg P) = P.
  Proof. intros [ | x y]; [reflexivity | ]. cbn. f_equal. ring. Qed.

  Lemma padd_Inf_l : forall P, padd Inf P = P.
  Proof. intros [ | x y]; reflexivity. Qed.

  Lemma padd_Inf_r : forall P, padd P Inf = P.
  Proof. intros [ | x y]; reflexivity. Qed.

  Lemma padd_neg_r : forall P, padd P (neg P) = Inf.
  Proof.
    intros [ | x y]; [reflexivity | ]. cbn.
    destruct (Kdec x x) as [_ | E]; [ | contradiction].
    destruct (Kdec y (- - y)) as [_ | E]; [reflexivity | ].
    exfalso. apply E. ring.
  Qed.

  Lemma padd_comm : forall P Q, on P -> on Q -> padd P Q = padd Q P.
  Proof.
    intros P Q HP HQ.
    rewrite <- (reps_toP _ _ (cadd_pts P Q HP HQ)).
    rewrite <- (reps_toP _ _ (cadd_pts Q P HQ HP)).
    f_equal. unfold cadd, cX, cY, cZ. f_equal; [f_equal | ]; ring.
  Qed.

  (** Vectors that represent points and have vanishing minors represent the
      same point. *)
  Lemma minors : forall v w P Q, reps v P -> reps w Q ->
    vx v * vz w = vx w * vz v -> vy v * vz w = vy w * vz v ->
    vx v * vy w = vx w * vy v -> P = Q.
  Proof.
    intros v w P Q (c & Hc & Hvx & Hvy & Hvz) (d & Hd & Hwx & Hwy & Hwz) M1 M2 M3.
    rewrite Hvx, Hwx, Hvz, Hwz in M1. rewrite Hvy, Hwy, Hvz, Hwz in M2.
    rewrite Hvx, Hwx, Hvy, Hwy in M3.
    assert (Hcd : c * d <> 0) by (apply mul_nz; assumption).
    destruct P as [ | x1 y1], Q as [ | x2 y2]; cbn in M1, M2, M3.
    - reflexivity.
    - exfalso. apply Hcd.
      assert (A : c * d = c * 1 * (d * 1)) by ring. rewrite A, M2. ring.
    - exfalso. apply Hcd.
      assert (A : c * d = d * 1 * (c * 1)) by ring. rewrite A, <- M2. ring.
    - f_equal.
      + apply (mul_cancel (c * d)); [exact Hcd | ].
        assert (A : c * d * x1 = c * x1 * (d * 1)) by ring. rewrite A, M1. ring.
      + apply (mul_cancel (c * d)); [exact Hcd | ].
        assert (A : c * d * y1 = c * y1 * (d * 1)) by ring. rewrite A, M2. ring.
  Qed.

  Lemma padd_assoc : forall P Q R, on P -> on Q -> on R ->
    padd (padd P Q) R = padd P (padd Q R).
  Proof.
    intros P Q R HP HQ HR.
    destruct P as [ | x1 y1]; [rewrite !padd_Inf_l; reflexivity | ].
    destruct Q as [ | x2 y2]; [rewrite padd_Inf_l, padd_Inf_r; reflexivity | ].
    destruct R as [ | x3 y3]; [rewrite !padd_Inf_r; reflexivity | ].
    pose proof (cadd_reps _ _ _ _ (padd_on _ _ HP HQ) HR
                  (cadd_pts _ _ HP HQ) (reps_refl (Aff x3 y3))) as RU.
    pose proof (cadd_reps _ _ _ _ HP (padd_on _ _ HQ HR)
                  (reps_refl (Aff x1 y1)) (cadd_pts _ _ HQ HR)) as RV.
    apply (minors _ _ _ _ RU RV); clear RU RV; cbn in HP, HQ, HR; cbn;
      unfold cX, cY, cZ; ring [HP HQ HR].
  Qed.

  (** ** Jacobian coordinates *)

  (** (x, y, z) stands for (x/z^2, y/z^3), or for infinity when z = 0. *)
  Definition repJ (x y z : K) (P : pt K) : Prop :=
    match P with
    | Inf => z = 0
    | Aff ax ay => z <> 0 /\ x = ax * (z * z) /\ y = ay * (z * z * z)
    end.

  Lemma repJ_det : forall x y z P Q, repJ x y z P -> repJ x y z Q -> P = Q.
  Proof.
    intros x y z [ | x1 y1] [ | x2 y2] HP HQ; cbn in HP, HQ.
    - reflexivity.
    - destruct HQ. contradiction.
    - destruct HP. contradiction.
    - destruct HP as (Hz & Ex & Ey), HQ as (_ & Fx & Fy). f_equal.
      + apply (mul_cancel (z * z)); [apply mul_nz; assumption | ].
        rewrite (Rmul_comm (F_R Kth)), <- Ex, Fx. ring.
      + apply (mul_cancel (z * z * z)); [repeat apply mul_nz; assumption | ].
        rewrite (Rmul_comm (F_R Kth)), <- Ey, Fy. ring.
  Qed.

  Lemma dbl_J : forall x y z P, on P -> repJ x y z P ->
    let a := x * x in let b' := y * y in let c := b' * b' in
    let d := 2 * ((x + b') * (x + b') - a - c) in
    let e := 3 * a in let f := e * e in
    let x3 := f - 2 * d in
    let y3 := e * (d - x3) - 2 * (2 * (2 * c)) in
    let z3 := 2 * (y * z) in
    repJ x3 y3 z3 (padd P P).
  Proof.
    intros x y z [ | ax ay] HP HJ; cbn zeta.
    - cbn in HJ |- *. rewrite HJ. ring.
    - pose proof (on_y_nz _ _ HP) as Hy. cbn [padd].
      destruct (Kdec ax ax) as [_ | E]; [ | contradiction].
      destruct (Kdec ay (- ay)) as [E | _]; [exfalso; exact (opp_ne _ Hy E) | ].
      destruct HJ as (Hz & -> & ->). cbn in HP. cbn [third repJ]. split; [ | split].
      + repeat apply mul_nz; assumption.
      + field_simplify_eq; [ | split; assumption]. ring [HP].
      + field_simplify_eq; [ | split; assumption]. ring [HP].
  Qed.

  Lemma add_J : forall x1 y1 z1 x2 y2 z2 P Q, on P -> on Q ->
    z1 <> 0 -> z2 <> 0 ->
    repJ x1 y1 z1 P -> repJ x2 y2 z2 Q ->
    let u1 := x1 * (z2 * z2) in let u2 := x2 * (z1 * z1) in
    let h := u2 - u1 in
    let i := 2 * h * (2 * h) in let j := h * i in
    let s1 := y1 * z2 * (z2 * z2) in let s2 := y2 * z1 * (z1 * z1) in
    let r := 2 * (s2 - s1) in
    let v := u1 * i in
    let x3 := r * r - j - v - v in
    let y3 := r * (v - x3) - 2 * (s1 * j) in
    let z3 := ((z1 + z2) * (z1 + z2) - z1 * z1 - z2 * z2) * h in
    ~ (h = 0 /\ s2 - s1 = 0) ->
    repJ x3 y3 z3 (padd P Q).
  Proof.
    intros x1 y1 z1 x2 y2 z2 P Q HP HQ Hz1 Hz2 JP JQ. cbn zeta.
    destruct P as [ | ax ay]; [cbn in JP; contradiction | ].
    destruct Q as [ | bx by_]; [cbn in JQ; contradiction | ].
    destruct JP as (_ & -> & ->), JQ as (_ & -> & ->). intro Hne.
    cbn [padd]. destruct (Kdec ax bx) as [Ex | Ex].
    - subst bx. destruct (Kdec ay (- by_)) as [Ey | Ey].
      + cbn [repJ]. ring.
      + destruct (same_x _ _ _ HP HQ) as [E | E]; [ | contradiction].
        exfalso. apply Hne. subst by_. split; ring.
    - assert (Hd : bx - ax <> 0).
      { apply sub_nz. intro E. apply Ex. symmetry. exact E. }
      clear Hne Ex. cbn in HP, HQ. cbn [third repJ]. split; [ | split].
      + intro E. revert Hd. 
        assert (A : (2 * (z1 * z2)) * (z1 * z1 * (z2 * z2)) * (bx - ax) = 0).
        { rewrite <- E. ring. }
        destruct (mul_eq0 _ _ A) as [F | F]; [ | intro; contradiction].
        exfalso. revert F. repeat apply mul_nz; assumption.
      + field_simplify_eq; [ | exact Hd]. ring.
      + field_simplify_eq; [ | exact Hd]. ring.
  Qed.

  (** When h and r both vanish the points are equal. *)
  Lemma add_J_eq : forall x1 y1 z1 x2 y2 z2 P Q,
    z1 <> 0 -> z2 <> 0 ->
    repJ x1 y1 z1 P -> repJ x2 y2 z2 Q ->
    x2 * (z1 * z1) = x1 * (z2 * z2) ->
    y2 * z1 * (z1 * z1) = y1 * z2 * (z2 * z2) -> P = Q.
  Proof.
    intros x1 y1 z1 x2 y2 z2 P Q Hz1 Hz2 JP JQ Hx Hy.
    destruct P as [ | ax ay]; [cbn in JP; contradiction | ].
    destruct Q as [ | bx by_]; [cbn in JQ; contradiction | ].
    destruct JP as (_ & -> & ->), JQ as (_ & -> & ->). f_equal.
    - apply (mul_cancel (z1 * z1 * (z2 * z2))); [repeat apply mul_nz; assumption | ].
      transitivity (ax * (z1 * z1) * (z2 * z2)); [ring | ]. rewrite <- Hx. ring.
    - apply (mul_cancel (z1 * z1 * z1 * (z2 * z2 * z2))); [repeat apply mul_nz; assumption | ].
      transitivity (ay * (z1 * z1 * z1) * z2 * (z2 * z2)); [ring | ]. rewrite <- Hy. ring.
  Qed.
End Ec.
