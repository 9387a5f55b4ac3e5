(** C105, C106: what the other party of the two-party Schnorr protocol can do. *)

From Coq Require Import Znumtheory.
From Verif Require Import GoBase BaseLemmas BigInt BigIntProofs NumTheory BigMod SecpModel SecpGroup SecpOrder SecpOrderN SecpProofs SecpCyclic SecpSpec SecpLink EcdsaModel EcdsaSpec EcdsaNonce EcdsaProofs PubKeyModel PubKeySpec PubKeyProofs SchnorrModel SchnorrSpec SchnorrProofs MpcSchnorrModel MpcSchnorrProofs SchnorrProps.
Local Open Scope Z_scope.

(** ** C105: a signature under the shared key takes both parties *)

Lemma gof_finite : forall Q a, gof Q a -> a <> g0 -> Q = Some (px Q, py Q).
Proof.
  intros [[x y] | ] a H N; [reflexivity | ]. exfalso. apply N.
  destruct H as [_ E]. apply gp_eq. exact E.
Qed.

(** It does not.  Phase1 adds the other party's key as it comes, so a party who
    has seen the honest public key answers with x*G minus that key.  The answer
    is a point of the curve, the honest party computes x*G as the shared key,
    and the secret x alone signs for it. *)
Theorem C105_rogue_key_refuted : forall sha D1 x prv1 m,
  1 <= D1 < order_n -> 1 <= x < order_n -> x <> D1 -> pair_of D1 prv1 ->
  exists P pub2, multiple base x P /\
    curveAdd (px P) (py P) (fst (snd prv1)) (prime_p - snd (snd prv1)) = Ok pub2 /\
    good (Some pub2) /\
    SPhase1 (NewSchnorrParty prv1) pub2 = Ok (px P, py P) /\
    forall sig, SchnorrSign sha x m = Ok sig ->
      exists r s, sig = octets 32 r ++ octets 32 s /\ schnorr_valid sha P m r s /\
        (challenge sha P m r <> 0 -> SchnorrVerify sha (px P) (py P) m sig = Ok tt).
Proof.
  intros sha D1 x prv1 m HD Hx NE K. pose proof HD as HD'. pose proof Hx as Hx'.
  rewrite order_n_eq in HD', Hx'. apply pair_key in K; [ | lia]. subst prv1.
  destruct (gof_ex (gmul x gG)) as (P & GP).
  assert (M : multiple base x P) by (apply (gof_multiple _ _ _ _ gof_base); [lia | exact GP]).
  pose proof (gof_enc _ _ GP) as EP.
  set (b := gadd (gmul x gG) (gopp (gmul D1 gG))).
  assert (N1 : gmul D1 gG <> g0).
  { intro Z0. apply gmul_G_0 in Z0. rewrite Z.mod_small in Z0 by lia. lia. }
  assert (EB : b = gmul (x - D1) gG).
  { unfold b, Z.sub. rewrite gmul_add, gmul_opp. reflexivity. }
  assert (NB : b <> g0).
  { rewrite EB. intro Z0. apply gmul_G_0 in Z0. apply Zmod_divide in Z0; [ | discriminate].
    destruct Z0 as (q & Z0). clear - Z0 HD' Hx' NE. generalize dependent curveN. intros n H1 H2 H3.
    assert (q = 0) by nia. subst q. lia. }
  exists P, (enc b). split; [exact M | ]. split.
  { replace (px P) with (fst (enc (gmul x gG))) by (rewrite EP; reflexivity).
    replace (py P) with (snd (enc (gmul x gG))) by (rewrite EP; reflexivity).
    unfold key. cbn [fst snd]. rewrite prime_p_eq, <- enc_opp_y by exact N1.
    rewrite <- (enc_opp_x (gmul D1 gG)). apply curveAdd_ok. }
  split.
  { destruct (gof_ex b) as (B & GB). pose proof (gof_finite _ _ GB NB) as FB.
    rewrite (gof_enc _ _ GB). rewrite <- FB. exact (gof_is_good _ _ GB). }
  split.
  { unfold SPhase1, NewSchnorrParty, PubAdd, key. cbn [sp_pub fst snd]. rewrite curveAdd_ok.
    rewrite EB, <- gmul_add. replace (D1 + (x - D1)) with x by ring. rewrite EP. reflexivity. }
  intros sig E. exact (C66_wire sha x m sig P Hx M E).
Qed.
Print Assumptions C105_rogue_key_refuted.

(** The honest key 1 against the secret 2, and a signature that verifies. *)
Example C105_example : exists prv1 P pub2 sig, pair_of 1 prv1 /\ multiple base 2 P /\
  SPhase1 (NewSchnorrParty prv1) pub2 = Ok (px P, py P) /\
  SchnorrVerify (fun _ => [1]) (px P) (py P) [7] sig = Ok tt.
Proof.
  set (sha := fun _ : bytes => [1]).
  assert (K : pair_of 1 (key 1)).
  { destruct (gof_ex (gmul 1 gG)) as (Q & HQ).
    exists Q. split; [apply (gof_multiple _ _ _ _ gof_base); [lia | exact HQ] | ].
    unfold key. rewrite (gof_enc _ _ HQ). reflexivity. }
  destruct (C105_rogue_key_refuted sha 1 2 (key 1) [7] ltac:(split; [discriminate | reflexivity])
    ltac:(split; [discriminate | reflexivity]) ltac:(discriminate) K) as (P & pub2 & M & _ & _ & S & F).
  destruct (C66_sign_total sha 2 [7] ltac:(split; [discriminate | reflexivity])) as [[Z0 _] | (r & s & E)].
  { exfalso. change (be (sha (octets 32 2 ++ [7]))) with 1 in Z0. rewrite order_n_eq in Z0. discriminate Z0. }
  pose proof (C66_sign_valid sha 2 [7] r s P ltac:(split; [discriminate | reflexivity]) M E) as V.
  assert (ES : exists sig, SchnorrSign sha 2 [7] = Ok sig).
  { unfold SchnorrSign. rewrite E. cbn [rbind]. destruct V as (Br & Bs & _).
    rewrite prime_p_eq in Br. rewrite order_n_eq in Bs. pose proof P_lt. pose proof N_lt.
    unfold SchnorrSerialize. rewrite !IntToByte_ok by lia. cbn [rbind]. eexists. reflexivity. }
  destruct ES as (sig & ES). destruct (F sig ES) as (r' & s' & _ & _ & V').
  exists (key 1), P, pub2, sig. split; [exact K | ]. split; [exact M | ]. split; [exact S | ].
  apply V'. unfold challenge. change (be (sha _)) with 1. rewrite order_n_eq. discriminate.
Qed.

(** ** C106: the shares of two runs do not reveal the private key *)

(** One run of the honest party, from a fresh object, on the key and the nonce
    the other party sent (mpc_schnorr_test.go 20-62, one side): the shared key,
    its nonce, the joint nonce and its share. *)
Definition session (sha : bytes -> bytes) (prv1 : Z * (Z * Z)) (m : bytes) (pub2 r2 : Z * Z)
  : res ((Z * Z) * (Z * Z) * (Z * Z) * bytes) :=
  let p := NewSchnorrParty prv1 in
  let! sharePub := SPhase1 p pub2 in
  let! (o, p) := SPhase2 sha p m in
  match o with
  | None => Err "no nonce"
  | Some r =>
      let! shareR := SPhase3 p r2 in
      let! (s, _) := SPhase4 sha p sharePub shareR in
      Ok (sharePub, r, shareR, s)
  end.

Definition xy (P : point) : Z * Z := (px P, py P).

(** What the other party computes from two shares and the inverse of the
    difference, or the sum, of the two challenges. *)
Definition guess (same : bool) (sA sB i : Z) : Z :=
  (if same then (sA - sB) * i else (sA + sB) * i) mod order_n.

Lemma GetK_cases : forall y k, (is_square y /\ GetK y k = k) \/ (~ is_square y /\ GetK y k = curveN - k).
Proof.
  intros y k. unfold GetK. destruct (jacobi y curveP =? 1) eqn:J.
  - left. split; [ | reflexivity]. apply jac_square, Z.eqb_eq. exact J.
  - right. split; [ | reflexivity]. intro S. apply jac_square in S. apply Z.eqb_neq in J. contradiction.
Qed.

Lemma cancel : forall n t d e i, 0 < n -> (e * i) mod n = 1 -> (n | t - e * d) -> 0 <= d < n ->
  (t * i) mod n = d.
Proof.
  intros n t d e i Hn He (q & Hq) Hd. assert (E : t = q * n + e * d) by lia.
  pose proof (Z.div_mod (e * i) n ltac:(lia)) as H. rewrite He in H. set (c := e * i / n) in *.
  rewrite E. replace ((q * n + e * d) * i) with (d * (e * i) + (q * i) * n) by ring. rewrite H.
  replace (d * (n * c + 1) + q * i * n) with (d + (d * c + q * i) * n) by ring.
  rewrite Z.mod_add by lia. apply Z.mod_small. exact Hd.
Qed.

Lemma mod_off : forall n z, 0 < n -> exists q, z mod n = z + q * n.
Proof.
  intros n z Hn. exists (- (z / n)). pose proof (Z.div_mod z n ltac:(lia)). lia.
Qed.

Lemma two_shares : forall n D k kA kB eA eB (same : bool) i, 0 < n -> 0 <= D < n ->
  (if same then (kA = k /\ kB = k) \/ (kA = n - k /\ kB = n - k)
   else (kA = k /\ kB = n - k) \/ (kA = n - k /\ kB = k)) ->
  ((if same then eA - eB else eA + eB) * i) mod n = 1 ->
  (if same then ((kA + eA * D) mod n - (kB + eB * D) mod n) * i
   else ((kA + eA * D) mod n + (kB + eB * D) mod n) * i) mod n = D.
Proof.
  intros n D k kA kB eA eB same i Hn HD HK Hi.
  destruct (mod_off n (kA + eA * D) Hn) as (qa & ->). destruct (mod_off n (kB + eB * D) Hn) as (qb & ->).
  destruct same; (eapply cancel; [exact Hn | exact Hi | | exact HD]).
  - exists (qa - qb). destruct HK as [(-> & ->) | (-> & ->)]; ring.
  - exists (1 + qa + qb). destruct HK as [(-> & ->) | (-> & ->)]; ring.
Qed.

Lemma session_ok : forall sha D m b t, 0 <= D < 2 ^ 256 -> nonce0 sha D m <> 0 ->
  session sha (key D) m (enc b) (enc t) =
  Ok (enc (gadd (gmul D gG) b), enc (gmul (nonce0 sha D m) gG), enc (gadd (gmul (nonce0 sha D m) gG) t),
      octets 32 ((signed (gadd (gmul (nonce0 sha D m) gG) t) (nonce0 sha D m)
                  + own sha (gadd (gmul D gG) b) m (nonce0 sha D m) * D) mod curveN)).
Proof.
  intros sha D m b t HD NZ. unfold session. rewrite (Phase2_ok sha D m HD NZ).
  unfold SPhase1, PubAdd. cbn [NewSchnorrParty sp_pub key fst snd]. rewrite curveAdd_ok. cbn [rbind].
  unfold SPhase3. cbn [sp_r fst snd]. rewrite curveAdd_ok. cbn [rbind]. rewrite Phase4_ok. reflexivity.
Qed.

(** They do.  The nonce depends on the private key and the message alone, and
    the challenge on the shared key as well, that is on the key the other party
    sends.  Two runs on one message under two such keys give the private key,
    unless the difference of the challenges (or their sum, when the joint nonces
    have opposite signs) vanishes. *)
Theorem C106_two_sessions_refuted : forall sha D1 Q1 m QA QB TA TB,
  1 <= D1 < order_n -> multiple base D1 Q1 ->
  good QA -> good QB -> good TA -> good TB ->
  be (sha (octets 32 D1 ++ m)) mod order_n <> 0 ->
  exists PA PB K RA RB sA sB,
    sum_of Q1 QA PA /\ sum_of Q1 QB PB /\ sum_of K TA RA /\ sum_of K TB RB /\
    session sha (D1, xy Q1) m (xy QA) (xy TA) = Ok (xy PA, xy K, xy RA, sA) /\
    session sha (D1, xy Q1) m (xy QB) (xy TB) = Ok (xy PB, xy K, xy RB, sB) /\
    let eA := challenge sha PA m (px K) in
    let eB := challenge sha PB m (px K) in
    forall same, (same = true <-> (is_square (py RA) <-> is_square (py RB))) ->
      let e := if same : bool then eA - eB else eA + eB in
      e mod order_n <> 0 ->
      exists i, (e * i) mod order_n = 1 /\ guess same (be sA) (be sB) i = D1.
Proof.
  intros sha D1 Q1 m QA QB TA TB HD M GA GB GTA GTB NZ. rewrite order_n_eq in HD, NZ.
  rewrite be_set_bytes in NZ. pose proof N_lt as NL. pose proof M as MQ. apply key_point in M; [ | lia].
  destruct (gof_good _ GA) as (a & Ha). destruct (gof_good _ GB) as (b & Hb).
  destruct (gof_good _ GTA) as (ta & Hta). destruct (gof_good _ GTB) as (tb & Htb).
  set (k := nonce0 sha D1 m). assert (KZ : k <> 0) by exact NZ.
  destruct (gof_ex (gadd (gmul D1 gG) a)) as (PA & HPA). destruct (gof_ex (gadd (gmul D1 gG) b)) as (PB & HPB).
  destruct (gof_ex (gmul k gG)) as (K & HK).
  destruct (gof_ex (gadd (gmul k gG) ta)) as (RA & HRA). destruct (gof_ex (gadd (gmul k gG) tb)) as (RB & HRB).
  pose proof (session_ok sha D1 m a ta ltac:(lia) KZ) as SA.
  pose proof (session_ok sha D1 m b tb ltac:(lia) KZ) as SB. fold k in SA, SB.
  assert (EK : key D1 = (D1, xy Q1)) by (unfold key; rewrite (gof_enc _ _ M); reflexivity).
  rewrite EK, (gof_enc _ _ Ha), (gof_enc _ _ Hta), (gof_enc _ _ HPA), (gof_enc _ _ HK), (gof_enc _ _ HRA) in SA.
  rewrite EK, (gof_enc _ _ Hb), (gof_enc _ _ Htb), (gof_enc _ _ HPB), (gof_enc _ _ HK), (gof_enc _ _ HRB) in SB.
  eexists PA, PB, K, RA, RB, _, _.
  split; [apply (gof_sum _ _ _ _ _ M Ha); exact HPA | ]. split; [apply (gof_sum _ _ _ _ _ M Hb); exact HPB | ].
  split; [apply (gof_sum _ _ _ _ _ HK Hta); exact HRA | ]. split; [apply (gof_sum _ _ _ _ _ HK Htb); exact HRB | ].
  split; [exact SA | ]. split; [exact SB | ].
  intros eA eB same HS e NE. unfold guess.
  assert (OA : own sha (gadd (gmul D1 gG) a) m k = eA).
  { unfold eA. rewrite (echal_challenge _ _ _ _ _ HPA). unfold own. rewrite (gof_enc _ _ HK). reflexivity. }
  assert (OB : own sha (gadd (gmul D1 gG) b) m k = eB).
  { unfold eB. rewrite (echal_challenge _ _ _ _ _ HPB). unfold own. rewrite (gof_enc _ _ HK). reflexivity. }
  rewrite OA, OB. rewrite order_n_eq in *.
  destruct (inv_exists curveN e curveN_prime NE) as (i & _ & Hi). exists i. split; [exact Hi | ].
  assert (BM : forall z, 0 <= z mod curveN < 2 ^ 256)
    by (intro z; pose proof (Z.mod_pos_bound z curveN N_pos) as Q; split; [exact (proj1 Q) | apply (Z.lt_trans _ _ _ (proj2 Q)); reflexivity]).
  rewrite !be_set_bytes, !octets_back by apply BM.
  unfold signed. rewrite (gof_enc _ _ HRA), (gof_enc _ _ HRB). cbn [snd].
  apply (two_shares curveN D1 k); [exact N_pos | lia | | exact Hi].
  destruct (GetK_cases (py RA) k) as [[JA ->] | [JA ->]]; destruct (GetK_cases (py RB) k) as [[JB ->] | [JB ->]];
    destruct same.
  all: try (left; split; reflexivity).
  all: try (right; split; reflexivity).
  all: exfalso.
  - assert (false = true) by (apply HS; tauto). discriminate.
  - pose proof (proj1 HS eq_refl). tauto.
  - pose proof (proj1 HS eq_refl). tauto.
  - assert (false = true) by (apply HS; tauto). discriminate.
Qed.
Print Assumptions C106_two_sessions_refuted.

(** The key 1, and for a hash the bytes of the shared key's x: the first run has
    the other party at infinity, the second one at the base point, and their
    nonces are the same. *)
Definition cut (z : bytes) : bytes := if len z <=? 33 then [1] else firstn 32 (skipn 33 z).

Lemma cut_challenge : forall P m r, 0 <= px P < 2 ^ 256 -> challenge cut P m r = px P mod order_n.
Proof.
  intros P m r HP. unfold challenge, cut, compressed.
  assert (L : forall x, length (octets 32 x) = 32%nat) by (intro; apply octets_length).
  assert (N : (len (octets 32 r ++ ((2 + py P mod 2) :: octets 32 (px P)) ++ m) <=? 33) = false).
  { apply Z.leb_gt. unfold len. rewrite !app_length. cbn [length]. rewrite !L. lia. }
  rewrite N. clear N.
  replace (octets 32 r ++ ((2 + py P mod 2) :: octets 32 (px P)) ++ m)
    with ((octets 32 r ++ [2 + py P mod 2]) ++ octets 32 (px P) ++ m) by (rewrite <- !app_assoc; reflexivity).
  rewrite skipn_app, (skipn_all2 (n := 33)) by (rewrite app_length, L; cbn; lia).
  rewrite app_length, L. cbn [length Nat.add Nat.sub app skipn].
  rewrite firstn_app, L, Nat.sub_diag, firstn_O, app_nil_r.
  rewrite (firstn_all2 (octets 32 (px P))) by (rewrite L; lia).
  rewrite be_set_bytes, octets_back by exact HP. reflexivity.
Qed.

Example C106_example : exists PA PB K sA sB i,
  session cut (1, xy base) [7] (xy None) (xy None) = Ok (xy PA, xy K, xy K, sA) /\
  session cut (1, xy base) [7] (xy base) (xy None) = Ok (xy PB, xy K, xy K, sB) /\
  guess true (be sA) (be sB) i = 1.
Proof.
  assert (GB : good base) by exact (gof_is_good _ _ gof_base).
  assert (GN : good None) by exact I.
  assert (M : multiple base 1 base).
  { apply (gof_multiple _ _ _ _ gof_base); [lia | ]. replace (gmul 1 gG) with gG; [exact gof_base | ].
    symmetry. apply gmul_1. }
  destruct (C106_two_sessions_refuted cut 1 base [7] None base None None
    ltac:(split; [discriminate | reflexivity]) M GN GB GN GN) as
    (PA & PB & K & RA & RB & sA & sB & SPA & SPB & SRA & SRB & XA & XB & F).
  { rewrite order_n_eq. vm_compute. discriminate. }
  assert (RK : RA = K) by (destruct K as [[? ?] | ]; exact SRA).
  assert (RK' : RB = K) by (destruct K as [[? ?] | ]; exact SRB). subst RA RB.
  assert (EA : PA = base) by exact SPA.
  assert (EB : px PB = 0xc6047f9441ed7d6d3045406e95c07cd85c778e4b8cef3ca7abac09b95c709ee5).
  { apply (gof_sum _ _ _ _ _ gof_base gof_base) in SPB. pose proof (gof_enc _ _ SPB) as E.
    pose proof (curveAdd_ok gG gG) as C. rewrite E in C. rewrite (gof_enc _ _ gof_base) in C.
    cbn [fst snd] in C. assert (H : px PB = match curveAdd (px base) (py base) (px base) (py base) with Ok (x, _) => x | _ => 0 end)
      by (rewrite C; reflexivity).
    rewrite H. vm_compute. reflexivity. }
  specialize (F true). cbv zeta in F. destruct F as (i & _ & G).
  { split; intro; [tauto | reflexivity]. }
  { rewrite !cut_challenge.
    - rewrite EA, EB, order_n_eq. vm_compute. discriminate.
    - rewrite EB. split; [discriminate | reflexivity].
    - rewrite EA. split; [discriminate | reflexivity]. }
  exists PA, PB, K, sA, sB, i. split; [exact XA | ]. split; [exact XB | ]. exact G.
Qed.
