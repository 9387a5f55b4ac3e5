(** C70, C93: public and private keys. *)

From Verif Require Import GoBase BaseLemmas BigInt BigIntProofs NumTheory BigMod SecpModel SecpGroup SecpOrder SecpOrderN SecpProofs SecpCyclic SecpSpec SecpLink EcdsaModel EcdsaSpec EcdsaNonce EcdsaProofs PubKeyModel PubKeySpec PubKeyProofs.
Local Open Scope Z_scope.

(** ** C70 *)

(** What PubKeyFromBytes accepts, and the point it returns, for every byte
    string: the standard encodings of points of the curve, and the uncompressed
    form with prefix 05. *)
Theorem C70_parse_exact : forall key x y, bytes_ok key ->
  PubKeyFromBytes key = Ok (x, y) <->
  standard key x y \/ (key = 5 :: octets 32 x ++ octets 32 y /\ good (Some (x, y))).
Proof.
  intros key x y Hk. unfold standard.
  destruct (PubKeyFromBytes_ok key Hk) as [(x0 & y0 & E & G & C) | (e & E & N)]; rewrite E.
  - split.
    + intro Q. assert (x0 = x) by congruence. assert (y0 = y) by congruence. subst x0 y0. tauto.
    + intros [[C' G'] | [C' G']]; f_equal.
      * destruct C as [C | C].
        -- exact (encodes_fun _ _ _ _ _ G G' C C').
        -- exact (encodes_fun5 _ _ _ _ _ G G' C C').
      * destruct C as [C | C].
        -- symmetry. exact (encodes_fun5 _ _ _ _ _ G' G C' C).
        -- rewrite C in C'. apply octets2_inj; [assumption | assumption | congruence].
  - split; [discriminate | ]. intros [[C G] | [C G]]; destruct (N x y G); contradiction.
Qed.
Print Assumptions C70_parse_exact.

(** It never panics. *)
Theorem C70_total : forall key, bytes_ok key -> PubKeyFromBytes key <> Panic.
Proof.
  intros key Hk. destruct (PubKeyFromBytes_ok key Hk) as [(x & y & E & _) | (e & E & _)];
    rewrite E; discriminate.
Qed.
Print Assumptions C70_total.

(** Every serialisation of a point of the curve is a standard encoding and is
    read back. *)
Theorem C70_roundtrip : forall x y, good (Some (x, y)) ->
  SerializeCompressed (x, y) = Ok ((2 + parity y) :: octets 32 x) /\
  SerializeUncompressed (x, y) = Ok (4 :: octets 32 x ++ octets 32 y) /\
  SerializeHybrid (x, y) = Ok ((6 + parity y) :: octets 32 x ++ octets 32 y) /\
  forall f key, In f [Serialize; SerializeCompressed; SerializeUncompressed; SerializeHybrid] ->
    f (x, y) = Ok key -> standard key x y /\ PubKeyFromBytes key = Ok (x, y).
Proof.
  intros x y G. destruct (good_bounds _ _ G) as (Bx & By & _).
  assert (E1 : SerializeCompressed (x, y) = Ok ((2 + parity y) :: octets 32 x))
    by (apply SecMarshal_ok; exact Bx).
  assert (E2 : SerializeUncompressed (x, y) = Ok (4 :: octets 32 x ++ octets 32 y)).
  { unfold SerializeUncompressed. cbn [fst snd]. rewrite !pad32_ok by assumption. reflexivity. }
  assert (E3 : SerializeHybrid (x, y) = Ok ((6 + parity y) :: octets 32 x ++ octets 32 y)).
  { unfold SerializeHybrid. cbn [fst snd]. rewrite !pad32_ok by assumption. cbn [rbind].
    rewrite <- odd_parity. destruct (Z.odd y); reflexivity. }
  split; [exact E1 | ]. split; [exact E2 | ]. split; [exact E3 | ].
  assert (S : forall key, encodes key x y -> standard key x y /\ PubKeyFromBytes key = Ok (x, y)).
  { intros key C. assert (S : standard key x y) by (split; assumption). split; [exact S | ].
    apply C70_parse_exact; [ | left; exact S].
    pose proof (parity_range y). destruct C as [x y | x y | x y];
      apply bytes_ok_cons; (split; [unfold is_byte; lia | ]); rewrite ?bytes_ok_app; auto using octets_ok. }
  intros f key F E. apply S.
  destruct F as [<- | [<- | [<- | [<- | []]]]].
  - unfold Serialize in E. rewrite E1 in E. injection E as <-. constructor.
  - rewrite E1 in E. injection E as <-. constructor.
  - rewrite E2 in E. injection E as <-. constructor.
  - rewrite E3 in E. injection E as <-. constructor.
Qed.
Print Assumptions C70_roundtrip.

(** The rest of the claim, that only standard encodings are accepted, is false:
    05 is accepted for 04. *)
Theorem C70_standard_only_refuted : exists key x y,
  bytes_ok key /\ PubKeyFromBytes key = Ok (x, y) /\ ~ standard key x y.
Proof.
  exists (5 :: octets 32 curveGx ++ octets 32 curveGy), curveGx, curveGy.
  split; [ | split].
  - apply bytes_ok_cons. split; [unfold is_byte; lia | ]. apply bytes_ok_app. auto using octets_ok.
  - vm_compute. reflexivity.
  - intros [C _]. apply encodes_inv in C. pose proof (parity_range curveGy) as R.
    destruct C as [C | [C | C]]; apply (f_equal (hd 0)) in C; cbn [hd] in C; lia.
Qed.
Print Assumptions C70_standard_only_refuted.

Example ex_base_good : good (Some (curveGx, curveGy)).
Proof. exact (gof_is_good _ _ gof_base). Qed.

Example ex_compressed : exists key, SerializeCompressed (curveGx, curveGy) = Ok key /\
  length key = 33%nat /\ hd 0 key = 2 /\ PubKeyFromBytes key = Ok (curveGx, curveGy).
Proof.
  destruct (C70_roundtrip _ _ ex_base_good) as (E & _ & _ & H).
  eexists. split; [exact E | ]. split; [reflexivity | ]. split; [reflexivity | ].
  apply (H SerializeCompressed); [cbn; tauto | exact E].
Qed.

(** A mismatched hybrid parity and a point off the curve are refused. *)
Example ex_refused :
  PubKeyFromBytes (7 :: octets 32 curveGx ++ octets 32 curveGy) = Err "pubkey.ybit.doesnt.match.oddness" /\
  PubKeyFromBytes (4 :: octets 32 curveGx ++ octets 32 (curveGy + 1)) = Err "pubkey.point.is.not.on.the.curve".
Proof. vm_compute. split; reflexivity. Qed.

(** ** C93 *)

(** Adding bytes to a private key gives the private key of the sum modulo the
    order, and its public key is the sum of the public keys as computed by the
    public Add. *)
Theorem C93_add : forall key n2 D pub D2 pub2, bytes_ok key -> bytes_ok n2 ->
  PrvKeyFromBytes key = Ok (D, pub) -> PrvKeyFromBytes n2 = Ok (D2, pub2) ->
  exists pub3, PrvAdd D n2 = Ok ((be key + be n2) mod order_n, pub3) /\ PubAdd pub pub2 = Ok pub3 /\
    exists R, multiple base (be key + be n2) R /\ pub3 = (px R, py R).
Proof.
  intros key n2 D pub D2 pub2 Hk Hn E1 E2. unfold PrvKeyFromBytes in E1, E2.
  rewrite ScalarBaseMult_ok in E1, E2 by assumption. cbn [rbind] in E1, E2.
  assert (ED : D = set_bytes key) by congruence.
  assert (EP : pub = enc (gmul (set_bytes key) gG)) by congruence.
  assert (EP2 : pub2 = enc (gmul (set_bytes n2) gG)) by congruence.
  pose proof (set_bytes_nonneg key Hk) as P1. pose proof (set_bytes_nonneg n2 Hn) as P2.
  rewrite !be_set_bytes. exists (enc (gmul (set_bytes key + set_bytes n2) gG)). split; [ | split].
  - unfold PrvAdd, PrvKeyFromBytes. rewrite ED.
    pose proof (Z.mod_pos_bound (set_bytes key + set_bytes n2) curveN N_pos) as R.
    rewrite base_mult_big by lia. cbn [rbind]. rewrite big_bytes_set by lia.
    rewrite gmul_any_mod, order_n_eq. reflexivity.
  - unfold PubAdd. rewrite EP, EP2, curveAdd_ok, gmul_add. reflexivity.
  - destruct (gof_ex (gmul (set_bytes key + set_bytes n2) gG)) as (R & HR). exists R. split.
    + apply (gof_multiple _ _ _ _ gof_base); [lia | exact HR].
    + exact (gof_enc _ _ HR).
Qed.
Print Assumptions C93_add.

(** A private key below 2^256 is written as its 32 bytes and read back. *)
Theorem C93_serialize : forall key D pub, bytes_ok key -> len key <= 32 ->
  PrvKeyFromBytes key = Ok (D, pub) ->
  PrvSerialize D = octets 32 D /\ PrvKeyFromBytes (PrvSerialize D) = Ok (D, pub).
Proof.
  intros key D pub Hk Hl E. unfold PrvKeyFromBytes in E.
  rewrite ScalarBaseMult_ok in E by exact Hk. cbn [rbind] in E.
  assert (ED : D = set_bytes key) by congruence. assert (EP : pub = enc (gmul D gG)) by congruence.
  pose proof (set_bytes_nonneg key Hk) as P1. pose proof (set_bytes_lt key Hk) as P2.
  assert (B : 256 ^ len key <= 256 ^ 32) by (apply Z.pow_le_mono_r; lia). rewrite pow256_32 in B.
  assert (R : 0 <= D < 2 ^ 256) by (rewrite ED; lia).
  assert (S : PrvSerialize D = octets 32 D) by (apply pad_octets; exact R).
  split; [exact S | ]. rewrite S. unfold PrvKeyFromBytes.
  rewrite ScalarBaseMult_ok by apply octets_ok. cbn [rbind].
  rewrite octets_val. change (256 ^ Z.of_nat 32) with (2 ^ 256).
  rewrite Z.mod_small by exact R. rewrite EP. reflexivity.
Qed.
Print Assumptions C93_serialize.

(** The hypotheses are met by any keys, and the sum may wrap around the order. *)
Example ex_prv_add : exists pub, PrvAdd (curveN - 2) [5] = Ok (3, pub).
Proof. unfold PrvAdd. change ((curveN - 2 + set_bytes [5]) mod curveN) with 3.
  unfold PrvKeyFromBytes. rewrite base_mult_big by lia. cbn [rbind].
  change (set_bytes (big_bytes 3)) with 3. eexists. reflexivity. Qed.
Example ex_prv_ser : PrvSerialize 258 = repeat 0 30 ++ [1; 2].
Proof. reflexivity. Qed.
