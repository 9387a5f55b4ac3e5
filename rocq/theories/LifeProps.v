(** C122, C123: the objects of the two-party protocols over their life. *)
From Verif Require Import GoBase BaseLemmas BigInt BigIntProofs NumTheory BigMod SecpModel SecpGroup SecpOrder SecpOrderN SecpProofs SecpCyclic SecpSpec SecpLink EcdsaModel EcdsaSpec EcdsaNonce EcdsaProofs DerModel PaillierModel PubKeyModel PubKeySpec PubKeyProofs SchnorrModel SchnorrSpec SchnorrProofs MpcEcdsaModel LifeModel LifeSpec LifeProofs.
Local Open Scope Z_scope.

(** ** C122 *)

(** Every share is for the message, and with the nonce of the message, that the party was last asked to sign, if every Phase2
    answered and the caller left the buffer alone. *)
Theorem C122_share : forall nonce D m cs encpk2 encpub2 shareR ct,
  let '(m', o, rs) := erun nonce m (NewEcdsaParty D) cs in
  careful None cs rs ->
  snd (estep nonce m' o (EP4 (Some encpk2) encpub2 shareR)) = Ok (EShare ct) ->
  exists h, asked m cs None = Some h /\ share_of nonce D h encpk2 encpub2 shareR ct.
Proof.
  intros nonce D m cs encpk2 encpub2 shareR ct. pose proof (share_matched nonce D m cs encpk2 encpub2 shareR ct) as H.
  destruct (erun nonce m (NewEcdsaParty D) cs) as [[m' o] rs]. exact H.
Qed.
Print Assumptions C122_share.

(** A toy nonce and Paillier key for the examples. *)
Definition toy_nonce (D : Z) (h : bytes) : Z := 1 + set_bytes h.
Definition toy_pub : ppub := fst (GenerateKeyPair 5 7).
Definition toy_memory : memory := fun b => match b with O => [1] | _ => [2] end.

(** Two messages signed in turn by one object, the first buffer reused once it is no longer the current one. *)
Definition toy_careful : list ecall := [EP2 0 (Some (5, 7)) (Some 2); EP2 1 (Some (5, 7)) (Some 2); EWrite 0 [9]].
Example C122_example : let '(m', o, rs) := erun toy_nonce toy_memory (NewEcdsaParty 3) toy_careful in
  careful None toy_careful rs /\ asked toy_memory toy_careful None = Some [2] /\
  exists ct, snd (estep toy_nonce m' o (EP4 (Some 2) toy_pub (4, 5))) = Ok (EShare ct).
Proof.
  destruct (erun toy_nonce toy_memory (NewEcdsaParty 3) toy_careful) as [[m' o] rs] eqn:E. vm_compute in E. injection E as <- <- <-.
  split. { cbn. repeat split; try (eexists; reflexivity); discriminate. }
  split; [reflexivity|]. eexists. vm_compute. reflexivity.
Qed.

(** Without the first condition: the second Phase2 fails for want of random numbers, and the share that follows is of the
    second message with the nonce of the first. *)
Theorem C122_failed_refuted : exists nonce D m cs encpk2 encpub2 shareR ct,
  let '(m', o, rs) := erun nonce m (NewEcdsaParty D) cs in
  (forall b c, ~ In (EWrite b c) cs) /\ In (Ok (ENonce None)) rs /\
  snd (estep nonce m' o (EP4 (Some encpk2) encpub2 shareR)) = Ok (EShare ct) /\
  ~ exists h, asked m cs None = Some h /\ share_of nonce D h encpk2 encpub2 shareR ct.
Proof.
  exists toy_nonce, 3, toy_memory, [EP2 0 (Some (5, 7)) (Some 2); EP2 1 (Some (5, 7)) None], 2, toy_pub, (4, 5).
  destruct (erun toy_nonce toy_memory (NewEcdsaParty 3) _) as [[m' o] rs] eqn:E. vm_compute in E. injection E as <- <- <-.
  eexists. split. { intros b c [A|[A|[]]]; discriminate A. }
  split; [right; left; reflexivity|]. split; [vm_compute; reflexivity|]. intros (h & A & S). injection A as <-.
  specialize (S (PPrv None toy_pub 0)). vm_compute in S. discriminate S.
Qed.
Print Assumptions C122_failed_refuted.

(** Without the second: the buffer passed to Phase2 is overwritten before Phase4. *)
Theorem C122_overwritten_refuted : exists nonce D m cs encpk2 encpub2 shareR ct,
  let '(m', o, rs) := erun nonce m (NewEcdsaParty D) cs in
  (forall r, In (Ok (ENonce r)) rs -> r <> None) /\
  snd (estep nonce m' o (EP4 (Some encpk2) encpub2 shareR)) = Ok (EShare ct) /\
  ~ exists h, asked m cs None = Some h /\ share_of nonce D h encpk2 encpub2 shareR ct.
Proof.
  exists toy_nonce, 3, toy_memory, [EP2 0 (Some (5, 7)) (Some 2); EWrite 0 [2]], 2, toy_pub, (4, 5).
  destruct (erun toy_nonce toy_memory (NewEcdsaParty 3) _) as [[m' o] rs] eqn:E. vm_compute in E. injection E as <- <- <-.
  eexists. split. { intros r [A|[A|[]]]; [|discriminate A]. intros ->. discriminate A. }
  split; [vm_compute; reflexivity|]. intros (h & A & S). injection A as <-.
  specialize (S (PPrv None toy_pub 0)). vm_compute in S. discriminate S.
Qed.
Print Assumptions C122_overwritten_refuted.

(** In the Schnorr protocol this gives the key away: of two shares from one Phase2, with the buffer overwritten in between,
    anyone computes it, if the y of the joint nonce is a square. *)
Theorem C122_schnorr_key_refuted : forall sha m o D k0 r Q R b h2 s1 s2 i,
  so_prv o = Some D -> 0 <= D < order_n -> so_k0 o = Some k0 -> so_r o = Some r -> 0 <= fst r < 2 ^ 256 -> so_hash o = Some b ->
  good Q -> is_square (snd R) ->
  snd (srun sha m o [SP4 (px Q, py Q) R; SWrite b h2; SP4 (px Q, py Q) R]) = [Ok (SShare s1); Ok SNothing; Ok (SShare s2)] ->
  length h2 = length (m b) -> ((challenge sha Q (m b) (fst r) - challenge sha Q h2 (fst r)) * i) mod order_n = 1 ->
  ((be s1 - be s2) * i) mod order_n = D.
Proof.
  intros sha m o D k0 [rx ry] Q [Rx Ry] b h2 s1 s2 i P HD K Er Hr Eh G J E Lh Hi.
  assert (Ov : overwrite (m b) h2 = h2) by (unfold overwrite; rewrite <- Lh at 1; rewrite firstn_all, Lh, skipn_all; apply app_nil_r). rewrite <- Ov in Hi. cbn [fst snd] in *. rewrite order_n_eq in *.
  assert (BQ : 0 <= px Q < 2 ^ 256) by (destruct Q as [[x y]|]; [apply good_bounds in G; cbn; tauto|split; [discriminate|reflexivity]]).
  assert (GE : forall h, GetE sha h (px Q) (py Q) (octets 32 rx) = Ok (challenge sha Q h rx)).
  { intros h. unfold GetE. rewrite SecMarshal_ok by exact BQ. cbn [rbind]. unfold challenge, compressed, parity. rewrite be_set_bytes, order_n_eq, <- app_assoc. reflexivity. }
  assert (J' : forall k, GetK Ry k = k). { intros k. unfold GetK. rewrite (proj2 (jac_square Ry) J). reflexivity. }
  assert (M : forall z, 0 <= z mod curveN < 2 ^ 256) by (intro z; pose proof (Z.mod_pos_bound z curveN N_pos); pose proof N_lt; lia).
  cbn [srun sstep fst snd] in E. rewrite Er in E. cbn [fst snd] in E. rewrite (IntToByte_ok rx Hr) in E. cbn [rbind] in E. rewrite GE, P, K in E. cbn [so_r fst snd] in E.
  rewrite (IntToByte_ok rx Hr) in E. cbn [rbind so_hash] in E. rewrite GE in E. cbn [so_prv so_k0 fst snd] in E. rewrite !J', Eh in E. cbn [contents] in E.
  unfold write in E at 1. rewrite Nat.eqb_refl in E. rewrite !IntToByte_ok in E by apply M. cbn [rbind snd] in E.
  set (e1 := challenge sha Q (m b) rx) in *. set (e2 := challenge sha Q (overwrite (m b) h2) rx) in *. clearbody e1 e2.
  assert (S1 : s1 = octets 32 ((k0 + e1 * D) mod curveN)) by congruence. assert (S2 : s2 = octets 32 ((k0 + e2 * D) mod curveN)) by congruence.
  rewrite S1, S2, !be_set_bytes, !octets_back by apply M. clear E S1 S2 GE J' M BQ. rewrite <- Z.mul_mod_idemp_l, <- Zminus_mod, Z.mul_mod_idemp_l by discriminate.
  replace ((k0 + e1 * D - (k0 + e2 * D)) * i) with ((e1 - e2) * i * D) by ring. rewrite <- Z.mul_mod_idemp_l by discriminate. rewrite Hi, Z.mul_1_l. apply Z.mod_small, HD.
Qed.
Print Assumptions C122_schnorr_key_refuted.

Lemma four_square : is_square 4.
Proof. split; [intros A; vm_compute in A; discriminate A|exists 2; reflexivity]. Qed.
Definition last_byte (x : bytes) : bytes := [last x 0].
Example C122_schnorr_example : let o := MkSObject (Some 7) (Some 5) (px base, py base) (Some O) (Some (3, 4)) in
  good base /\ is_square 4 /\
  snd (srun last_byte toy_memory o [SP4 (px base, py base) (3, 4); SWrite 0 [2]; SP4 (px base, py base) (3, 4)]) =
    [Ok (SShare (octets 32 12)); Ok SNothing; Ok (SShare (octets 32 17))] /\
  ((challenge last_byte base [1] 3 - challenge last_byte base [2] 3) * -1) mod order_n = 1.
Proof. split; [exact (gof_is_good _ _ gof_base)|]. split; [exact four_square|]. split; vm_compute; reflexivity. Qed.

(** ** C123 *)

(** After Close no method depends on the private key, the nonce or the Paillier key: objects that differ only in these
    answer alike, whatever is called. *)
Theorem C123_forgets : forall nonce m o1 o2 cs,
  eo_hash o1 = eo_hash o2 -> (eo_k o1 = None <-> eo_k o2 = None) -> (eo_kinv o1 = None <-> eo_kinv o2 = None) ->
  (eo_k o1 = None -> eo_kinv o1 = None) ->
  snd (erun nonce m o1 (EClose :: cs)) = snd (erun nonce m o2 (EClose :: cs)).
Proof. intros nonce m o1 o2 cs H1 H2 H3 H4. now rewrite (close_forgets nonce m o1 o2 cs). Qed.
Print Assumptions C123_forgets.

(** It gives no share, no signature, no nonce; only Phase3 still answers, with the multiple by zero. *)
Theorem C123_harmless : forall nonce m o cs, Forall2 harmless cs (tl (snd (erun nonce m o (EClose :: cs)))).
Proof. exact close_harmless. Qed.
Print Assumptions C123_harmless.

Example C123_example : let o D k := MkEObject (Some D) (Some k) (mod_inverse k curveN) (Some O) (Some (snd (GenerateKeyPair 5 7))) in
  snd (erun toy_nonce toy_memory (o 3 2) (EClose :: [EP3 (curveGx, curveGy); EP4 (Some 2) toy_pub (4, 5); EP5 (4, 5) (Some 2); EP5 (4, 5) None])) =
    [Ok ENothing; Ok (EPoint (0, 0)); Panic; Panic; Err "ciphertext.invalid"%string] /\
  snd (erun toy_nonce toy_memory (o 3 2) [EP4 (Some 2) toy_pub (4, 5)]) <> snd (erun toy_nonce toy_memory (o 4 2) [EP4 (Some 2) toy_pub (4, 5)]).
Proof. split; vm_compute; [reflexivity|discriminate]. Qed.

Theorem C123_schnorr_forgets : forall sha m o1 o2 cs,
  so_hash o1 = so_hash o2 -> so_pub o1 = so_pub o2 -> so_r o1 = so_r o2 -> (so_k0 o1 = None <-> so_k0 o2 = None) ->
  snd (srun sha m o1 (SClose :: cs)) = snd (srun sha m o2 (SClose :: cs)).
Proof. intros sha m o1 o2 cs H1 H2 H3 H4. now rewrite (schnorr_close_forgets sha m o1 o2 cs). Qed.
Print Assumptions C123_schnorr_forgets.

Theorem C123_schnorr_no_share : forall sha m o cs s, ~ In (Ok (SShare s)) (snd (srun sha m o (SClose :: cs))).
Proof. exact schnorr_close_no_share. Qed.
Print Assumptions C123_schnorr_no_share.

Example C123_schnorr_example : let o D k := MkSObject (Some k) (Some D) (px base, py base) (Some O) (Some (3, 4)) in
  let cs := [SP4 (px base, py base) (3, 4); SP5 (3, 4) [[1]; [2]]] in
  snd (srun last_byte toy_memory (o 5 7) (SClose :: cs)) = [Ok SNothing; Panic; Ok (SSignature (octets 32 3 ++ octets 32 3))] /\
  snd (srun last_byte toy_memory (o 5 7) cs) <> snd (srun last_byte toy_memory (o 6 7) cs).
Proof. split; [vm_compute; reflexivity|]. vm_compute. discriminate. Qed.

(** Close does not crash, whatever was called before, if nonces are between 1 and n - 1. *)
Theorem C123_close_ok : forall nonce D m cs, (forall D h, 0 < nonce D h < order_n) ->
  let '(m', o, _) := erun nonce m (NewEcdsaParty D) cs in snd (estep nonce m' o EClose) = Ok ENothing.
Proof.
  intros nonce D m cs HN. pose proof (close_ok nonce HN cs m (NewEcdsaParty D)) as H.
  destruct (erun nonce m (NewEcdsaParty D) cs) as [[m' o] rs]. apply H. intros A. elim A. reflexivity.
Qed.
Print Assumptions C123_close_ok.

Example C123_close_example : let nonce := fun _ h => 1 + set_bytes h mod 5 in
  (forall D h, 0 < nonce D h < order_n) /\
  exists k, eo_k (snd (fst (erun nonce toy_memory (NewEcdsaParty 3) toy_careful))) = Some k.
Proof.
  cbv zeta. split; [intros _ h; pose proof (Z.mod_pos_bound (set_bytes h) 5 eq_refl); split; [lia|apply Z.lt_trans with 6; [lia|reflexivity]]|].
  eexists. vm_compute. reflexivity.
Qed.
