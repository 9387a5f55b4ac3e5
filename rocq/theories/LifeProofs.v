(** Party objects over their life. *)
From Verif Require Import GoBase BaseLemmas BigInt BigMod SecpModel SecpGroup SecpSpec SecpLink SecpOrder SecpOrderN SecpProofs EcdsaModel DerModel PaillierModel PubKeyModel SchnorrModel MpcEcdsaModel LifeModel LifeSpec.

Ltac split_step := repeat match goal with
  | H : context [let '(_, _) := ?x in _] |- _ => destruct x eqn:?
  | |- context [let '(_, _) := ?x in _] => destruct x eqn:?
  end.

Section Ecdsa.
Variable nonce : Z -> bytes -> Z.

Lemma erun_cons m o c cs : erun nonce m o (c :: cs) =
  (fst (fst (erun nonce (fst (fst (estep nonce m o c))) (snd (fst (estep nonce m o c))) cs)),
   snd (fst (erun nonce (fst (fst (estep nonce m o c))) (snd (fst (estep nonce m o c))) cs)),
   snd (estep nonce m o c) :: snd (erun nonce (fst (fst (estep nonce m o c))) (snd (fst (estep nonce m o c))) cs)).
Proof. cbn [erun]. destruct (estep nonce m o c) as [[m' o'] r]. cbn [fst snd]. destruct (erun nonce m' o' cs) as [[m'' o''] rs]. reflexivity. Qed.

(** Hash and nonce belong together, unless the party is closed. *)
Definition matched (D : Z) (m : memory) (o : eobject) (buffer : option nat) (message : option bytes) : Prop :=
  eo_prv o = None \/
  eo_prv o = Some D /\ eo_hash o = buffer /\
  match buffer with
  | None => message = None /\ eo_kinv o = None
  | Some b => message = Some (m b) /\ eo_kinv o = mod_inverse (nonce D (m b)) curveN
  end.

Lemma matched_run D : forall cs m o buffer message, matched D m o buffer message ->
  careful buffer cs (snd (erun nonce m o cs)) ->
  exists buffer', matched D (fst (fst (erun nonce m o cs))) (snd (fst (erun nonce m o cs))) buffer' (asked m cs message).
Proof.
  induction cs as [|c cs IH]; intros m o buffer message M C; [exists buffer; exact M|].
  rewrite erun_cons in *. cbn [fst snd careful] in *. destruct C as [C1 C2].
  assert (N : matched D (fst (fst (estep nonce m o c))) (snd (fst (estep nonce m o c))) (buffer_after buffer c)
     (match c with EP2 b _ _ => Some (m b) | _ => message end)).
  { destruct c; cbn [estep fst snd buffer_after careful_call] in *; try exact M.
    - destruct M as [M|(M1 & M2 & M3)]; [left; exact M|right]. split; [exact M1|]. split; [exact M2|]. destruct buffer as [b'|]; [|exact M3].
      unfold write. destruct (Nat.eqb_spec b' b) as [->|]; [now elim C1|exact M3].
    - destruct C1 as (x & C1). destruct (eo_prv o) as [D'|] eqn:P; [|discriminate C1]. destruct M as [M|(M1 & M2 & M3)]; [congruence|]. assert (D' = D) as -> by congruence.
      destruct primes as [[p q]|]; [|discriminate C1]. destruct (GenerateKeyPair p q) as [encpub encprv]. destruct blind as [r|]; [|discriminate C1].
      destruct (Encrypt encpub r D) as [encpk| |]; try discriminate C1. cbn [fst snd] in *. right. cbn. auto.
    - left. destruct (eo_k o); [destruct (eo_kinv o)|]; reflexivity. }
  destruct (IH _ _ _ _ N C2) as (b' & H). exists b'. replace (asked m (c :: cs) message) with
    (asked (fst (fst (estep nonce m o c))) cs (match c with EP2 b _ _ => Some (m b) | _ => message end)); [exact H|].
  destruct c; cbn [estep fst snd asked]; try reflexivity.
  - destruct (eo_prv o); [|reflexivity]. destruct primes as [[p q]|]; [|reflexivity]. destruct (GenerateKeyPair p q). destruct blind; [|reflexivity].
    destruct (Encrypt _ _ _); reflexivity.
  - destruct (eo_k o); [destruct (eo_kinv o)|]; reflexivity.
Qed.

Theorem share_matched D m cs encpk2 encpub2 shareR ct :
  careful None cs (snd (erun nonce m (NewEcdsaParty D) cs)) ->
  snd (estep nonce (fst (fst (erun nonce m (NewEcdsaParty D) cs))) (snd (fst (erun nonce m (NewEcdsaParty D) cs))) (EP4 (Some encpk2) encpub2 shareR)) = Ok (EShare ct) ->
  exists h, asked m cs None = Some h /\ share_of nonce D h encpk2 encpub2 shareR ct.
Proof.
  intros C. assert (M0 : matched D m (NewEcdsaParty D) None None) by (right; cbn; auto). destruct (matched_run D cs m _ None None M0 C) as (buffer & M).
  set (m' := fst (fst (erun nonce m (NewEcdsaParty D) cs))) in *. set (o' := snd (fst (erun nonce m (NewEcdsaParty D) cs))) in *. clearbody m' o'. clear C M0.
  cbn [estep snd]. intros E. destruct M as [M|(M1 & M2 & M3)]; [rewrite M in E; discriminate E|]. rewrite M1, M2 in E. cbn [deref rbind] in E.
  destruct buffer as [b|].
  - destruct M3 as [-> M3]. exists (m' b). split; [reflexivity|]. intros encprv. unfold EPhase4. cbn [ep_hash ep_D ep_kinv]. cbn [contents] in E.
    destruct (MultPlaintext encpub2 (Some encpk2) D) as [c1| |]; cbn [rbind] in *; try discriminate E.
    destruct (MultPlaintext encpub2 c1 (fst shareR)) as [c2| |]; cbn [rbind] in *; try discriminate E.
    destruct (AddPlaintext encpub2 c2 (HashToInt (m' b))) as [c3| |]; cbn [rbind] in *; try discriminate E.
    destruct (usable c3); [|discriminate E]. rewrite <- M3. destruct (eo_kinv o') as [kinv|]; cbn [deref rbind] in *; [|discriminate E].
    destruct (MultPlaintext encpub2 c3 kinv) as [c4| |]; cbn [rbind] in *; try discriminate E. injection E as ->. reflexivity.
  - exfalso. destruct M3 as [_ M3]. rewrite M3 in E. destruct (MultPlaintext encpub2 (Some encpk2) D) as [c1| |]; cbn [rbind] in *; try discriminate E.
    destruct (MultPlaintext encpub2 c1 (fst shareR)) as [c2| |]; cbn [rbind] in *; try discriminate E.
    destruct (AddPlaintext encpub2 c2 _) as [c3| |]; cbn [rbind] in *; try discriminate E. destruct (usable c3); discriminate E.
Qed.

(** ** Closed parties *)
Definition closed (o : eobject) : Prop := eo_prv o = None /\ eo_encprv o = None /\ (eo_k o = None \/ eo_k o = Some 0).
Lemma closed_step m o c : closed o -> snd (fst (estep nonce m o c)) = o \/ c = EClose.
Proof. intros (P & E & K). destruct c; cbn [estep]; auto. rewrite P. auto. Qed.
Lemma close_closed m o : closed (snd (fst (estep nonce m o EClose))).
Proof. cbn [estep]. destruct (eo_k o); [destruct (eo_kinv o)|]; cbn; unfold closed; cbn; auto. Qed.
Lemma closed_harmless m o c : closed o -> harmless c (snd (estep nonce m o c)).
Proof.
  intros (P & E & K). destruct c; cbn [estep snd harmless]; try rewrite P; try exact I.
  - destruct K as [K|K]; rewrite K; [exact I|]. cbn [deref rbind]. change (big_bytes 0) with (@nil Z). destruct (ScalarMult (fst r2) (snd r2) []) as [p| |] eqn:S; cbn [rbind]; try exact I.
    exists r2. auto.
  - rewrite E. destruct (usable sign2); exact I.
  - destruct (eo_k o); [destruct (eo_kinv o)|]; exact I.
Qed.
Lemma closed_run : forall cs m o, closed o -> Forall2 harmless cs (snd (erun nonce m o cs)).
Proof.
  induction cs as [|c cs IH]; intros m o C; [constructor|]. rewrite erun_cons. cbn [snd]. constructor; [now apply closed_harmless|]. apply IH.
  destruct (closed_step m o c C) as [->| ->]; [exact C|apply close_closed].
Qed.
Theorem close_harmless m o cs : Forall2 harmless cs (tl (snd (erun nonce m o (EClose :: cs)))).
Proof. rewrite erun_cons. cbn [snd tl]. apply closed_run, close_closed. Qed.

Theorem close_forgets m o1 o2 cs : eo_hash o1 = eo_hash o2 -> (eo_k o1 = None <-> eo_k o2 = None) -> (eo_kinv o1 = None <-> eo_kinv o2 = None) ->
  (eo_k o1 = None -> eo_kinv o1 = None) ->
  erun nonce m o1 (EClose :: cs) = erun nonce m o2 (EClose :: cs).
Proof.
  intros H K I R. assert (E : estep nonce m o1 EClose = estep nonce m o2 EClose); [|cbn [erun]; rewrite E; reflexivity].
  cbn [estep]. rewrite H. destruct (eo_k o1) as [k1|], (eo_k o2) as [k2|]; try (exfalso; destruct K; intuition discriminate).
  - destruct (eo_kinv o1), (eo_kinv o2); try (exfalso; destruct I; intuition discriminate); reflexivity.
  - rewrite (R eq_refl) in *. destruct I as [I _]. rewrite (I eq_refl). reflexivity.
Qed.

(** Close after any calls. *)
Definition invertible_nonce (o : eobject) : Prop := eo_k o <> None -> eo_kinv o <> None.
Lemma close_ok : (forall D h, 0 < nonce D h < order_n) -> forall cs m o, invertible_nonce o ->
  snd (estep nonce (fst (fst (erun nonce m o cs))) (snd (fst (erun nonce m o cs))) EClose) = Ok ENothing.
Proof.
  intros HN. induction cs as [|c cs IH]; intros m o I.
  - cbn [erun fst snd estep]. destruct (eo_k o) as [k|] eqn:K; [|reflexivity]. destruct (eo_kinv o) eqn:V; [reflexivity|]. exfalso. apply I; congruence.
  - rewrite erun_cons. cbn [fst snd]. apply IH. destruct c; cbn [estep fst snd]; try exact I.
    + destruct (eo_prv o) as [D|]; [|exact I]. destruct primes as [[p q]|]; [|exact I]. destruct (GenerateKeyPair p q) as [encpub encprv]. destruct blind as [r|]; [|exact I].
      destruct (Encrypt encpub r D); [|exact I|exact I]. cbn. intros _ E. pose proof (HN D (m b)) as R. rewrite order_n_eq in R.
      destruct (mod_inverse_prime curveN (nonce D (m b)) curveN_prime) as (i & A & _); [|rewrite A in E; discriminate E].
      rewrite Z.mod_small; [intros Z0; rewrite Z0 in R; destruct R as [R _]; discriminate R|]. destruct R as [R1 R2]. split; [apply Z.lt_le_incl, R1|exact R2].
    + destruct (eo_k o) as [k|] eqn:K; [destruct (eo_kinv o) eqn:V|]; cbn; unfold invertible_nonce; cbn; try congruence. exfalso. apply I; congruence.
Qed.
End Ecdsa.

Section Schnorr.
Variable sha : bytes -> bytes.
Theorem schnorr_close_forgets m o1 o2 cs : so_hash o1 = so_hash o2 -> so_pub o1 = so_pub o2 -> so_r o1 = so_r o2 -> (so_k0 o1 = None <-> so_k0 o2 = None) ->
  srun sha m o1 (SClose :: cs) = srun sha m o2 (SClose :: cs).
Proof.
  intros H P R K. cbn [srun sstep]. rewrite H, P, R. destruct (so_k0 o1), (so_k0 o2); try (exfalso; destruct K; intuition discriminate); reflexivity.
Qed.
Lemma closed_no_share : forall cs m o, so_prv o = None -> forall s, ~ In (Ok (SShare s)) (snd (srun sha m o cs)).
Proof.
  induction cs as [|c cs IH]; intros m o P s; [intros []|]. cbn [srun]. destruct (sstep sha m o c) as [[m' o'] r] eqn:E. destruct (srun sha m' o' cs) as [[m2 o2] rs] eqn:E2. cbn [snd].
  assert (Q : so_prv o' = None /\ r <> Ok (SShare s)).
  { destruct c; cbn [sstep] in E.
    - injection E as <- <- <-. split; [exact P|discriminate].
    - injection E as <- <- <-. split; [exact P|]. destruct (PubAdd _ _); discriminate.
    - rewrite P in E. injection E as <- <- <-. split; [exact P|discriminate].
    - injection E as <- <- <-. split; [exact P|]. destruct (so_r o); [|discriminate]. cbn [deref rbind]. destruct (curveAdd _ _ _ _); discriminate.
    - rewrite P in E. destruct (so_r o); [|injection E as <- <- <-; split; [exact P|discriminate]]. destruct (let! rb := _ in _); injection E as <- <- <-; split; try exact P; discriminate.
    - injection E as <- <- <-. split; [exact P|]. cbv zeta. destruct (IntToByte (fst shareR)); [|discriminate|discriminate]. cbn [rbind]. destruct (IntToByte _); discriminate.
    - injection E as <- <- <-. split; [reflexivity|discriminate]. }
  destruct Q as [Q1 Q2]. intros [A|A]; [exact (Q2 A)|]. apply (IH m' o' Q1 s). rewrite E2. exact A.
Qed.
Theorem schnorr_close_no_share m o cs s : ~ In (Ok (SShare s)) (snd (srun sha m o (SClose :: cs))).
Proof.
  cbn [srun sstep]. destruct (srun sha m _ cs) as [[m2 o2] rs] eqn:E2. cbn [snd]. intros [A|A]; [discriminate A|]. revert A.
  change rs with (snd (m2, o2, rs)). rewrite <- E2. apply closed_no_share. reflexivity.
Qed.
End Schnorr.
