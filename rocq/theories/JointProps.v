(** C142: what two parties sign together and the rules of the network. *)
From Coq Require Import Znumtheory.
From Verif Require Import GoBase BaseLemmas NumTheory BigMod SecpModel SecpGroup SecpOrder SecpProofs SecpCyclic SecpSpec SecpLink EcdsaModel EcdsaSpec EcdsaNonce EcdsaProofs PubKeyModel PubKeySpec PubKeyProofs PubKeyProps
  SchnorrProps DerModel DerSpec DerProps PaillierModel MpcEcdsaModel MpcEcdsaProps MpcAdaptorProps RipemdSpec LockSpec LockModel TxModel TxSpec TxProps TxSignSpec TxSig WholeModel WholeProofs WholeProps EmbedProofs EmbedProps.
From Verif Require Import NetSpec NetProofs.
From Verif Require Import JointProofs.
Local Open Scope Z_scope.

(** Such a signature is one the network takes. *)
Lemma some_point : forall Q, good (Some (px Q, py Q)) -> Q = Some (px Q, py Q).
Proof. intros [[x y]|] G; [reflexivity|exfalso]. destruct G as (_ & _ & E). cbn [px py] in E. vm_compute in E. discriminate E. Qed.
Lemma sec_key : forall x y key, good (Some (x, y)) -> SerializeCompressed (x, y) = Ok key -> sec_form true key /\ len key = 33 /\ encodes key x y.
Proof.
  intros x y key G Ek. destruct (C70_roundtrip x y G) as (E1 & _ & _ & RT). destruct (RT SerializeCompressed key ltac:(cbn; tauto) Ek) as [[En _] _].
  assert (key = (2 + parity y) :: octets 32 x) by congruence. subst key. pose proof (parity_range y) as P.
  assert (L : len ((2 + parity y) :: octets 32 x) = 33) by (unfold len; cbn [length]; rewrite octets_length; reflexivity).
  split; [left; split; [exact L|cbn [hd]; lia]|]. split; [exact L|exact En].
Qed.
Lemma taken_sig : forall h key der Q r s, good (Some (px Q, py Q)) -> SerializeCompressed (px Q, py Q) = Ok key -> bytes_ok der -> der_sig der r s -> 1 <= s <= order_n / 2 -> ecdsa_valid Q (message_int h) r s ->
  net_sig true h key (der ++ [1]) /\ 1 <= len der <= 100 /\ len key = 33.
Proof.
  intros h key der Q r s G Ek O D Bs V. destruct (sec_key _ _ _ G Ek) as (Sf & L & En). split; [|split; [exact (sizes der r s _ Q O D Bs V)|exact L]].
  split; [exact Sf|]. rewrite (some_point Q G) in V. exists (px Q), (py Q), r, s, der. split; [exact En|]. split; [exact G|]. split; [reflexivity|]. split; [exact D|]. split; [lia|exact V].
Qed.
Lemma two_party_taken : forall h key der, bytes_ok h -> two_party_signature h key der -> net_sig true h key (der ++ [1]) /\ 1 <= len der <= 100 /\ len key = 33.
Proof.
  intros h key der Oh (hmac & fuel & D1 & D2 & prv1 & prv2 & p1 & q1 & r1 & p2 & q2 & r2 & k1 & k2 & Q & R & pub & pub2 & R1 & R2 & der2 & HD).
  destruct HD as (H1 & H2 & K1 & K2 & P1 & P2 & G1 & G2 & N1 & N2 & MQ & MR & LX & (L1 & L2 & F1 & F2) & E & Ek).
  destruct (C62_run hmac fuel D1 D2 prv1 prv2 h p1 q1 r1 p2 q2 r2 k1 k2 Q R Oh H1 H2 K1 K2 P1 P2 G1 G2 N1 N2 MQ MR L1 L2 F1 F2)
    as [[_ C] | (s & sig & E' & [Os Ds] & Rs & _ & V & _)]; [rewrite C in E; discriminate E | ].
  rewrite E' in E. assert (EP : (px Q, py Q) = pub) by congruence. assert (ES : sig = der) by congruence. subst pub der.
  exact (taken_sig h key sig Q _ s (joint_point D1 D2 Q H1 H2 MQ) Ek Os Ds Rs (proj1 (V LX))).
Qed.
Lemma adaptor_taken : forall h key der secret, bytes_ok h -> adaptor_signature h key der secret -> net_sig true h key (der ++ [1]) /\ 1 <= len der <= 100 /\ len key = 33.
Proof.
  intros h key der secret Oh (hmac & fuel & D1 & D2 & prv1 & prv2 & p1 & q1 & r1 & p2 & q2 & r2 & k1 & k2 & Q & R & pub & pub2 & R1 & R2 & fs1 & fs2 & found & HD).
  destruct HD as (H1 & H2 & K1 & K2 & S0 & SN & P1 & P2 & G1 & G2 & N1 & N2 & MQ & MR & LX & (L1 & L2 & F1 & F2) & E & Ek).
  destruct (C63_run hmac fuel D1 D2 prv1 prv2 secret h p1 q1 r1 p2 q2 r2 k1 k2 Q R Oh H1 H2 K1 K2 S0 SN P1 P2 G1 G2 N1 N2 MQ MR L1 L2 F1 F2)
    as [[_ C] | (f1 & f2 & s & sig & E' & _ & _ & [Os Ds] & Rs & V & _)]; [rewrite C in E; discriminate E | ].
  rewrite E' in E. assert (EP : (px Q, py Q) = pub) by congruence. assert (ES : sig = der) by congruence. subst pub der.
  exact (taken_sig h key sig Q _ s (joint_point D1 D2 Q H1 H2 MQ) Ek Os Ds Rs (proj1 (V LX))).
Qed.

(** C142: a new transaction of which every input spends an output of either key hash kind, locked to the key two parties share,
    is turned by their signatures (of type ALL, with or without an adaptor) into one in the network's format that meets its rules. *)
Theorem C142_joint_accepted : forall sha256 l t t', hash32 sha256 -> uncached t -> tx_ok t -> tx_ins t <> [] -> asked (DoubleSha256 sha256) 1 t t' ->
  length l = length (tx_ins t) ->
  (forall n i key der, nth_error (tx_ins t) n = Some i -> nth_error l n = Some (key, der) ->
    ti_redeem i = None /\ exists h, bytes_ok h /\ input_for sha256 t 1 n i h key /\ (two_party_signature h key der \/ exists secret, adaptor_signature h key der secret)) ->
  exists t2, embed_each sha256 1 0 l t' = Ok t2 /\ core t2 = core t /\ net_accepts sha256 (Hash160 sha256) (sent t2) (spent_outputs t) /\ Serialize t2 = net_bytes (sent t2).
Proof.
  intros sha256 l t t' Hs U T Ne Ask L F. apply (joint_taken sha256 Hs l t t' U T Ne Ask L).
  intros n i key der Ni Nl. destruct (F n i key der Ni Nl) as (Rn & h & Oh & (w & tn & An & Ts & Sp) & S). exists tn. split; [exact An|]. exists w, h.
  split; [destruct w; [exact Sp|split; assumption]|]. split; [exact Ts|]. destruct S as [S|(secret & S)]; [exact (two_party_taken h key der Oh S)|exact (adaptor_taken h key der secret Oh S)].
Qed.
Print Assumptions C142_joint_accepted.
Example C142_example : exists l t', uncached ex_joint /\ tx_ok ex_joint /\ tx_ins ex_joint <> [] /\ asked (DoubleSha256 ex_sha) 1 ex_joint t' /\ length l = length (tx_ins ex_joint) /\
  forall n i key der, nth_error (tx_ins ex_joint) n = Some i -> nth_error l n = Some (key, der) ->
    ti_redeem i = None /\ exists h, bytes_ok h /\ input_for ex_sha ex_joint 1 n i h key /\ (two_party_signature h key der \/ exists secret, adaptor_signature h key der secret).
Proof.
  destruct C101_example as (h1 & h2 & der1 & der2 & t' & A & _ & (i1 & N1 & I1) & (i2 & N2 & I2) & O1 & O2 & S1 & S2).
  exists [(PubKeyBytes ex_key true, der1); (PubKeyBytes ex_key true, der2)], t'. split; [repeat split|]. split; [tx_ok_tac|]. split; [discriminate|]. split; [exact A|]. split; [reflexivity|].
  assert (R : forall i, In i (tx_ins ex_joint) -> ti_redeem i = None) by (intros i [<-|[<-|[]]]; reflexivity).
  clear A. generalize dependent ex_joint. intros J N1 I1 N2 I2 R. generalize dependent (PubKeyBytes ex_key true). intros K I1 I2 S1 S2 n i key der Ni Nl.
  split; [apply R; eapply nth_error_In; eauto|]. destruct n as [|[|n]]; [| |destruct n; discriminate].
  - assert (i = i1) by congruence. subst i. injection Nl as <- <-. exists h1. auto.
  - assert (i = i2) by congruence. subst i. injection Nl as <- <-. exists h2. auto.
Qed.
