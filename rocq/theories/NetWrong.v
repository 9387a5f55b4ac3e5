(** Reading the scripts of the network back. *)
From Coq Require Import Znumtheory.
From Verif Require Import GoBase BaseLemmas SecpModel SecpSpec EcdsaModel EcdsaSpec EcdsaProps PubKeyModel PubKeyProofs PubKeyProps DerModel DerSpec DerProps VmSpec TxModel TxSpec TxSignSpec WholeModel WholeProofs.
From Verif Require PubKeySpec LockSpec.
From Verif Require Import NetSpec NetProofs BindProofs.
From Coq Require Import ZifyBool ZifyNat ZifyN.

Lemma split_app {A} (a b x y : list A) : length a = length b -> a ++ x = b ++ y -> a = b /\ x = y.
Proof. revert b. induction a as [|h a IH]; intros [|k b] L E; try discriminate; [auto|]. injection E as -> E. injection L as L. destruct (IH b L E) as [-> ->]. auto. Qed.
Lemma le2 v : le 2 v = [v mod 256; (v / 256) mod 256].
Proof. unfold TxSpec.le. cbn [seq map]. change (256 ^ Z.of_nat 0) with 1. change (256 ^ Z.of_nat 1) with 256. now rewrite Z.div_1_r. Qed.
Lemma push_inj d d' x x' : len d <= 65535 -> len d' <= 65535 -> shortest_push d ++ x = shortest_push d' ++ x' -> d = d' /\ x = x'.
Proof.
  intros L L' E. unfold shortest_push in E. rewrite !le2 in E. rewrite <- !app_assoc in E. pose proof (len_nonneg d). pose proof (len_nonneg d').
  assert (F : length d = length d' -> d ++ x = d' ++ x' -> d = d' /\ x = x') by (apply split_app).
  destruct (len d <=? 75) eqn:C1, (len d' <=? 75) eqn:C1'; [| | |destruct (len d <=? 255) eqn:C2, (len d' <=? 255) eqn:C2']; cbn [app] in E.
  - injection E as Q E. apply F; [unfold len in *; lia|exact E].
  - destruct (len d' <=? 255); cbn [app] in E; injection E as Q E; lia.
  - destruct (len d <=? 255); cbn [app] in E; injection E as Q E; lia.
  - injection E as Q E. apply F; [unfold len in *; lia|exact E].
  - discriminate.
  - discriminate.
  - injection E as Q1 Q2 E. apply F; [|exact E]. rewrite (Z.mod_small (len d / 256)), (Z.mod_small (len d' / 256)) in Q2 by (split; [apply Z.div_pos; lia|apply Z.div_lt_upper_bound; lia]). pose proof (Z.div_mod (len d) 256 ltac:(lia)). pose proof (Z.div_mod (len d') 256 ltac:(lia)). unfold len in *. lia.
Qed.
Lemma push_bytes d : bytes_ok (shortest_push d) -> bytes_ok d.
Proof. unfold shortest_push. intros B. apply Forall_app in B. apply B. Qed.
Lemma push_some d : shortest_push d <> [].
Proof. unfold shortest_push. destruct (len d <=? 75); [discriminate|]. destruct (len d <=? 255); discriminate. Qed.
Lemma net_sig_len co h key sig : bytes_ok sig -> net_sig co h key sig -> len sig <= 65535.
Proof.
  intros B (_ & x & y & r & s & der & _ & _ & -> & D & Ls & (Rr & Rs & _)). apply Forall_app in B. destruct B as [B _]. rewrite len_app. change (len [1]) with 1.
  destruct (sig_bounds r s Rr ltac:(lia)) as [R1 R2]. pose proof (der_sig_len der r s D B R1 R2). lia.
Qed.
Lemma sec_form_len co key : sec_form co key -> 33 <= len key <= 65.
Proof. intros [[L _]|[_ [L _]]]; lia. Qed.
Lemma der_reads der r s : bytes_ok der -> der_sig der r s -> 1 <= r < order_n -> 1 <= s <= order_n / 2 -> SigDeserialize der = Ok (r, s).
Proof.
  intros B D Rr Rs. destruct (sig_bounds r s Rr Rs) as [R1 R2]. destruct (C71_der_encode r s 32 ltac:(lia) R1 R2) as (b & E & _ & _ & U). rewrite <- (U der B D) in E. exact (C71_der_roundtrip r s 32 der ltac:(lia) R1 R2 E).
Qed.
(** A signature for two digests. *)
Lemma two_digests co h h' key sig d x y : PubKeySpec.encodes key x y -> good (Some (x, y)) -> multiple base d (Some (x, y)) -> bytes_ok sig -> net_sig co h key sig -> net_sig co h' key sig ->
  exists r s, SigDeserialize (removelast sig) = Ok (r, s) /\
    (prime_p - order_n <= r -> (message_int h' - message_int h) mod order_n = 0 \/ (message_int h' + message_int h + 2 * r * d) mod order_n = 0).
Proof.
  intros En G M B (_ & x1 & y1 & r1 & s1 & der & En1 & G1 & E1 & D1 & L1 & V1) (_ & x2 & y2 & r2 & s2 & der2 & En2 & G2 & E2 & D2 & L2 & V2).
  rewrite E1 in E2. apply app_inj_tail in E2. destruct E2 as [<- _]. rewrite E1 in B. apply Forall_app in B. destruct B as [B _]. rewrite E1, removelast_last.
  pose proof (encodes_fun key _ _ _ _ G G1 En En1) as Q1. pose proof (encodes_fun key _ _ _ _ G G2 En En2) as Q2. rewrite <- Q1 in V1. rewrite <- Q2 in V2.
  pose proof (der_reads der r1 s1 B D1 ltac:(apply V1) ltac:(split; [apply V1|exact L1])) as R1. pose proof (der_reads der r2 s2 B D2 ltac:(apply V2) ltac:(split; [apply V2|exact L2])) as R2.
  assert (r2 = r1 /\ s2 = s1) as [-> ->] by (rewrite R1 in R2; split; congruence). exists r1, s1. split; [exact R1|]. intros Lr. exact (two_messages d _ _ _ _ _ M Lr V1 V2).
Qed.
