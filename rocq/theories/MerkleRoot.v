(** C51, C53: what the root is, and what a proof proves. *)
From Verif Require Import GoBase BaseLemmas MerkleModel MerkleSpec MerkleProofs.
From Coq Require Import ZifyBool ZifyNat.

Definition all32 (l : list bytes) : Prop := Forall (fun h => length h = 32%nat) l.
Section R.
Variable DS : bytes -> bytes.
Hypothesis DS_len : forall b, length (DS b) = 32%nat.
Notation node a b := (merkleNode DS (Some a) (Some b)).

Lemma btc_round_len l : length (btc_round DS l) = ((length l + 1) / 2)%nat.
Proof. revert l. apply two_step; [reflexivity|reflexivity|]. intros a b l IH. cbn [btc_round length]. rewrite IH. replace (S (S (length l)) + 1)%nat with (length l + 1 + 1 * 2)%nat by lia. rewrite Nat.div_add by lia. lia. Qed.
Lemma btc_round_32 l : all32 (btc_round DS l).
Proof. revert l. apply two_step; [constructor|intros a; constructor; [apply DS_len|constructor]|]. intros a b l IH. constructor; [apply DS_len|exact IH]. Qed.
Lemma zero32 : length zero_hash = 32%nat. Proof. reflexivity. Qed.
Lemma fill_32 i l : all32 l -> all32 (zero_fill i l).
Proof. intros F. unfold zero_fill. destruct (_ && _); [|exact F]. apply Forall_app. split; [exact F|]. repeat constructor. Qed.
Lemma cround_btc b l : all32 l -> cround DS l b = btc_round DS (if Nat.even (length l) && b then l ++ [zero_hash; zero_hash] else l).
Proof.
  assert (N : forall x y, length x = 32%nat -> length y = 32%nat -> node x y = DS (x ++ y)) by (intros x y Hx Hy; unfold merkleNode; cbn [nilb]; now rewrite !copy32_id).
  revert l. apply (two_step (fun l => all32 l -> cround DS l b = btc_round DS (if Nat.even (length l) && b then l ++ [zero_hash; zero_hash] else l))).
  - intros _. destruct b; reflexivity.
  - intros a F. inversion F as [|? ? Ha _]. subst. cbn. now rewrite N.
  - intros a c l IH F. inversion F as [|? ? Ha F1]. inversion F1 as [|? ? Hc F2]. subst. cbn [cround length Nat.even]. rewrite IH by exact F2. rewrite N by auto. now destruct (Nat.even (length l) && b).
Qed.
Lemma cround_fill i l : all32 l -> (length l <= 2 ^ S i)%nat -> cround DS l (length l <? 2 ^ S i)%nat = btc_round DS (zero_fill (S i) l).
Proof. intros F L. rewrite cround_btc by exact F. unfold zero_fill. replace (length l <? 2 ^ S i)%nat with (negb (length l =? 2 ^ S i)%nat) by lia. reflexivity. Qed.
Lemma root_filled i : forall l m, (1 <= length l <= 2 ^ i)%nat -> all32 l -> build_levels DS i (pad i l) = Ok m -> Root m = Ok (Some (filled_root DS i l)).
Proof.
  induction i as [|i IH]; intros l m L F B.
  - cbn in B. injection B as <-. destruct l as [|x [|]]; [cbn in L; lia|reflexivity|cbn in L; lia].
  - destruct (build_step _ _ _ _ B) as (nx & ab & N & B' & ->). destruct (next_pad DS i l (proj2 L)) as [N' L']. assert (Q : nx = pad i (cround DS l (length l <? 2 ^ S i)%nat)) by congruence. rewrite Q in B'. pose proof (build_len _ _ _ _ B'). rewrite root_front by lia.
    pose proof (cround_pos DS l (length l <? 2 ^ S i)%nat ltac:(lia)) as Ps. rewrite cround_fill in B', L', Ps by (auto; lia). cbn [filled_root]. apply IH; [lia|apply btc_round_32|exact B'].
Qed.
(** The root for every number of leaves. *)
Lemma root_exact l : (1 <= length l)%nat -> len l <= 2 ^ 40 -> all32 l -> exists m, NewMerkle DS (map Some l) = Ok m /\ Root m = Ok (Some (filled_root DS (depth_of (length l)) l)).
Proof.
  intros N Mx F. destruct (new_merkle DS l N Mx) as [E (m & Em)]. exists m. split; [exact Em|]. rewrite Em in E. symmetry in E. apply (root_filled _ _ _ (conj N (proj1 (depth_bounds _ N))) F E).
Qed.

Lemma half_up_pow d : ((2 ^ S d + 1) / 2 = 2 ^ d)%nat.
Proof. rewrite Nat.pow_succ_r'. replace (2 * 2 ^ d + 1)%nat with (1 + 2 ^ d * 2)%nat by lia. rewrite Nat.div_add by lia. reflexivity. Qed.
Lemma fits_pow d : fits d (2 ^ d).
Proof. destruct d; [reflexivity|now left]. Qed.
Lemma fits_down d n : fits (S d) n -> fits d ((n + 1) / 2).
Proof. intros [->|[_ F]]; [rewrite half_up_pow; apply fits_pow|exact F]. Qed.
Lemma fits_no_fill d l : fits (S d) (length l) -> zero_fill (S d) l = l.
Proof. intros F. unfold zero_fill. destruct F as [E|[O _]]; [rewrite E, Nat.eqb_refl; cbn [negb]; now rewrite andb_false_r|]. rewrite <- Nat.negb_even in O. now destruct (Nat.even (length l)). Qed.
Lemma filled_btc d : forall l, fits d (length l) -> (d = 0 \/ 2 ^ (d - 1) < length l)%nat -> btc_root DS l (filled_root DS d l) /\ btc_inputs DS l (filled_inputs DS d l).
Proof.
  induction d as [|d IH]; intros l F L.
  - cbn [fits] in F. destruct l as [|x [|]]; [discriminate| |discriminate]. split; constructor.
  - assert (2 <= length l)%nat by (destruct L as [|L]; [lia|]; pose proof (Nat.pow_nonzero 2 (S d - 1)); lia). destruct l as [|a [|b l]]; [cbn in *; lia|cbn in *; lia|]. cbn [filled_root filled_inputs]. rewrite fits_no_fill by exact F.
    destruct (IH (btc_round DS (a :: b :: l))) as [R I].
    + rewrite btc_round_len. now apply fits_down.
    + destruct d as [|d]; [now left|right]. destruct L as [L|L]; [lia|]. rewrite btc_round_len. replace (S (S d) - 1)%nat with (S d) in L by lia. replace (S d - 1)%nat with d by lia. rewrite Nat.pow_succ_r' in L. pose proof (Nat.div_mod (length (a :: b :: l) + 1) 2 ltac:(lia)) as Q. pose proof (Nat.mod_upper_bound (length (a :: b :: l) + 1) 2 ltac:(lia)). lia.
    + split; [now constructor|]. now constructor.
Qed.
Lemma btc_root_fun l r r' : btc_root DS l r -> btc_root DS l r' -> r = r'.
Proof. intros A. revert r'. induction A as [x|a b rest r A IH]; intros r' B; inversion B; subst; auto. Qed.
Lemma root_bitcoin l : (1 <= length l)%nat -> len l <= 2 ^ 40 -> all32 l -> fits (depth_of (length l)) (length l) -> exists m r, NewMerkle DS (map Some l) = Ok m /\ Root m = Ok (Some r) /\ btc_root DS l r.
Proof.
  intros N Mx F Ft. destruct (root_exact l N Mx F) as (m & Em & R). exists m, (filled_root DS (depth_of (length l)) l). split; [exact Em|]. split; [exact R|]. apply filled_btc; [exact Ft|].
  destruct (Nat.eq_dec (depth_of (length l)) 0) as [|Nz]; [now left|right]. apply depth_bounds; [exact N|]. destruct (Nat.eq_dec (length l) 1) as [E1|]; [|lia]. rewrite E1 in Nz. now elim Nz.
Qed.

(** C53. *)
Definition step_of (n : Node) : bool * option bytes :=
  if (n_position n =? positionLeft)%string then (true, Some (copy32 (nilb (n_hash n))))
  else (false, match n_hash n with None => None | Some h => Some (copy32 h) end).
Lemma verify_step x root n path : length x = 32%nat -> VerifyPath DS x root (n :: path) = true -> n_parent n = DS (join x (step_of n)) /\ VerifyPath DS (DS (join x (step_of n))) root path = true.
Proof.
  intros Lx. cbn [VerifyPath]. unfold step_of. destruct (n_position n =? positionLeft)%string.
  - cbn [join]. unfold merkleNode. cbn [nilb]. rewrite (copy32_id x Lx). destruct (list_Z_eqb (n_parent n) _) eqn:E; [|discriminate]. apply list_Z_eqb_spec in E. auto.
  - destruct (n_position n =? positionRight)%string; [|discriminate]. unfold merkleNode. cbn [nilb]. rewrite (copy32_id x Lx). destruct (n_hash n) as [h|]; cbn [join nilb]; (destruct (list_Z_eqb (n_parent n) _) eqn:E; [|discriminate]); apply list_Z_eqb_spec in E; auto.
Qed.
Lemma verify_climb : forall path x root, length x = 32%nat -> VerifyPath DS x root path = true -> climb DS x (map step_of path) = root.
Proof.
  induction path as [|n path IH]; intros x root Lx V; [now apply list_Z_eqb_spec|]. destruct (verify_step _ _ _ _ Lx V) as [_ V']. cbn [map climb]. now apply IH.
Qed.
Lemma in_round y : forall l, In y (btc_round DS l) -> exists v, In v (round_inputs l) /\ y = DS v.
Proof.
  intros l. pattern l. revert l. apply two_step; [intros []|intros a [<-|[]]; eexists; split; [now left|reflexivity]|]. intros a b l IH [<-|I]; [eexists; split; [now left|reflexivity]|]. destruct (IH I) as (v & Iv & E). exists v. split; [now right|exact E].
Qed.
Lemma in_inputs v : forall l, In v (round_inputs l) -> exists a b, In a l /\ In b l /\ v = a ++ b.
Proof.
  intros l. pattern l. revert l. apply two_step; [intros []|intros a [<-|[]]; exists a, a; cbn; auto|]. intros a b l IH [<-|I]; [exists a, b; cbn; auto|]. destruct (IH I) as (p & q & Ip & Iq & E). exists p, q. cbn. auto.
Qed.
Lemma join_either x st a b : length x = 32%nat -> length a = 32%nat -> length b = 32%nat -> (forall s, snd st = Some s -> length s = 32%nat) -> join x st = a ++ b -> x = a \/ x = b.
Proof.
  intros Lx La Lb Ls E. destruct st as [[] [s|]]; cbn [join] in E.
  - right. specialize (Ls s eq_refl). now apply app_inj_len in E; [|congruence].
  - left. now apply app_inj_len in E; [|congruence].
  - left. now apply app_inj_len in E; [|congruence].
  - left. now apply app_inj_len in E; [|congruence].
Qed.
Lemma step_len n s : snd (step_of n) = Some s -> length s = 32%nat.
Proof. unfold step_of. destruct (_ =? _)%string; cbn [snd]; [intros E; injection E as <-; apply copy32_len|]. destruct (n_hash n); intros E; [injection E as <-; apply copy32_len|discriminate]. Qed.
Lemma sound i : forall l x path, (1 <= length l)%nat -> all32 l -> length x = 32%nat -> length path = i -> VerifyPath DS x (filled_root DS i l) path = true -> (i = 0 -> length l = 1)%nat ->
  (length l <= 2 ^ i)%nat ->
  In x l \/ collision DS (climb_inputs DS x (map step_of path)) (filled_inputs DS i l) \/
  ~ fits i (length l) /\ (x = zero_hash \/ exists u, In u (climb_inputs DS x (map step_of path)) /\ DS u = zero_hash).
Proof.
  induction i as [|i IH]; intros l x path N F Lx Lp V Z L.
  - destruct path; [|discriminate]. cbn in V. apply list_Z_eqb_spec in V. destruct l as [|y [|]]; [cbn in N; lia| |cbn in L; lia]. left. cbn in V. subst. now left.
  - destruct path as [|n path]; [discriminate|]. injection Lp as Lp. destruct (verify_step _ _ _ _ Lx V) as [_ V']. cbn [filled_root] in V'. set (u := join x (step_of n)) in *. set (l1 := zero_fill (S i) l) in *.
    pose proof (fill_32 (S i) l F) as F1. fold l1 in F1.
    assert (Rl : length (btc_round DS l1) = length (cround DS l (length l <? 2 ^ S i)%nat)) by (now rewrite cround_fill).
    assert (L1 : (1 <= length (btc_round DS l1) <= 2 ^ i)%nat) by (rewrite Rl; split; [apply cround_pos; lia|apply next_pad; exact L]).
    destruct (IH (btc_round DS l1) (DS u) path ltac:(lia) (btc_round_32 _) (DS_len _) Lp V' ltac:(intros ->; cbn in L1; lia) ltac:(lia)) as [I|[C|[Nf B]]].
    + destruct (in_round _ _ I) as (v & Iv & E). destruct (list_eq_dec Z.eq_dec u v) as [Euv|Ne].
      * subst v. destruct (in_inputs _ _ Iv) as (a & b & Ia & Ib & Eab). assert (Ha : length a = 32%nat) by (exact (proj1 (Forall_forall _ _) F1 a Ia)). assert (Hb : length b = 32%nat) by (exact (proj1 (Forall_forall _ _) F1 b Ib)).
        assert (I1 : In x l1) by (destruct (join_either x (step_of n) a b Lx Ha Hb (step_len n) Eab) as [->| ->]; auto). unfold l1, zero_fill in I1. destruct (Nat.even (length l) && negb (length l =? 2 ^ S i)%nat) eqn:Q; [|now left].
        apply in_app_or in I1. destruct I1 as [I1|I1]; [now left|]. right. right. assert (Ez : x = zero_hash) by (destruct I1 as [<-|[<-|[]]]; reflexivity). split; [|now left].
        intros Ft. pose proof (fits_no_fill i l Ft) as Nf. unfold zero_fill in Nf. rewrite Q in Nf. apply (f_equal (@length bytes)) in Nf. rewrite app_length in Nf. cbn in Nf. lia.
      * right. left. exists u, v. split; [now left|]. split; [cbn [filled_inputs]; apply in_or_app; left; exact Iv|]. split; [exact Ne|now rewrite E].
    + right. left. destruct C as (p & q & Ip & Iq & Ne & E). exists p, q. split; [now right|]. split; [cbn [filled_inputs]; apply in_or_app; right; exact Iq|auto].
    + right. right. split.
      * intros Ft. apply Nf. unfold l1. rewrite fits_no_fill by exact Ft. rewrite btc_round_len. now apply fits_down.
      * right. destruct B as [B|(w & Iw & Ew)]; [exists u; split; [now left|exact B]|exists w; split; [now right|exact Ew]].
Qed.
Lemma membership l m root x path : (1 <= length l)%nat -> len l <= 2 ^ 40 -> all32 l -> NewMerkle DS (map Some l) = Ok m -> Root m = Ok (Some root) -> length x = 32%nat ->
  length path = depth_of (length l) -> VerifyPath DS x root path = true ->
  In x l \/ collision DS (climb_inputs DS x (map step_of path)) (filled_inputs DS (depth_of (length l)) l) \/
  ~ fits (depth_of (length l)) (length l) /\ (x = zero_hash \/ exists u, In u (climb_inputs DS x (map step_of path)) /\ DS u = zero_hash).
Proof.
  intros N Mx F Em R Lx Lp V. destruct (root_exact l N Mx F) as (m' & Em' & R'). rewrite Em in Em'. injection Em' as <-. rewrite R in R'. injection R' as ->. apply sound; auto; [|now apply depth_bounds].
  intros D0. pose proof (proj1 (depth_bounds _ N)) as B. rewrite D0 in B. cbn in B. lia.
Qed.

(** Six leaves: the root is not Bitcoin's, and the zero hash has a proof. *)
Lemma six_root a b c d e f m r : all32 [a; b; c; d; e; f] -> NewMerkle DS (map Some [a; b; c; d; e; f]) = Ok m -> Root m = Ok (Some r) ->
  r = DS (DS (DS (a ++ b) ++ DS (c ++ d)) ++ DS (DS (e ++ f) ++ DS (zero_hash ++ zero_hash))).
Proof. intros F E R. destruct (root_exact [a; b; c; d; e; f]) as (m' & E' & R'); [cbn; lia|discriminate|exact F|]. rewrite E in E'. injection E' as <-. rewrite R in R'. injection R' as ->. reflexivity. Qed.
Lemma six_btc a b c d e f r : btc_root DS [a; b; c; d; e; f] r -> r = DS (DS (DS (a ++ b) ++ DS (c ++ d)) ++ DS (DS (e ++ f) ++ DS (e ++ f))).
Proof. intros B. eapply btc_root_fun; [exact B|]. repeat constructor. Qed.
Lemma six_differs a b c d e f m r : all32 [a; b; c; d; e; f] -> NewMerkle DS (map Some [a; b; c; d; e; f]) = Ok m -> Root m = Ok (Some r) -> btc_root DS [a; b; c; d; e; f] r ->
  (e = zero_hash /\ f = zero_hash) \/ collision DS (filled_inputs DS 3 [a; b; c; d; e; f]) ([e ++ f; DS (e ++ f) ++ DS (e ++ f); DS (DS (a ++ b) ++ DS (c ++ d)) ++ DS (DS (e ++ f) ++ DS (e ++ f))]).
Proof.
  intros F E R B. pose proof (six_root _ _ _ _ _ _ _ _ F E R) as E1. pose proof (six_btc _ _ _ _ _ _ _ B) as E2. rewrite E1 in E2. clear E1 E R B m r.
  assert (Lf : length e = 32%nat /\ length f = 32%nat) by (unfold all32 in F; repeat match goal with H : Forall _ (_ :: _) |- _ => inversion H; clear H; subst end; auto). destruct Lf as [Le Lf].
  set (h := DS (e ++ f)) in *. set (j := DS (zero_hash ++ zero_hash)) in *. set (t := DS (DS (a ++ b) ++ DS (c ++ d))) in *.
  assert (I : forall v, In v [e ++ f; zero_hash ++ zero_hash; h ++ j; t ++ DS (h ++ j)] -> In v (filled_inputs DS 3 [a; b; c; d; e; f])) by (intros v Iv; cbn in Iv |- *; tauto).
  destruct (list_eq_dec Z.eq_dec (t ++ DS (h ++ j)) (t ++ DS (h ++ h))) as [Q|Ne].
  2: { right. exists (t ++ DS (h ++ j)), (t ++ DS (h ++ h)). split; [apply I; cbn; tauto|]. split; [cbn; tauto|auto]. }
  apply app_inv_head in Q. destruct (list_eq_dec Z.eq_dec (h ++ j) (h ++ h)) as [Q2|Ne].
  2: { right. exists (h ++ j), (h ++ h). split; [apply I; cbn; tauto|]. split; [cbn; tauto|auto]. }
  apply app_inv_head in Q2. destruct (list_eq_dec Z.eq_dec (zero_hash ++ zero_hash) (e ++ f)) as [Q3|Ne].
  - left. apply app_inj_len in Q3; [|now rewrite Le]. destruct Q3; auto.
  - right. exists (zero_hash ++ zero_hash), (e ++ f). split; [apply I; cbn; tauto|]. split; [cbn; tauto|auto].
Qed.
Definition right_node (s p : bytes) : Node := MkNode (Some s) p positionRight.
Definition left_node (s p : bytes) : Node := MkNode (Some s) p positionLeft.
Lemma six_zero a b c d e f m r : all32 [a; b; c; d; e; f] -> NewMerkle DS (map Some [a; b; c; d; e; f]) = Ok m -> Root m = Ok (Some r) ->
  exists path, length path = depth_of 6 /\ VerifyPath DS zero_hash r path = true.
Proof.
  intros F E R. rewrite (six_root _ _ _ _ _ _ _ _ F E R). set (j := DS (zero_hash ++ zero_hash)). set (h := DS (e ++ f)). set (t := DS (DS (a ++ b) ++ DS (c ++ d))).
  exists [right_node zero_hash j; left_node h (DS (h ++ j)); left_node t (DS (t ++ DS (h ++ j)))]. split; [reflexivity|].
  cbn [VerifyPath right_node left_node n_position n_hash n_parent]. cbn [String.eqb Ascii.eqb Bool.eqb positionLeft positionRight]. unfold merkleNode. cbn [nilb].
  rewrite (copy32_id zero_hash) by reflexivity. fold j. rewrite list_Z_eqb_refl. rewrite (copy32_id j), (copy32_id h) by apply DS_len. rewrite list_Z_eqb_refl. rewrite (copy32_id t), (copy32_id (DS (h ++ j))) by apply DS_len. now rewrite !list_Z_eqb_refl.
Qed.
(** Whatever follows the first 32 bytes of a leaf is ignored. *)
Lemma long_leaf leaf junk root n path : length leaf = 32%nat -> VerifyPath DS (leaf ++ junk) root (n :: path) = VerifyPath DS leaf root (n :: path).
Proof.
  clear DS_len. intros L. assert (C : copy32 (leaf ++ junk) = copy32 leaf) by (rewrite (copy32_id leaf) by exact L; unfold copy32; rewrite <- app_assoc, firstn_app, L, <- L, firstn_all; replace (length leaf - length leaf)%nat with 0%nat by lia; cbn [firstn]; apply app_nil_r).
  cbn [VerifyPath]. unfold merkleNode. cbn [nilb]. now rewrite C.
Qed.
End R.
