(** The Bech32 checksum detects up to four wrong symbols among 89.

    Two input sequences with the same checksum differ by an error pattern on which the register, started at zero, ends at
    zero.  For each distance [j] between the last two errors the part of the register above the last symbol is reduced
    modulo the effects of an error at [j]; what single errors further left then leave behind is computed for all of them
    and seen to be nonzero and pairwise different. *)
From Verif Require Import GoBase BaseLemmas Bech32Model Bech32Spec Bech32Poly Bech32Proofs.
From Coq Require Import ZifyBool.

(** ** Sets of numbers *)
Inductive trie := Leaf | Node (b : bool) (l r : trie).
Fixpoint mem (p : positive) (t : trie) : bool :=
  match p, t with
  | _, Leaf => false
  | xH, Node b _ _ => b
  | xO q, Node _ l _ => mem q l
  | xI q, Node _ _ r => mem q r
  end.
(** Insertion of a new element. *)
Fixpoint ins (p : positive) (t : trie) : option trie :=
  match p, t with
  | xH, Leaf => Some (Node true Leaf Leaf)
  | xH, Node true _ _ => None
  | xH, Node false l r => Some (Node true l r)
  | xO q, Leaf => match ins q Leaf with Some t => Some (Node false t Leaf) | None => None end
  | xO q, Node b l r => match ins q l with Some t => Some (Node b t r) | None => None end
  | xI q, Leaf => match ins q Leaf with Some t => Some (Node false Leaf t) | None => None end
  | xI q, Node b l r => match ins q r with Some t => Some (Node b l t) | None => None end
  end.
Fixpoint distinct (l : list Z) (t : trie) : bool :=
  match l with
  | [] => true
  | Zpos p :: r => match ins p t with Some t' => distinct r t' | None => false end
  | _ => false
  end.

Lemma mem_leaf p : mem p Leaf = false.
Proof. destruct p; reflexivity. Qed.
Lemma ins_spec p : forall t t', ins p t = Some t' -> mem p t = false /\ forall q, mem q t' = (q =? p)%positive || mem q t.
Proof.
  induction p as [p IH|p IH|]; intros [|b l r] t' E; cbn [ins] in E.
  - destruct (ins p Leaf) as [u|] eqn:I; [|discriminate E]. injection E as <-. destruct (IH _ _ I) as [A B]. split; [reflexivity|].
    intros [q|q|]; cbn [mem Pos.eqb orb]; [rewrite B; now rewrite !mem_leaf|now rewrite mem_leaf|reflexivity].
  - destruct (ins p r) as [u|] eqn:I; [|discriminate E]. injection E as <-. destruct (IH _ _ I) as [A B]. split; [exact A|].
    intros [q|q|]; cbn [mem Pos.eqb orb]; [apply B|reflexivity|reflexivity].
  - destruct (ins p Leaf) as [u|] eqn:I; [|discriminate E]. injection E as <-. destruct (IH _ _ I) as [A B]. split; [reflexivity|].
    intros [q|q|]; cbn [mem Pos.eqb orb]; [now rewrite mem_leaf|rewrite B; now rewrite !mem_leaf|reflexivity].
  - destruct (ins p l) as [u|] eqn:I; [|discriminate E]. injection E as <-. destruct (IH _ _ I) as [A B]. split; [exact A|].
    intros [q|q|]; cbn [mem Pos.eqb orb]; [reflexivity|apply B|reflexivity].
  - injection E as <-. split; [reflexivity|]. intros [q|q|]; cbn; rewrite ?mem_leaf; reflexivity.
  - destruct b; [discriminate E|]. injection E as <-. split; [reflexivity|]. intros [q|q|]; reflexivity.
Qed.
Lemma distinct_spec l : forall t, distinct l t = true -> NoDup l /\ forall x, In x l -> exists p, x = Zpos p /\ mem p t = false.
Proof.
  induction l as [|x l IH]; intros t D; [split; [constructor|intros x []]|]. destruct x as [|p|p]; [discriminate D| |discriminate D].
  cbn [distinct] in D. destruct (ins p t) as [t'|] eqn:I; [|discriminate D]. destruct (ins_spec _ _ _ I) as [A B]. destruct (IH _ D) as [N Q]. split.
  - constructor; [|exact N]. intros H. destruct (Q _ H) as (q & E & M). injection E as <-. rewrite B, Pos.eqb_refl in M. discriminate M.
  - intros y [<-|H]; [exists p; split; [reflexivity|exact A]|]. destruct (Q _ H) as (q & -> & M). exists q. split; [reflexivity|].
    rewrite B in M. apply orb_false_iff in M. apply M.
Qed.

(** ** Linear maps *)
Definition lin (f : Z -> Z) : Prop := forall a b, f (Z.lxor a b) = Z.lxor (f a) (f b).
Lemma lin_0 f : lin f -> f 0 = 0.
Proof. intros L. specialize (L 0 0). change (Z.lxor 0 0) with 0 in L. rewrite Z.lxor_nilpotent in L. exact L. Qed.

(** All sums of the given words; zero comes first. *)
Fixpoint spanl (bs : list Z) : list Z :=
  match bs with [] => [0] | b :: r => let l := spanl r in l ++ map (Z.lxor b) l end.
Lemma spanl_map f bs : lin f -> map f (spanl bs) = spanl (map f bs).
Proof.
  intros L. induction bs as [|b bs IH]; cbn [spanl map]; [now rewrite lin_0|]. rewrite map_app, <- IH, !map_map. f_equal. apply map_ext. intros x. apply L.
Qed.
Definition units : list Z := [1; 2; 4; 8; 16].
Lemma symbols_spanned : forallb (fun e => existsb (Z.eqb e) (tl (spanl units))) (map Z.of_nat (seq 1 31)) = true.
Proof. vm_compute. reflexivity. Qed.
Lemma in_span f e : lin f -> 0 <= e < 32 -> e <> 0 -> In (f e) (tl (spanl (map f units))).
Proof.
  intros L H N. rewrite <- (spanl_map f units L). replace (tl (map f (spanl units))) with (map f (tl (spanl units))) by reflexivity. apply in_map.
  pose proof symbols_spanned as S. rewrite forallb_forall in S. assert (I : In e (map Z.of_nat (seq 1 31))) by (apply in_map_iff; exists (Z.to_nat e); split; [lia|apply in_seq; lia]).
  apply S in I. apply existsb_exists in I. destruct I as (y & Hy & E). apply Z.eqb_eq in E. subst y. exact Hy.
Qed.

(** Adding [snd pv] to the words which have bit [fst pv]. *)
Definition elim1 (pv : Z * Z) (x : Z) : Z := if Z.testbit x (fst pv) then Z.lxor x (snd pv) else x.
Definition elim (basis : list (Z * Z)) (x : Z) : Z := fold_left (fun x pv => elim1 pv x) basis x.
Lemma elim1_lin pv : lin (elim1 pv).
Proof.
  intros a b. unfold elim1. rewrite Z.lxor_spec. apply Z.bits_inj'. intros n _.
  destruct (Z.testbit a (fst pv)), (Z.testbit b (fst pv)); cbn [xorb]; rewrite !Z.lxor_spec; destruct (Z.testbit a n), (Z.testbit b n), (Z.testbit (snd pv) n); reflexivity.
Qed.
Lemma elim_lin B : lin (elim B).
Proof. induction B as [|pv B IH]; intros a b; [reflexivity|]. cbn [elim fold_left]. rewrite elim1_lin. apply IH. Qed.
(** Elimination of the given words, one pivot each. *)
Fixpoint echelon (vs : list Z) (basis : list (Z * Z)) : list (Z * Z) :=
  match vs with [] => basis | v :: r => let x := elim basis v in echelon r (basis ++ [(Z.log2 x, x)]) end.

(** ** Effects of single errors *)
(** What symbol [e] leaves above the last symbol after [k] more symbols. *)
Definition eff (k : nat) (e : Z) : Z := Z.shiftr (iterF k e) 5.
Lemma eff_lin k : lin (eff k).
Proof. intros a b. unfold eff. rewrite iterF_lxor. apply Z.shiftr_lxor. Qed.
Fixpoint effects (k n : nat) : list (list Z) := match n with O => [] | S m => map (eff k) units :: effects (S k) m end.
Definition leftovers (R : Z -> Z) (t : list (list Z)) : list Z := flat_map (fun vs => tl (spanl (map R vs))) t.
Definition separated (vs : list Z) (t : list (list Z)) : bool :=
  let B := echelon vs [] in forallb (fun v => elim B v =? 0) vs && distinct (leftovers (elim B) t) Leaf.
Fixpoint all_separated (t : list (list Z)) : bool := match t with [] => true | vs :: r => separated vs r && all_separated r end.

(** The same words, each from the one before. *)
Fixpoint effects_fast (n : nat) (vs : list Z) : list (list Z) :=
  match n with O => [] | S m => map (fun v => Z.shiftr v 5) vs :: effects_fast m (map F vs) end.
Lemma iterF_S k e : F (iterF k e) = iterF (S k) e.
Proof. change (F (iterF k e)) with (iterF 1 (iterF k e)). rewrite <- iterF_add, Nat.add_1_r. reflexivity. Qed.
Lemma effects_fast_ok n : forall k, effects_fast n (map (iterF k) units) = effects k n.
Proof.
  induction n as [|n IH]; intros k; [reflexivity|]. cbn [effects_fast effects]. rewrite <- IH. f_equal. f_equal. rewrite map_map. apply map_ext. intros e. apply iterF_S.
Qed.
Lemma separated_checked : all_separated (effects_fast 88 (map F units)) = true.
Proof. vm_compute. reflexivity. Qed.
Lemma effects_separated : all_separated (effects 1 88) = true.
Proof. rewrite <- effects_fast_ok. exact separated_checked. Qed.

(** ** Error patterns, last symbol first *)
Definition weight (es : list Z) : nat := length (filter (fun e => negb (e =? 0)) es).
Fixpoint total (f : nat -> Z -> Z) (k : nat) (es : list Z) : Z := match es with [] => 0 | e :: r => Z.lxor (f k e) (total f (S k) r) end.
Definition symbols (es : list Z) : Prop := Forall (fun v => 0 <= v < 32) es.

Lemma weight_cons e es : weight (e :: es) = ((if (e =? 0)%Z then 0 else 1) + weight es)%nat.
Proof. unfold weight. cbn [filter]. destruct (e =? 0); reflexivity. Qed.
Lemma total_none f : (forall k, lin (f k)) -> forall es k, weight es = 0%nat -> total f k es = 0.
Proof.
  intros L. induction es as [|e es IH]; intros k W; [reflexivity|]. rewrite weight_cons in W. destruct (Z.eqb_spec e 0) as [->|]; [|lia].
  cbn [total]. rewrite (lin_0 _ (L k)), IH by lia. reflexivity.
Qed.
Lemma total_lin R f : lin R -> forall es k, R (total f k es) = total (fun k e => R (f k e)) k es.
Proof. intros L. induction es as [|e es IH]; intros k; cbn [total]; [apply lin_0; exact L|]. rewrite L, IH. reflexivity. Qed.

Section Two.
Variable R : Z -> Z.
Hypothesis R_lin : lin R.
Let g k e := R (eff k e).
Lemma g_lin k : lin (g k).
Proof. intros a b. unfold g. rewrite eff_lin. apply R_lin. Qed.
Lemma leftovers_cons k n : leftovers R (effects k (S n)) = tl (spanl (map (g k) units)) ++ leftovers R (effects (S k) n).
Proof. unfold leftovers. cbn [effects flat_map]. rewrite map_map. reflexivity. Qed.
Lemma total_one n : forall es k, (length es <= n)%nat -> symbols es -> weight es = 1%nat -> In (total g k es) (leftovers R (effects k n)).
Proof.
  induction n as [|n IH]; intros es k L S W; [destruct es; [discriminate W|cbn in L; lia]|]. destruct es as [|e es]; [discriminate W|].
  inversion S as [|? ? He Hes]; subst. cbn [length] in L. rewrite weight_cons in W. rewrite leftovers_cons. apply in_or_app. cbn [total]. destruct (Z.eqb_spec e 0) as [->|N].
  - right. rewrite (lin_0 _ (g_lin k)), Z.lxor_0_l. apply IH; [lia|exact Hes|lia].
  - left. rewrite (total_none g g_lin) by lia. rewrite Z.lxor_0_r. apply in_span; [apply g_lin|exact He|exact N].
Qed.
Lemma total_two n : forall es k, (length es <= n)%nat -> symbols es -> (weight es <= 2)%nat ->
  NoDup (leftovers R (effects k n)) -> ~ In 0 (leftovers R (effects k n)) -> total g k es = 0 -> weight es = 0%nat.
Proof.
  induction n as [|n IH]; intros es k L S W D Z0 E; [destruct es; [reflexivity|cbn in L; lia]|]. destruct es as [|e es]; [reflexivity|].
  inversion S as [|? ? He Hes]; subst. cbn [length] in L. rewrite weight_cons in *. rewrite leftovers_cons in D, Z0. cbn [total] in E. destruct (Z.eqb_spec e 0) as [->|N].
  - rewrite (lin_0 _ (g_lin k)), Z.lxor_0_l in E. apply (IH es (Datatypes.S k)); [lia|exact Hes|lia| | |exact E].
    + clear - D. induction (tl (spanl (map (g k) units))) as [|x l IHl]; [exact D|]. inversion D. auto.
    + intros H. apply Z0, in_or_app. now right.
  - exfalso. pose proof (in_span _ e (g_lin k) He N) as I. apply Z.lxor_eq in E. destruct (weight es) as [|[|w]] eqn:We; [| |lia].
    + rewrite (total_none g g_lin) in E by exact We. apply Z0, in_or_app. left. rewrite <- E. exact I.
    + assert (J : In (total g (Datatypes.S k) es) (leftovers R (effects (Datatypes.S k) n))) by (apply total_one; [lia|exact Hes|exact We]).
      rewrite <- E in J. clear - D I J. induction (tl (spanl (map (g k) units))) as [|x l IHl]; [destruct I|]. cbn [app] in D. inversion D as [|? ? N D']; subst.
      destruct I as [Ex|I]; [apply N, in_or_app; right; rewrite Ex; exact J|exact (IHl D' I)].
Qed.
End Two.

Lemma eff_nonzero k e : (1 <= k <= 89)%nat -> 0 <= e < 32 -> e <> 0 -> eff k e <> 0.
Proof.
  intros K H N E. pose proof orbits_checked as O. rewrite forallb_forall in O. assert (I : In e (map Z.of_nat (seq 1 31))) by (apply in_map_iff; exists (Z.to_nat e); split; [lia|apply in_seq; lia]).
  pose proof (orbit_ok_iter 89 e k (O _ I) K) as G. unfold eff in E. rewrite Z.shiftr_div_pow2 in E by lia. change (2 ^ 5) with 32 in E.
  assert (1 <= iterF k e / 32) by (apply Z.div_le_lower_bound; lia). lia.
Qed.

Lemma total_three n : forall es k, all_separated (effects k n) = true -> (1 <= k)%nat -> (k + n <= 90)%nat -> (length es <= n)%nat -> symbols es -> (weight es <= 3)%nat ->
  total eff k es = 0 -> weight es = 0%nat.
Proof.
  induction n as [|n IH]; intros es k A K1 K2 L S W E; [destruct es; [reflexivity|cbn in L; lia]|]. destruct es as [|e es]; [reflexivity|].
  inversion S as [|? ? He Hes]; subst. cbn [length] in L. rewrite weight_cons in *. cbn [effects all_separated] in A. apply andb_prop in A. destruct A as [A1 A2]. cbn [total] in E.
  destruct (Z.eqb_spec e 0) as [->|N].
  - rewrite (lin_0 _ (eff_lin k)), Z.lxor_0_l in E. apply (IH es (Datatypes.S k)); auto; lia.
  - exfalso. unfold separated in A1. set (B := echelon (map (eff k) units) []) in A1. apply andb_prop in A1. destruct A1 as [A1 A3].
    destruct (distinct_spec _ _ A3) as [D P].
    assert (KE : elim B (eff k e) = 0).
    { assert (I : In (elim B (eff k e)) (spanl (map (fun x => elim B (eff k x)) units))).
      { pose proof (in_span (fun x => elim B (eff k x)) e ltac:(intros a b; rewrite eff_lin; apply elim_lin) He N) as I. destruct (spanl _) as [|z l]; [destruct I|right; exact I]. }
      assert (Q : map (fun x => elim B (eff k x)) units = repeat 0 5).
      { rewrite forallb_forall in A1. cbn [units map repeat]. repeat f_equal; apply Z.eqb_eq, A1; cbn [units map In]; auto 8. }
      rewrite Q in I. change (spanl (repeat 0 5)) with (repeat 0 32) in I. exact (repeat_spec _ _ _ I). }
    pose proof E as E0. apply (f_equal (elim B)) in E. rewrite (elim_lin B), KE, Z.lxor_0_l, (lin_0 _ (elim_lin B)), (total_lin _ _ (elim_lin B)) in E.
    assert (W0 : weight es = 0%nat).
    { apply (total_two (elim B) (elim_lin B) n es (Datatypes.S k)); auto; [lia|lia|]. intros H. destruct (P _ H) as (p & Q & _). discriminate Q. }
    rewrite (total_none eff eff_lin es _ W0), Z.lxor_0_r in E0. apply (eff_nonzero k e); auto. lia.
Qed.

(** ** Any two sequences *)
Fixpoint diff (a b : list Z) : list Z := match a, b with x :: a', y :: b' => Z.lxor x y :: diff a' b' | _, _ => [] end.
Lemma run_diffs a : forall b c d, length a = length b -> Z.lxor (run c a) (run d b) = run (Z.lxor c d) (diff a b).
Proof.
  induction a as [|x a IH]; intros [|y b] c d L; try discriminate L; [reflexivity|]. cbn [diff]. rewrite !run_cons, (IH b) by now injection L. f_equal.
  rewrite !step_F, F_lxor. apply lxor_shuffle.
Qed.
Lemma diff_length a : forall b, length a = length b -> length (diff a b) = length a.
Proof. induction a as [|x a IH]; intros [|y b] L; try discriminate L; [reflexivity|]. cbn [diff length]. rewrite IH by now injection L. reflexivity. Qed.
Lemma diff_weight a : forall b, length a = length b -> weight (diff a b) = distance a b.
Proof.
  induction a as [|x a IH]; intros [|y b] L; try discriminate L; [reflexivity|]. cbn [diff distance]. rewrite weight_cons, IH by now injection L. f_equal.
  destruct (Z.eqb_spec x y) as [->|N]; [now rewrite Z.lxor_nilpotent|]. destruct (Z.eqb_spec (Z.lxor x y) 0) as [E|]; [apply Z.lxor_eq in E; contradiction|reflexivity].
Qed.
Lemma diff_symbols a : forall b, symbols a -> symbols b -> symbols (diff a b).
Proof.
  induction a as [|x a IH]; intros [|y b] Ha Hb; cbn [diff]; try constructor; inversion Ha; inversion Hb; subst; [|apply IH; assumption].
  change 32 with (2 ^ 5) in *. apply lxor_lt; [lia|assumption|assumption].
Qed.
Lemma weight_app a b : weight (a ++ b) = (weight a + weight b)%nat.
Proof. unfold weight. rewrite filter_app, app_length. reflexivity. Qed.
Lemma weight_rev a : weight (rev a) = weight a.
Proof. induction a as [|x a IH]; [reflexivity|]. cbn [rev]. rewrite weight_app, IH. change (x :: a) with ([x] ++ a). rewrite weight_app. lia. Qed.

(** The register after an error pattern is the sum of the effects. *)
Lemma run_total es : forall k, iterF k (run 0 (rev es)) = total (fun k e => iterF k e) k es.
Proof.
  induction es as [|e es IH]; intros k; cbn [rev total]; [exact (lin_0 _ (iterF_lxor k))|].
  rewrite run_app. change (run (run 0 (rev es)) [e]) with (polymod_step (run 0 (rev es)) e). rewrite step_F, iterF_lxor, Z.lxor_comm. f_equal.
  rewrite <- IH. reflexivity.
Qed.
Lemma words es : symbols es -> Forall word_ok es.
Proof. intros S. eapply Forall_impl; [|exact S]. intros v Hv. unfold word_ok. change (2 ^ 30) with 1073741824. cbn in Hv. lia. Qed.

Lemma four_errors es : symbols es -> (length es <= 89)%nat -> (weight es <= 4)%nat -> run 0 (rev es) = 0 -> weight es = 0%nat.
Proof.
  induction es as [|e es IH]; intros S L W E; [reflexivity|]. inversion S as [|? ? He Hes]; subst. cbn [length] in L. rewrite weight_cons in *. cbn [rev] in E. rewrite run_app in E.
  change (run (run 0 (rev es)) [e]) with (polymod_step (run 0 (rev es)) e) in E. rewrite step_F in E. destruct (Z.eqb_spec e 0) as [->|N].
  - rewrite Z.lxor_0_r in E. apply IH; [exact Hes|lia|lia|]. apply F_kernel; [|exact E]. apply run_lt; [unfold word_ok; lia|]. apply Forall_rev, words, Hes.
  - exfalso. apply Z.lxor_eq in E. assert (T : total eff 1 es = 0).
    { pose proof (total_lin (fun x => Z.shiftr x 5) (fun k e => iterF k e) ltac:(intros a b; apply Z.shiftr_lxor) es 1) as Q. cbv beta in Q.
      change (total eff 1 es) with (total (fun k e => Z.shiftr (iterF k e) 5) 1 es). rewrite <- Q, <- (run_total es 1). cbn [iterF]. rewrite E. rewrite Z.shiftr_div_pow2, Z.div_small by (try change (2 ^ 5) with 32; lia). reflexivity. }
    assert (W0 : weight es = 0%nat) by (apply (total_three 88 es 1 effects_separated); auto; lia).
    assert (Z0 : run 0 (rev es) = 0). { pose proof (run_total es 0) as Q. cbn [iterF] in Q. rewrite Q. apply total_none; [|exact W0]. intros k a b. apply iterF_lxor. }
    rewrite Z0, F_0 in E. congruence.
Qed.

Theorem four_detected c a b : symbols a -> symbols b -> length a = length b -> (length a <= 89)%nat -> (1 <= distance a b <= 4)%nat -> run c a <> run c b.
Proof.
  intros Sa Sb L L89 D E. assert (Z : run 0 (diff a b) = 0). { rewrite <- (Z.lxor_nilpotent c) at 1. rewrite <- run_diffs by exact L. rewrite E. apply Z.lxor_nilpotent. }
  rewrite <- (rev_involutive (diff a b)) in Z. apply four_errors in Z.
  - rewrite weight_rev, diff_weight in Z by exact L. lia.
  - apply Forall_rev, diff_symbols; assumption.
  - rewrite rev_length, diff_length by exact L. exact L89.
  - rewrite weight_rev, diff_weight by exact L. lia.
Qed.

(** ** The checksum of a human-readable part and data *)
Lemma distance_app a a' b b' : length a = length b -> distance (a ++ a') (b ++ b') = (distance a b + distance a' b')%nat.
Proof. revert b; induction a as [|x a IH]; intros [|y b] L; try discriminate L; [reflexivity|]. cbn [app distance]. rewrite IH by now injection L. lia. Qed.
Lemma distance_refl a : distance a a = 0%nat.
Proof. induction a as [|x a IH]; [reflexivity|]. cbn [distance]. rewrite Z.eqb_refl. exact IH. Qed.
Lemma hrp_length h : length (bech32HrpExpand h) = (2 * length h + 1)%nat.
Proof. unfold bech32HrpExpand. rewrite !app_length, !map_length. cbn [length]. lia. Qed.
Lemma hrp_symbols h : bytes_ok h -> symbols (bech32HrpExpand h).
Proof.
  intros H. unfold bech32HrpExpand, symbols. repeat (apply Forall_app; split).
  - apply Forall_map. eapply Forall_impl; [|exact H]. intros c Hc. unfold is_byte in Hc. rewrite Z.shiftr_div_pow2 by lia. change (2 ^ 5) with 32. lia.
  - constructor; [lia|constructor].
  - apply Forall_map. eapply Forall_impl; [|exact H]. intros c Hc. change 31 with (Z.ones 5). rewrite Z.land_ones by lia. change (2 ^ 5) with 32. pose proof (Z.mod_pos_bound c 32). lia.
Qed.
Lemma hrp_distance h h' : length h = length h' -> (distance h h' <= distance (bech32HrpExpand h) (bech32HrpExpand h') <= 2 * distance h h')%nat.
Proof.
  intros L. unfold bech32HrpExpand. rewrite !distance_app by (try rewrite !map_length; auto). cbn [distance]. rewrite Z.eqb_refl. revert h' L.
  induction h as [|x h IH]; intros [|y h'] L; try discriminate L; [cbn; lia|]. cbn [map distance]. specialize (IH h' ltac:(now injection L)).
  destruct (Z.eqb_spec x y) as [->|N]; [rewrite !Z.eqb_refl; lia|].
  destruct (Z.eqb_spec (Z.shiftr x 5) (Z.shiftr y 5)) as [A|A], (Z.eqb_spec (Z.land x 31) (Z.land y 31)) as [B|B]; try lia.
  exfalso. apply N. rewrite !Z.shiftr_div_pow2 in A by lia. change 31 with (Z.ones 5) in B. rewrite !Z.land_ones in B by lia.
  rewrite (Z.div_mod x (2 ^ 5)), (Z.div_mod y (2 ^ 5)) by discriminate. congruence.
Qed.

Lemma four_substitutions_detected h h' a b : bytes_ok h -> bytes_ok h' -> five_bit a -> five_bit b -> length h = length h' -> length a = length b ->
  (1 <= distance h h' + distance a b)%nat -> (2 * distance h h' + distance a b <= 4)%nat ->
  ((length a <= 89)%nat /\ h = h' \/ (2 * length h + length a <= 88)%nat) ->
  bech32VerifyChecksum h a = true -> bech32VerifyChecksum h' b = false.
Proof.
  intros Hh Hh' Ha Hb Lh L D1 D4 Len V. destruct (bech32VerifyChecksum h' b) eqn:V'; [exfalso|reflexivity].
  apply verify_run in V, V'. symmetry in V'. apply (eq_trans V) in V'. clear V. rename V' into V. destruct Len as [[Len <-]|Len].
  - rewrite distance_refl in *. rewrite !run_app in V. apply four_detected in V; auto; lia.
  - pose proof (hrp_distance h h' Lh). apply four_detected in V; auto.
    + apply Forall_app; split; [now apply hrp_symbols|exact Ha].
    + apply Forall_app; split; [now apply hrp_symbols|exact Hb].
    + rewrite !app_length, !hrp_length. lia.
    + rewrite app_length, hrp_length. lia.
    + rewrite distance_app by (rewrite !hrp_length; lia). lia.
Qed.

Lemma four_substitutions_rejected s s' h d t h' t' :
  Bech32Decode s = Ok (h, d) -> lowercase s = h ++ [49] ++ t -> ~ In 49 t ->
  lowercase s' = h' ++ [49] ++ t' -> ~ In 49 t' -> len h' = len h -> len t' = len t ->
  (1 <= distance h h' + distance t t')%nat -> (2 * distance h h' + distance t t' <= 4)%nat -> (h = h' \/ 2 * len h + len t <= 88) ->
  exists e, Bech32Decode s' = Err e.
Proof.
  intros E Es Ht Es' Ht' Hlh Hl D1 D4 Len. destruct (Bech32Decode s') as [[h2 d']|e|] eqn:E'; [exfalso|eauto|now elim (decode_no_panic s')].
  apply decode_verify in E, E'. destruct E as (Hbh & v & Ev & Fv & Vv & Lv & Hn), E' as (Hbh' & v' & Ev' & Fv' & Vv' & Lv' & Hn').
  rewrite Es in Ev. apply sep_unique in Ev; [|exact Ht|now apply charset_no_sep]. destruct Ev as [_ ->].
  rewrite Es' in Ev'. apply sep_unique in Ev'; [|exact Ht'|now apply charset_no_sep]. destruct Ev' as [<- ->].
  rewrite distance_map_cchr in * by assumption. rewrite !len_map in *.
  assert (bech32VerifyChecksum h' v' = false); [|congruence].
  assert (len h <> 0) by (intro A; now apply Hn, len_zero). pose proof (len_nonneg h). unfold len in *.
  apply (four_substitutions_detected h h' v v'); auto; [lia|lia|]. destruct Len as [<-|Len]; [left; split; [lia|reflexivity]|right; lia].
Qed.

(** ** Characters inserted before the last one *)
Lemma decodes_iff h t : Forall (fun c => printable c /\ ~ is_upper c) h -> h <> [] -> five_bit t -> (6 <= length t)%nat -> len h + len t <= 89 ->
  (exists d, Bech32Decode (h ++ [49] ++ map cchr t) = Ok (h, d)) <-> run 1 (bech32HrpExpand h ++ t) = 1.
Proof.
  intros Hh Hn Ft L6 Lt. assert (Hbh : bytes_ok h) by (eapply Forall_impl; [|exact Hh]; intros c [P _]; unfold printable in P; unfold is_byte; lia). rewrite <- verify_run. split.
  - intros (d & E). apply decode_verify in E. destruct E as (_ & t' & E & Ft' & V & _). replace t with t'; [exact V|].
    rewrite lower_id in E.
    + apply app_inv_head in E. injection E as E. symmetry. apply map_cchr_inj; assumption.
    + apply Forall_app; split; [eapply Forall_impl; [|exact Hh]; intros ? []; assumption|]. constructor; [unfold is_upper; lia|]. apply Forall_map. eapply Forall_impl; [|exact Ft]. intros v Hv. exact (proj1 (proj2 (proj2 (cchr_facts v Hv)))).
  - intros V. pose proof (firstn_skipn (length t - 6) t) as S. set (d := firstn (length t - 6) t) in *. set (c := skipn (length t - 6) t) in *. rewrite <- S in V, Ft.
    apply Forall_app in Ft. destruct Ft as [Fd Fc]. assert (Lc : len c = 6) by (unfold len, c; rewrite skipn_length; lia). apply verify_iff in V; auto. exists d.
    assert (E : h ++ [49] ++ map cchr t = encoding h d) by (unfold encoding; rewrite <- V, S; reflexivity). rewrite E. apply (encode_then_decode h d); [split; assumption|exact Fd| |now apply encode_ok].
    rewrite <- S, len_app, Lc in Lt. lia.
Qed.
Lemma run_zeros n c : run c (repeat 0 n) = iterF n c.
Proof. revert c; induction n as [|n IH]; intros c; [reflexivity|]. cbn [repeat]. rewrite run_cons, step_F, Z.lxor_0_r, IH. reflexivity. Qed.

Lemma inserted_iff h x c d n : lowercase (x ++ [c]) = x ++ [c] -> Bech32Decode (h ++ [49] ++ x ++ [c]) = Ok (h, d) -> (1 <= n)%nat -> len h + len x + Z.of_nat n + 2 <= 90 ->
  (exists d', Bech32Decode (h ++ [49] ++ x ++ repeat 113 n ++ [c]) = Ok (h, d')) <-> c = 112.
Proof.
  intros Low E Hn L. pose proof E as E0. apply decode_iff in E0. destruct E0 as (P & _ & L8 & Nh & Fd & El). apply decode_verify in E. destruct E as (Hbh & t & Et & Ft & V & Lt & _).
  assert (Hh : Forall (fun c => printable c /\ ~ is_upper c) h).
  { apply Forall_app in P. destruct P as [P _]. unfold lowercase in Et. rewrite map_app in Et. apply (f_equal (firstn (length h))) in Et.
    rewrite !firstn_app, map_length, Nat.sub_diag in Et. cbn [firstn] in Et. rewrite !app_nil_r, firstn_all in Et. replace (length h) with (length (map low h)) in Et at 1 by apply map_length. rewrite firstn_all in Et.
    clear - P Et. induction h as [|y h IH]; [constructor|]. cbn [map] in Et. injection Et as Ey Eh. inversion P; subst. constructor; [|auto].
    split; [assumption|]. unfold is_upper. intros U. unfold low in Ey. replace ((65 <=? y) && (y <=? 90)) with true in Ey by lia. lia. }
  assert (Ls : lowercase (h ++ [49] ++ x ++ [c]) = h ++ [49] ++ x ++ [c]).
  { unfold lowercase in *. rewrite !map_app in *. f_equal; [|f_equal; exact Low]. apply lower_id. eapply Forall_impl; [|exact Hh]. intros ? []; assumption. }
  rewrite Ls in Et. apply app_inv_head in Et. injection Et as Et.
  destruct (exists_last (l := t)) as (u & v & ->); [intros ->; destruct x; discriminate Et|]. rewrite map_app in Et. cbn [map] in Et. apply app_inj_tail in Et. destruct Et as [-> ->].
  apply Forall_app in Ft. destruct Ft as [Fu Fv]. inversion Fv as [|? ? Hv _]; subst.
  replace (map cchr u ++ repeat 113 n ++ [cchr v]) with (map cchr (u ++ repeat 0 n ++ [v])) by (rewrite !map_app; do 2 f_equal; clear; induction n as [|n IH]; [reflexivity|cbn [repeat map]; rewrite IH; reflexivity]).
  assert (Fz : five_bit (repeat 0 n)) by (clear; induction n; constructor; [lia|assumption]).
  assert (L6 : (6 <= length u + 1)%nat).
  { rewrite Ls in El. unfold encoding in El. apply app_inv_head in El. injection El as El. apply (f_equal (@length Z)) in El. rewrite !map_length, !app_length, map_length in El.
    pose proof (checksum_len6 h d) as C6. unfold len in C6. cbn [length] in El. lia. }
  rewrite decodes_iff; auto.
  2:{ apply Forall_app; split; [exact Fu|]. apply Forall_app; split; [exact Fz|exact Fv]. }
  2:{ rewrite !app_length. cbn [length]. lia. }
  2:{ rewrite !len_app. rewrite len_map in L. unfold len in *. rewrite repeat_length. cbn [length]. lia. }
  apply verify_run in V. rewrite !app_assoc in V |- *. rewrite run_app in V. rewrite run_app, run_app, run_zeros.
  set (R := run 1 (bech32HrpExpand h ++ u)) in *. assert (HR : word_ok R) by (apply run_lt; [apply one_word|]; apply Forall_app; split; [now apply hrp_words|now apply five_words]).
  change (run R [v]) with (polymod_step R v) in V. change (run (iterF n R) [v]) with (polymod_step (iterF n R) v). rewrite step_F in *. rewrite iterF_S.
  change (iterF (S n) R) with (iterF n (F R)).
  assert (FR : F R = Z.lxor 1 v) by (rewrite <- V, Z.lxor_assoc, Z.lxor_nilpotent, Z.lxor_0_r; reflexivity).
  assert (c1 : cchr 1 = 112) by reflexivity. split.
  - intros Q. destruct (Z.eq_dec v 1) as [->|Nv]; [reflexivity|exfalso]. assert (W : 0 <= Z.lxor 1 v < 2 ^ 5) by (apply lxor_lt; [lia|lia|change (2 ^ 5) with 32; exact Hv]). change (2 ^ 5) with 32 in W.
    assert (NZ : Z.lxor 1 v <> 0) by (intros Z0; apply Z.lxor_eq in Z0; congruence). rewrite FR in *.
    pose proof orbits_checked as O. rewrite forallb_forall in O. assert (I : In (Z.lxor 1 v) (map Z.of_nat (seq 1 31))) by (apply in_map_iff; exists (Z.to_nat (Z.lxor 1 v)); split; [lia|apply in_seq; lia]).
    assert (N89 : (n <= 89)%nat) by (pose proof (len_nonneg h); pose proof (len_nonneg (map cchr u)); lia).
    pose proof (orbit_ok_iter 89 _ n (O _ I) ltac:(lia)) as G. rewrite <- V in Q. apply (f_equal (fun z => Z.lxor z v)) in Q. rewrite !Z.lxor_assoc, !Z.lxor_nilpotent, !Z.lxor_0_r in Q. lia.
  - intros Q. rewrite <- c1 in Q. assert (v = 1) as -> by (rewrite <- (proj1 (cchr_facts v Hv)), Q; reflexivity). rewrite FR. change (Z.lxor 1 1) with 0. rewrite (lin_0 _ (iterF_lxor n)). reflexivity.
Qed.
