(** Lemmas on the decoding of blocks. *)
From Coq Require Import Reals Lra.
From Flocq Require Import Core BinarySingleNaN Relative.
From Coq Require Import SpecFloat ZifyBool Lia.
From Verif Require Import GoBase BaseLemmas AsmModel AsmSpec AsmProofs BuilderModel FeeProofs RpcModel RpcSpec RpcProofs BlockModel BlockSpec.
Local Open Scope Z_scope.

(** ** The structure of the decoder. *)
Section D.
Variable slow : bytes -> option spec_float.
Notation dec := (decode slow).
Fixpoint elems (e : ty) (l : list json) : res (list gval) :=
  match l with [] => Ok [] | x :: r => let! v := dec x e (zero_of e) in let! vs := elems e r in Ok (v :: vs) end.
Fixpoint run (fs : list (bytes * ty)) (gs : list (bytes * json)) (vs : list gval) : res (list gval) :=
  match gs with [] => Ok vs | (k, x) :: r => let! vs' := put fs vs k (dec x) in run fs r vs' end.
Lemma dec_arr l e old : dec (JArr l) (TSlice e) old = let! vs := elems e l in Ok (GSlice vs).
Proof.
  cbn [decode]. assert (E : forall l, (fix elems (l : list json) : res (list gval) := match l with [] => Ok [] | x :: r => let! v := dec x e (zero_of e) in let! vs := elems r in Ok (v :: vs) end) l = elems e l).
  { clear. induction l as [|x l IH]; [reflexivity|]. cbn [elems]. destruct (dec x e (zero_of e)); cbn [rbind]; [|reflexivity|reflexivity]. now rewrite IH. }
  now rewrite E.
Qed.
Lemma dec_obj gs fs vs : dec (JObj gs) (TStruct fs) (GStruct vs) = let! vs' := run fs gs vs in Ok (GStruct vs').
Proof.
  cbn [decode]. assert (E : forall gs vs, (fix fields (gs : list (bytes * json)) (vs : list gval) {struct gs} : res (list gval) := match gs with [] => Ok vs | (k, x) :: r => let! vs' := put fs vs k (dec x) in fields r vs' end) gs vs = run fs gs vs).
  { clear. induction gs as [|[k x] gs IH]; intros vs; [reflexivity|]. cbn [run]. destruct (put fs vs k (dec x)); cbn [rbind]; [apply IH|reflexivity|reflexivity]. }
  now rewrite E.
Qed.
Lemma zero_struct fs : zero_of (TStruct fs) = GStruct (map (fun f => zero_of (snd f)) fs).
Proof. reflexivity. Qed.

(** One field on its own. *)
Fixpoint run1 (t : ty) (gs : list (bytes * json)) (v : gval) : res gval :=
  match gs with [] => Ok v | (_, x) :: r => let! v' := dec x t v in run1 t r v' end.
Definition of_name (n : bytes) (gs : list (bytes * json)) := filter (fun f => key_eq (fst f) n) gs.
Definition but_name (n : bytes) (gs : list (bytes * json)) := filter (fun f => negb (key_eq (fst f) n)) gs.
Lemma run_split n t fs : forall gs v vs w, run ((n, t) :: fs) gs (v :: vs) = Ok w <->
  exists v' vs', w = v' :: vs' /\ run1 t (of_name n gs) v = Ok v' /\ run fs (but_name n gs) vs = Ok vs'.
Proof.
  induction gs as [|[k x] gs IH]; intros v vs w.
  - cbn. split; [intros E; exists v, vs; split; [congruence|auto]|]. intros (v' & vs' & -> & E1 & E2). congruence.
  - cbn [run put of_name but_name filter fst]. destruct (key_eq k n) eqn:K; cbn [negb run1].
    + destruct (dec x t v) as [v1| |]; cbn [rbind]; [apply IH| |]; split; try discriminate; intros (v' & vs' & _ & E & _); discriminate.
    + cbn [run]. destruct (put fs vs k (dec x)) as [vs1| |]; cbn [rbind]; [apply IH| |]; split; try discriminate; intros (v' & vs' & _ & _ & E); discriminate.
Qed.
Lemma of_none n gs : none_of n gs -> of_name n gs = [].
Proof.
  intros H. unfold of_name. induction gs as [|[k x] gs IH]; [reflexivity|]. cbn [filter fst]. destruct (key_eq k n) eqn:K.
  - apply key_eq_iff in K. elim (H k x (or_introl eq_refl) K).
  - apply IH. intros k' x' I. apply (H k' x'). now right.
Qed.
Lemma of_once n gs j : once n gs j -> exists k, of_name n gs = [(k, j)].
Proof.
  intros (a & k & b & -> & S & Na & Nb). exists k. unfold of_name. rewrite filter_app. cbn [filter fst]. fold (of_name n a) (of_name n b). rewrite (of_none n a Na), (of_none n b Nb).
  apply key_eq_iff in S. now rewrite S.
Qed.
Lemma but_none n m gs : none_of m gs -> none_of m (but_name n gs).
Proof. intros H k x I. apply filter_In in I. apply (H k x), I. Qed.
Lemma but_once n m gs j : map lower n <> map lower m -> once m gs j -> once m (but_name n gs) j.
Proof.
  intros N (a & k & b & -> & S & Na & Nb). exists (but_name n a), k, (but_name n b). split; [|split; [exact S|split; now apply but_none]].
  unfold but_name. rewrite filter_app. cbn [filter fst]. apply key_eq_iff in S. rewrite (key_eq_other k m n); [reflexivity|congruence|exact S].
Qed.
Definition gives (gs : list (bytes * json)) (f : bytes * ty) (v : gval) : Prop :=
  (none_of (fst f) gs /\ v = zero_of (snd f)) \/ (exists j, once (fst f) gs j /\ dec j (snd f) (zero_of (snd f)) = Ok v).
Definition apart (fs : list (bytes * ty)) : Prop := NoDup (map (fun f => map lower (fst f)) fs).
Lemma run_ok fs : apart fs -> forall gs vs, Forall2 (gives gs) fs vs -> run fs gs (map (fun f => zero_of (snd f)) fs) = Ok vs.
Proof.
  intros A. induction fs as [|[n t] fs IH]; intros gs vs F; inversion F as [|? v ? vs' G F']; subst.
  - cbn [map]. clear. induction gs as [|[k x] gs IH]; [reflexivity|]. cbn [run put rbind]. exact IH.
  - cbn [map]. apply run_split. exists v, vs'. split; [reflexivity|]. inversion A as [|? ? NI A']; subst. split.
    + destruct G as [[N ->]|(j & O & D)]; cbn [fst snd] in *; [now rewrite of_none|]. destruct (of_once _ _ _ O) as (k & ->). cbn [run1]. rewrite D. reflexivity.
    + apply IH; [exact A'|]. assert (X : forall f, In f fs -> map lower n <> map lower (fst f)). { intros f I E. apply NI. cbn [fst]. rewrite E. apply in_map_iff. exists f. auto. }
      clear - F' X. induction F' as [|f v fs vs G F IH]; constructor.
      * destruct G as [[N ->]|(j & O & D)]; [left; split; [now apply but_none|reflexivity]|right]. exists j. split; [|exact D]. apply but_once; [|exact O]. apply X. now left.
      * apply IH. intros f' I. apply X. now right.
Qed.
Lemma dec_struct fs gs vs : apart fs -> Forall2 (gives gs) fs vs -> dec (JObj gs) (TStruct fs) (zero_of (TStruct fs)) = Ok (GStruct vs).
Proof. intros A F. rewrite zero_struct, dec_obj, (run_ok fs A gs vs F). reflexivity. Qed.
Lemma dec_list {A} (P : A -> json -> Prop) (Q : A -> gval -> Prop) e : forall l js, Forall2 P l js -> (forall x j, In x l -> P x j -> exists v, dec j e (zero_of e) = Ok v /\ Q x v) ->
  exists vs, elems e js = Ok vs /\ Forall2 Q l vs.
Proof.
  intros l js F. induction F as [|x j l js Hx F IH]; intros H; [exists []; split; [reflexivity|constructor]|].
  destruct (H x j (or_introl eq_refl) Hx) as (v & D & Hv). destruct IH as (vs & E & G); [intros x' j' I; apply H; now right|].
  exists (v :: vs). cbn [elems]. rewrite D. cbn [rbind]. rewrite E. split; [reflexivity|now constructor].
Qed.

(** ** No panic. *)
Lemma json_ind' (P : json -> Prop) : P JNull -> (forall b, P (JBool b)) -> (forall l, P (JNum l)) -> (forall s, P (JStr s)) -> (forall l, Forall P l -> P (JArr l)) ->
  (forall fs, Forall (fun f => P (snd f)) fs -> P (JObj fs)) -> forall j, P j.
Proof.
  intros H1 H2 H3 H4 H5 H6. fix IH 1. intros [|b|lit|s|l|fs]; [exact H1|apply H2|apply H3|apply H4| |].
  - apply H5. induction l as [|x l IHl]; constructor; [apply IH|exact IHl].
  - apply H6. induction fs as [|[k x] fs IHl]; constructor; [apply IH|exact IHl].
Qed.
Lemma put_panic fs k (f : ty -> gval -> res gval) : (forall t v, f t v <> Panic) -> forall vs, put fs vs k f <> Panic.
Proof.
  intros H. induction fs as [|[n t] fs IH]; intros [|v vs]; cbn [put]; try discriminate. destruct (key_eq k n).
  - pose proof (H t v). destruct (f t v); cbn [rbind]; congruence.
  - pose proof (IH vs). destruct (put fs vs k f); cbn [rbind]; congruence.
Qed.
Lemma dec_panic j : forall t v, dec j t v <> Panic.
Proof.
  induction j as [|b|lit|s|l IH|fs IH] using json_ind'; intros t v; cbn [decode]; try (destruct t; discriminate).
  - destruct t; cbn [store_number]; try discriminate.
    + destruct (ParseInt64 lit) as [z|]; [destruct (_ && _)|]; discriminate.
    + destruct (ParseUint64 lit) as [z|]; [destruct (z <? _)|]; discriminate.
    + destruct (ParseFloat slow lit); discriminate.
  - destruct t as [|b|b| |e|fs]; try discriminate. change (dec (JArr l) (TSlice e) v <> Panic). rewrite dec_arr.
    assert (X : elems e l <> Panic). { induction IH as [|x l Hx _ IHl]; cbn [elems]; [discriminate|]. pose proof (Hx e (zero_of e)). destruct (dec x e (zero_of e)); cbn [rbind]; try congruence. destruct (elems e l); cbn [rbind]; congruence. }
    destruct (elems e l); cbn [rbind]; congruence.
  - destruct t as [|b|b| |e|gs]; try discriminate. destruct v as [s|n|f|l|vs]; try discriminate. change (dec (JObj fs) (TStruct gs) (GStruct vs) <> Panic). rewrite dec_obj.
    assert (X : forall vs, run gs fs vs <> Panic). { induction IH as [|[k x] fs Hx _ IHl]; intros vs'; cbn [run]; [discriminate|]. pose proof (put_panic gs k (dec x) Hx vs'). destruct (put gs vs' k (dec x)); cbn [rbind]; [apply IHl|discriminate|congruence]. }
    specialize (X vs). destruct (run gs fs vs); cbn [rbind]; congruence.
Qed.

(** ** Literals. *)
Lemma int_value z j b : is_int z j -> 0 < b <= 64 -> - 2 ^ (b - 1) <= z < 2 ^ (b - 1) -> forall o, dec j (TInt b) o = Ok (GInt z).
Proof.
  intros (lit & -> & L) Hb Hz o. cbn [decode store_number]. assert (I : in_int64 z). { unfold in_int64. assert (2 ^ (b - 1) <= 2 ^ 63) by (apply Z.pow_le_mono_r; lia). lia. }
  assert (N : number lit z). { destruct L as [[_ D]|(_ & ds & -> & D)]; [now constructor|]. replace z with (- - z) by lia. now constructor. }
  rewrite (proj2 (ParseInt_iff lit z) (conj N I)). replace ((- 2 ^ (b - 1) <=? z) && (z <? 2 ^ (b - 1))) with true by lia. reflexivity.
Qed.
Lemma uint_value z j b : is_int z j -> 0 < b <= 64 -> 0 <= z < 2 ^ b -> forall o, dec j (TUint b) o = Ok (GInt z).
Proof.
  intros (lit & -> & L) Hb Hz o. cbn [decode store_number]. assert (I : z < 2 ^ 64). { assert (2 ^ b <= 2 ^ 64) by (apply Z.pow_le_mono_r; lia). lia. }
  destruct L as [[_ D]|(N & _)]; [|lia]. rewrite (proj2 (ParseUint_iff lit z) (conj D I)). replace (z <? 2 ^ b) with true by lia. reflexivity.
Qed.
Lemma uint_negative z j b : is_int z j -> z < 0 -> forall o v, dec j (TUint b) o <> Ok v.
Proof.
  intros (lit & -> & L) Hz o v. cbn [decode store_number]. destruct L as [[N _]|(_ & ds & -> & D)]; [lia|].
  destruct (ParseUint64 (45 :: ds)) as [u|] eqn:P; [|discriminate]. apply ParseUint_iff in P. destruct P as [P _]. apply digits_value in P. destruct P as (_ & F & _). discriminate F.
Qed.
Lemma text_value s j : is_text s j -> forall o, dec j TStr o = Ok (GStr s).
Proof. intros -> o. reflexivity. Qed.

(** ** Amounts. *)
Lemma read_digits w : forallb digit w = true -> forall m k r, readFloat (w ++ r) m k =
  readFloat r (fold_left (fun acc c => acc * 10 + (c - 48)) w m) (match k with Some k => Some (k + len w) | None => None end).
Proof.
  induction w as [|c w IH]; intros F m k r.
  - cbn [app fold_left]. f_equal. destruct k; [|reflexivity]. f_equal. unfold len. cbn [length]. lia.
  - cbn [forallb] in F. apply andb_true_iff in F. destruct F as [C F]. cbn [app readFloat fold_left]. rewrite C, IH by exact F. f_equal. destruct k; [|reflexivity]. f_equal. rewrite len_cons. lia.
Qed.
Lemma fold_shift w : forall m, fold_left (fun acc c => acc * 10 + (c - 48)) w m = m * 10 ^ len w + fold_left (fun acc c => acc * 10 + (c - 48)) w 0.
Proof.
  induction w as [|c w IH]; intros m.
  - unfold len. cbn. lia.
  - cbn [fold_left]. rewrite IH, (IH (0 * 10 + (c - 48))). rewrite len_cons. replace (1 + len w) with (Z.succ (len w)) by lia. rewrite Z.pow_succ_r by apply len_nonneg. nia.
Qed.
Lemma read_amount n lit : amount_text n lit -> readFloat lit 0 None = Some (n, 8).
Proof.
  intros (w & f & a & b & -> & Dw & Df & L & ->). apply digits_value in Dw. destruct Dw as (_ & Fw & ->). apply digits_value in Df. destruct Df as (_ & Ff & ->).
  rewrite read_digits by exact Fw. cbn [readFloat digit]. replace (digit 46) with false by reflexivity. rewrite Z.eqb_refl.
  rewrite <- (app_nil_r f) at 1. rewrite read_digits by exact Ff. assert (L8 : len f = 8) by (unfold len; lia). cbn [readFloat]. rewrite (fold_shift f), L8. reflexivity.
Qed.
Lemma quotient_near n : 0 <= n <= max_money -> near (fdiv (float_of n) (float_of (10 ^ 8))) n.
Proof.
  intros H. rewrite !float_equiv. destruct (float_exact n ltac:(unfold max_money in H; lia)) as (Vn & Fn & Sn). destruct (float_exact (10 ^ 8) ltac:(lia)) as (Vk & Fk & Sk). cbv zeta in *.
  set (fn := BinarySingleNaN.binary_normalize 53 1024 hp hm mode_NE n 0 false) in *. set (fk := BinarySingleNaN.binary_normalize 53 1024 hp hm mode_NE (10 ^ 8) 0 false) in *. clearbody fn fk.
  rewrite div_equiv. pose proof (Bdiv_correct 53 1024 hp hm mode_NE fn fk) as D. rewrite Vn, Vk in D. specialize (D ltac:(apply not_0_IZR; lia)). cbn [round_mode] in D. rewrite fexp_eq in D.
  change (IZR (10 ^ 8)) with 100000000%R in *.
  assert (Hn : (0 <= IZR n <= 2100000000000000)%R) by (split; apply IZR_le; unfold max_money in H; lia).
  set (q := (IZR n / 100000000)%R) in *. assert (Q : (q * 100000000 = IZR n)%R) by (unfold q; field).
  assert (E : (Rabs (rnd q - q) <= / 9007199254740992 * q)%R).
  { destruct (Z.eq_dec n 0) as [Z0|N0].
    - assert (q = 0)%R as -> by (unfold q; rewrite Z0; unfold Rdiv; lra). rewrite round_0 by (auto with typeclass_instances). rewrite Rminus_0_r, Rabs_R0. lra.
    - assert (1 <= IZR n)%R by (apply IZR_le; lia).
      pose proof (relative_error_N_FLT radix2 (-1074) 53 eq_refl (fun n => negb (Z.even n)) q) as R. rewrite (Rabs_pos_eq q) in R by lra.
      replace (/ 9007199254740992)%R with (/ 2 * bpow radix2 (- 53 + 1))%R by (change (bpow radix2 (- 53 + 1)) with (/ IZR 4503599627370496)%R; lra).
      apply R. apply Rle_trans with (bpow radix2 (-27)); [apply bpow_le; lia|]. change (bpow radix2 (-27)) with (/ IZR 134217728)%R. lra. }
  assert (Hq : (0 <= q <= 21000000)%R) by lra.
  apply Rabs_le_inv in E. rewrite Rlt_bool_true in D.
  2: { apply Rlt_trans with (IZR (2 ^ 62)); [|change (2 ^ 62)%Z with (Zpower radix2 62); rewrite IZR_Zpower by lia; apply bpow_lt; lia]. change (IZR (2 ^ 62)) with 4611686018427387904%R. apply Rabs_lt. lra. }
  destruct D as (Dv & Df & _). rewrite Fn in Df. set (d := Bdiv mode_NE fn fk) in *. clearbody d.
  unfold near. assert (V : (match B2SF d with S754_zero _ => 0 | S754_finite s m e => F2R (Float radix2 (if s then Z.neg m else Z.pos m) e) | _ => -1 end = rnd q)%R).
  { rewrite <- Dv. destruct d as [s|s| |s m e B]; try discriminate Df; cbn [B2SF B2R]; [reflexivity|]. destruct s; reflexivity. }
  rewrite V. apply Rabs_lt. lra.
Qed.
Lemma amount_value n j : is_amount n j -> 0 <= n <= max_money -> forall o, exists f, dec j TFloat o = Ok (GFloat f) /\ near f n.
Proof.
  intros (lit & -> & A) H o. exists (fdiv (float_of n) (float_of (10 ^ 8))). split; [|now apply quotient_near]. cbn [decode store_number]. unfold ParseFloat. rewrite (read_amount n lit A).
  replace ((n <? 2 ^ 52) && (8 <=? 22)) with true by (unfold max_money in H; lia). reflexivity.
Qed.
Lemma near_one f a b : near f a -> near f b -> a = b.
Proof.
  unfold near. set (x := (match f with S754_zero _ => _ | _ => _ end * _)%R). clearbody x. intros A B. apply Rabs_lt_inv in A, B.
  assert (X : (-1 < IZR a - IZR b < 1)%R) by lra. rewrite <- minus_IZR in X. destruct X as [X Y]. apply lt_IZR in Y. apply (lt_IZR (-1)) in X. lia.
Qed.

(** ** The objects of a block. *)
Ltac names := unfold apart; cbn [map fst]; repeat (constructor; [cbn [In]; intros X; repeat (destruct X as [X|X]; [discriminate X|]); exact X|]); constructor.
Lemma has_text fs n s t : has fs n (is_text s) -> t = TStr -> gives fs (str_bytes n, t) (GStr s).
Proof. intros (j & O & T) ->. right. exists j. split; [exact O|]. now apply text_value. Qed.
Lemma has_int fs n z t b : has fs n (is_int z) -> t = TInt b -> 0 < b <= 64 -> - 2 ^ (b - 1) <= z < 2 ^ (b - 1) -> gives fs (str_bytes n, t) (GInt z).
Proof. intros (j & O & T) -> B R. right. exists j. split; [exact O|]. now apply int_value. Qed.
Lemma has_uint fs n z t b : has fs n (is_int z) -> t = TUint b -> 0 < b <= 64 -> 0 <= z < 2 ^ b -> gives fs (str_bytes n, t) (GInt z).
Proof. intros (j & O & T) -> B R. right. exists j. split; [exact O|]. now apply uint_value. Qed.
Lemma has_list {A} (P : A -> json -> Prop) (Q : A -> gval -> Prop) fs n e l : has fs n (is_list P l) -> (forall x j, In x l -> P x j -> exists v, dec j e (zero_of e) = Ok v /\ Q x v) ->
  exists vs, gives fs (str_bytes n, TSlice e) (GSlice vs) /\ Forall2 Q l vs.
Proof.
  intros (j & O & js & -> & F) H. destruct (dec_list P Q e l js F H) as (vs & E & G). exists vs. split; [|exact G]. right. exists (JArr js). split; [exact O|]. cbn [snd]. rewrite dec_arr, E. reflexivity.
Qed.
Lemma lacks fs n t v : none_of (str_bytes n) fs -> v = zero_of t -> gives fs (str_bytes n, t) v.
Proof. intros N ->. left. auto. Qed.

Lemma script_value s j : script_says s j -> script_ok s -> exists v, dec j ScriptPubKey (zero_of ScriptPubKey) = Ok v /\ shows_script s v.
Proof.
  intros (fs & -> & H1 & H2 & H3 & H4 & H5) (K1 & K2). eexists. split; [|reflexivity]. apply dec_struct; [names|].
  constructor; [now apply has_text|]. constructor; [now apply has_text|].
  constructor. { destruct (s_sigs s) as [z|]; cbn [or_empty]; [|now apply lacks]. specialize (K1 z eq_refl). apply has_int with (b := 64); auto; lia. }
  constructor; [now apply has_text|]. constructor; [|constructor].
  destruct (s_addresses s) as [l|]; cbn [or_empty]; [|now apply lacks].
  destruct (has_list _ (fun x v => v = GStr x) fs "addresses" TStr l H5) as (vs & G & F); [intros x j _ T; exists (GStr x); split; [now apply text_value|reflexivity]|].
  replace (map GStr l) with vs; [exact G|]. clear - F. induction F; [reflexivity|]. cbn [map]. now subst; f_equal.
Qed.
Lemma in_value i j : in_says i j -> in_ok i -> exists v, dec j Vin (zero_of Vin) = Ok v /\ shows_in i v.
Proof.
  intros (fs & -> & H) K. destruct i as [c q|t vo a h q]; cbn [in_ok shows_in] in *; (eexists; split; [|reflexivity]); (apply dec_struct; [names|]).
  - destruct H as (H1 & H2 & H3). destruct K as (_ & Q). unfold uint32 in Q. constructor; [now apply has_text|]. constructor; [apply lacks; [apply H3; cbn; tauto|reflexivity]|].
    constructor; [apply lacks; [apply H3; cbn; tauto|reflexivity]|]. constructor; [apply lacks; [apply H3; cbn; tauto|reflexivity]|]. constructor; [|constructor]. apply has_uint with (b := 32); auto; lia.
  - destruct H as (H1 & H2 & H3 & (s & O & gs & -> & H4 & H5) & H6). destruct K as (_ & V & Q). unfold uint32 in *. constructor; [now apply lacks|]. constructor; [now apply has_text|].
    constructor; [apply has_int with (b := 64); auto; lia|]. constructor. { right. exists (JObj gs). split; [exact O|]. cbn [snd]. apply dec_struct; [names|]. constructor; [now apply has_text|]. constructor; [now apply has_text|]. constructor. }
    constructor; [|constructor]. apply has_uint with (b := 32); auto; lia.
Qed.
Lemma out_value o j : out_says o j -> out_ok o -> exists v, dec j Vout (zero_of Vout) = Ok v /\ shows_out o v.
Proof.
  intros (fs & -> & (jv & Ov & Av) & H2 & (js & Os & Ss)) (K1 & K2 & K3). destruct (amount_value _ _ Av K1 (zero_of TFloat)) as (f & D & N). destruct (script_value _ _ Ss K3) as (s & Ds & Sh).
  exists (GStruct [GFloat f; GInt (o_n o); s]). split; [|exists f, s; auto]. apply dec_struct; [names|]. constructor; [right; exists jv; auto|]. unfold uint32 in K2. constructor; [apply has_int with (b := 64); auto; lia|].
  constructor; [|constructor]. right. exists js. auto.
Qed.
Lemma tx_value t j : tx_says t j -> tx_ok t -> exists v, dec j TransactionResult (zero_of TransactionResult) = Ok v /\ shows_tx t v.
Proof.
  intros (fs & -> & H1 & H2 & H3 & H4 & H5 & H6 & H7 & H8 & H9) (K1 & K2 & K3 & K4 & K5 & K6 & K7). unfold int32, uint32 in *.
  destruct (has_list in_says shows_in fs "vin" Vin _ H8) as (vi & Gi & Fi); [intros x j I S; apply in_value; [exact S|now apply (proj1 (Forall_forall _ _) K6)]|].
  destruct (has_list out_says shows_out fs "vout" Vout _ H9) as (vo & Go & Fo); [intros x j I S; apply out_value; [exact S|now apply (proj1 (Forall_forall _ _) K7)]|].
  eexists. split; [|exists vi, vo; split; [reflexivity|auto]]. apply dec_struct; [names|].
  constructor; [now apply has_text|]. constructor; [now apply has_text|]. constructor; [apply has_int with (b := 32); auto; lia|]. do 4 (constructor; [apply has_uint with (b := 32); auto; lia|]).
  constructor; [exact Gi|]. constructor; [exact Go|constructor].
Qed.
Lemma block_value b fs : block_says (ParseFloat slow) b fs -> block_ok b -> 0 <= b_confirmations b -> exists v, dec (JObj fs) BlockResult (zero_of BlockResult) = Ok v /\ shows_block b v.
Proof.
  intros (H1 & H2 & H3 & H4 & H5 & H6 & H7 & H8 & H9 & H10 & H11 & H12 & H13 & H14 & (jd & Od & ld & -> & Dd) & H16 & H17 & H18) (K1 & K2 & K3 & K4 & K5 & K6 & K7 & K8 & K9 & K10 & _ & _) C. unfold int32, uint32 in *.
  destruct (has_list tx_says shows_tx fs "tx" TransactionResult _ H10) as (vt & Gt & Ft); [intros x j I S; apply tx_value; [exact S|now apply (proj1 (Forall_forall _ _) K7)]|].
  eexists. split; [|exists vt; split; [reflexivity|exact Ft]]. apply dec_struct; [names|].
  constructor; [now apply has_text|]. constructor; [apply has_uint with (b := 64); auto; lia|]. do 3 (constructor; [apply has_int with (b := 32); auto; lia|]). constructor; [apply has_int with (b := 64); auto; lia|].
  constructor; [apply has_int with (b := 32); auto; lia|]. do 2 (constructor; [now apply has_text|]). constructor; [exact Gt|]. constructor; [apply has_uint with (b := 32); auto; lia|].
  constructor; [apply has_int with (b := 64); auto; lia|]. constructor; [apply has_uint with (b := 32); auto; lia|]. constructor; [now apply has_text|].
  constructor. { right. exists (JNum ld). split; [exact Od|]. cbn [snd decode store_number]. now rewrite Dd. }
  constructor; [now apply has_text|]. constructor; [|constructor; [|constructor]]; [destruct (b_prev b)|destruct (b_next b)]; cbn [or_empty may_have] in *; try (now apply has_text); now apply lacks.
Qed.
Lemma block_negative b fs : block_says (ParseFloat slow) b fs -> b_confirmations b < 0 -> forall v, dec (JObj fs) BlockResult (zero_of BlockResult) <> Ok v.
Proof.
  intros (_ & (j & O & I) & _) C v. unfold BlockResult. rewrite zero_struct, dec_obj. cbn [map snd]. intros E.
  destruct (run _ fs _) as [w| |] eqn:R; try discriminate E. apply run_split in R. destruct R as (v1 & vs & -> & _ & R). apply run_split in R. destruct R as (v2 & vs' & -> & R & _).
  assert (O' : once (str_bytes "confirmations") (but_name (str_bytes "hash") fs) j) by (apply but_once; [discriminate|exact O]). destruct (of_once _ _ _ O') as (k & Q). rewrite Q in R. cbn [run1] in R.
  destruct (dec j (TUint 64) (zero_of (TUint 64))) as [u| |] eqn:D; cbn [rbind] in R; try discriminate R. exact (uint_negative _ _ _ I C _ _ D).
Qed.
End D.

(** ** What is shown determines the block. *)
Lemma shown_script a b v : script_ok a -> script_ok b -> shows_script a v -> shows_script b v -> a = b.
Proof.
  unfold shows_script. intros (A1 & A2) (B1 & B2) -> E. destruct a as [a1 a2 a3 a4 a5], b as [b1 b2 b3 b4 b5]; cbn [s_asm s_hex s_sigs s_type s_addresses] in *. injection E as E1 E2 E3 E4 E5.
  assert (M : or_empty [] a5 = or_empty [] b5). { revert E5. generalize (or_empty [] a5) (or_empty [] b5). clear. induction l as [|x l IH]; intros [|y l'] E; try discriminate; [reflexivity|]. cbn [map] in E. injection E as -> E. f_equal. now apply IH. }
  assert (a3 = b3) as ->. { destruct a3 as [x|], b3 as [y|]; cbn [or_empty] in E3; try (specialize (A1 x eq_refl)); try (specialize (B1 y eq_refl)); try lia; try reflexivity. now f_equal. }
  assert (a5 = b5) as ->. { destruct a5 as [x|], b5 as [y|]; cbn [or_empty] in M; try reflexivity; [now f_equal| |]; [elim (A2 x eq_refl M)|symmetry in M; elim (B2 y eq_refl M)]. }
  congruence.
Qed.
Lemma shown_in a b v : in_ok a -> in_ok b -> shows_in a v -> shows_in b v -> a = b.
Proof. destruct a, b; cbn [in_ok shows_in]; intros A B -> E; injection E; intros; subst; try reflexivity; exfalso; destruct A, B; congruence. Qed.
Lemma shown_list {A} (P : A -> Prop) (Q : A -> gval -> Prop) : (forall a b v, P a -> P b -> Q a v -> Q b v -> a = b) -> forall l l' vs, Forall P l -> Forall P l' -> Forall2 Q l vs -> Forall2 Q l' vs -> l = l'.
Proof.
  intros H. induction l as [|a l IH]; intros l' vs Pl Pl' Fl Fl'; inversion Fl; subst; inversion Fl'; subst; [reflexivity|]. inversion Pl; subst. inversion Pl'; subst. f_equal; [now apply (H a x y)|now apply (IH _ l'0)].
Qed.
Lemma shown_out a b v : out_ok a -> out_ok b -> shows_out a v -> shows_out b v -> a = b.
Proof.
  intros (_ & _ & A) (_ & _ & B) (f & s & -> & N & S) (f' & s' & E & N' & S'). injection E as <- E <-. destruct a as [a1 a2 a3], b as [b1 b2 b3]; cbn [o_value o_n o_script] in *. pose proof (near_one _ _ _ N N'). pose proof (shown_script _ _ _ A B S S'). congruence.
Qed.
Lemma shown_tx a b v : tx_ok a -> tx_ok b -> shows_tx a v -> shows_tx b v -> a = b.
Proof.
  intros (_ & _ & _ & _ & _ & A1 & A2) (_ & _ & _ & _ & _ & B1 & B2) (i & o & -> & I & O) (i' & o' & E & I' & O'). destruct a as [a1 a2 a3 a4 a5 a6 a7 a8 a9], b as [b1 b2 b3 b4 b5 b6 b7 b8 b9]; cbn [t_hex t_id t_version t_size t_vsize t_weight t_locktime t_in t_out] in *.
  injection E as -> -> -> -> -> -> -> -> ->. pose proof (shown_list _ _ shown_in _ _ _ A1 B1 I I'). pose proof (shown_list _ _ shown_out _ _ _ A2 B2 O O'). congruence.
Qed.
Lemma shown_block a b v : block_ok a -> block_ok b -> shows_block a v -> shows_block b v -> a = b.
Proof.
  intros (_ & _ & _ & _ & _ & _ & A & _ & _ & _ & A1 & A2) (_ & _ & _ & _ & _ & _ & B & _ & _ & _ & B1 & B2) (t & -> & T) (t' & E & T').
  destruct a as [a1 a2 a3 a4 a5 a6 a7 a8 a9 a10 a11 a12 a13 a14 a15 a16 a17 a18], b as [b1 b2 b3 b4 b5 b6 b7 b8 b9 b10 b11 b12 b13 b14 b15 b16 b17 b18].
  cbn [b_hash b_confirmations b_stripped b_size b_weight b_height b_version b_vhex b_root b_tx b_ntx b_time b_nonce b_bits b_difficulty b_work b_prev b_next] in *.
  injection E as -> -> -> -> -> -> -> -> -> -> -> -> -> -> -> -> E1 E2.
  assert (O : forall x y : option bytes, x <> Some [] -> y <> Some [] -> or_empty [] x = or_empty [] y -> x = y) by (intros [x|] [y|] X Y Q; cbn [or_empty] in Q; congruence).
  rewrite (O _ _ A1 B1 E1), (O _ _ A2 B2 E2), (shown_list _ _ shown_tx _ _ _ A B T T'). reflexivity.
Qed.
