(** Signing several inputs, in any order and more than once. *)
From Verif Require Import GoBase BaseLemmas BufferModel Codec ScriptModel ScriptSpec ScriptProofs LockModel LockSpec LockProofs VmModel VmSpec VmProofs TxModel TxSpec TxProofs TxSig TxSignSpec TxSign TxSign2.
From Coq Require Import ZifyBool ZifyNat ZifyN.
Local Open Scope Z_scope.

Section Again.
Variable sha256 DS : bytes -> bytes.
Variable prvkey : Type.
Variable PubKeyBytes : prvkey -> bool -> bytes.
Variable EcdsaSign : prvkey -> bytes -> res bytes.
Notation SignIndex := (SignIndex sha256 DS prvkey PubKeyBytes EcdsaSign).
Notation sign_loop := (sign_loop DS prvkey PubKeyBytes EcdsaSign).
Notation digest := (sigHashFn DS).

(** The signatures of one digest. *)
Fixpoint sigs (c : bool) (ht : Z) (ks : list prvkey) (h : bytes) : res (list PubKeySign) :=
  match ks with
  | [] => Ok []
  | k :: ks => let! s := EcdsaSign k h in let! r := sigs c ht ks h in Ok (PKS (PubKeyBytes k c) (s ++ [u8 ht]) :: r)
  end.
(** The input with its signatures. *)
Definition embed_in (signs : list PubKeySign) (i : TxIn) : res TxIn :=
  if (1 <? len signs) && (match ti_redeem i with None => true | Some _ => false end) then Err "" else
  let! s := ParseLockingScript (ti_rawlock i) in
  match GetRawUnlockingScriptBytes sha256 s signs (nilb (ti_redeem i)) with
  | Panic => Panic
  | Err _ => Ok (with_unlock [] i)
  | Ok u => let! w := GetWitnessUnlockingScriptBytes sha256 s signs (nilb (ti_redeem i)) in Ok (with_witness w (with_unlock u i))
  end.
Definition guard (i : TxIn) : Prop := in_has_witness i = false \/ exists s, ParseLockingScript (ti_rawlock i) = Ok s /\ witness_version s = true.
Definition filled (w : bool) ht t : transaction := if w then set_caches (Some (eff_prevouts DS ht t)) (Some (eff_sequence DS ht t)) (Some (eff_outputs DS ht t)) t else t.
Definition done idx i' (w : bool) ht t : transaction := set_in idx (fun _ => i') (filled w ht t).

Lemma update_const {A} (f : A -> A) l x : forall n, nth_error l n = Some x -> update n f l = update n (fun _ => f x) l.
Proof. induction l as [|y l IH]; intros [|n] E; cbn [update nth_error] in *; try discriminate; [congruence|]. f_equal. now apply IH. Qed.
Lemma update_update {A} (f g : A -> A) l : forall n, update n f (update n g l) = update n (fun x => f (g x)) l.
Proof. induction l as [|y l IH]; intros [|n]; cbn [update]; auto. now rewrite IH. Qed.
Lemma update_comm {A} (f g : A -> A) l : forall n m, n <> m -> update n f (update m g l) = update m g (update n f l).
Proof. induction l as [|y l IH]; intros [|n] [|m] N; cbn [update]; auto; [congruence|]. f_equal. apply IH. congruence. Qed.
Lemma index_nth_error {A} (l : list A) k x : index l k = Ok x -> 0 <= k /\ nth_error l (Z.to_nat k) = Some x.
Proof. unfold index. destruct (k <? 0) eqn:K; [discriminate|]. destruct (nth_error l (Z.to_nat k)); [|discriminate]. intros E. split; [lia|congruence]. Qed.

Lemma filled_ins w ht t : tx_ins (filled w ht t) = tx_ins t. Proof. destruct w; reflexivity. Qed.
Lemma filled_same w ht t : same DS ht t (filled w ht t).
Proof.
  destruct w; [|apply same_refl]. split; [reflexivity|]. unfold filled, eff, eff_prevouts, eff_sequence, eff_outputs. cbn [tx_prevouts tx_sequence tx_outputs tx_ins tx_outs set_caches cached].
  repeat match goal with |- context [if ?c then _ else _] => destruct c end; reflexivity.
Qed.

(** One key of the loop. *)
Lemma one_key idx ht k t i sg t1 : index (tx_ins t) idx = Ok i ->
  (if in_has_witness i then WitnessSignature DS prvkey EcdsaSign idx ht k t else RawSignature DS prvkey EcdsaSign idx ht k t) = Ok (sg, t1) <->
  guard i /\ exists h s, digest idx (in_has_witness i) t ht = Ok h /\ EcdsaSign k h = Ok s /\ sg = s ++ [u8 ht] /\ t1 = done idx (with_sighash h i) (in_has_witness i) ht t.
Proof.
  intros Hi. pose proof (index_nonneg _ _ _ Hi) as R. destruct (index_nth_error _ _ _ Hi) as [_ Hn].
  assert (Sd : forall h t0, tx_ins t0 = tx_ins t -> set_in idx (with_sighash h) t0 = set_in idx (fun _ => with_sighash h i) t0).
  { intros h t0 It. unfold set_in. rewrite It. f_equal. now apply update_const. }
  unfold guard, sigHashFn, done. destruct (in_has_witness i) eqn:W.
  - unfold WitnessSignature. replace (len (tx_ins t) <=? idx) with false by lia. rewrite Hi. cbn [rbind]. split.
    + intros E. apply rbind_ok in E. destruct E as (s & Ps & E). destruct (witness_version s) eqn:Wv; [|discriminate]. apply rbind_ok in E. destruct E as ((h & t0) & Eh & E). apply rbind_ok in E. destruct E as (sig & Es & E). apply ok_pair in E. destruct E as [<- <-].
      split; [right; eauto|]. exists h, sig. rewrite Eh. cbn [rbind]. split; [reflexivity|]. split; [exact Es|]. split; [reflexivity|]. rewrite whash_eq, Hi in Eh. cbn [rbind] in Eh. apply ok_pair in Eh. destruct Eh as [_ <-]. apply Sd. reflexivity.
    + intros ([F|(s & Ps & Wv)] & h & sig & Eh & Es & -> & ->); [discriminate|]. rewrite Ps. cbn [rbind]. rewrite Wv. rewrite whash_eq, Hi in Eh |- *. cbn [rbind] in Eh |- *. assert (Eh' : forall a b : bytes, Ok a = Ok b -> a = b) by congruence. apply Eh' in Eh. rewrite Eh, Es. cbn [rbind]. f_equal. f_equal. apply Sd. reflexivity.
  - unfold RawSignature. replace (len (tx_ins t) <=? idx) with false by lia. rewrite Hi. cbn [rbind]. split.
    + intros E. apply rbind_ok in E. destruct E as (h & Eh & E). apply rbind_ok in E. destruct E as (sig & Es & E). apply ok_pair in E. destruct E as [<- <-]. split; [now left|]. exists h, sig. split; [exact Eh|]. split; [exact Es|]. split; [reflexivity|]. now apply Sd.
    + intros (_ & h & sig & Eh & Es & -> & ->). rewrite Eh. cbn [rbind]. rewrite Es. cbn [rbind]. f_equal. f_equal. now apply Sd.
Qed.
Lemma done_same idx i i' w ht t : index (tx_ins t) idx = Ok i -> blank i' = blank i -> same DS ht t (done idx i' w ht t).
Proof.
  intros Hi B. apply (same_trans DS ht t (filled w ht t)); [apply filled_same|]. unfold done. destruct (index_nth_error _ _ _ Hi) as [_ Hn].
  assert (Bl : map blank (update (Z.to_nat idx) (fun _ => i') (tx_ins t)) = map blank (tx_ins t)).
  { revert Hn. generalize (Z.to_nat idx) (tx_ins t). clear - B. intros n l. revert n. induction l as [|x l IH]; intros [|n] E; cbn [update map nth_error] in *; try discriminate; [congruence|]. now rewrite IH. }
  unfold same, core, eff, eff_prevouts, eff_sequence, eff_outputs, set_in, set_ins. cbn [tx_version tx_locktime tx_ins tx_outs tx_prevouts tx_sequence tx_outputs]. rewrite !filled_ins, Bl. auto.
Qed.
Lemma done_done idx i j w ht t : same DS ht t (done idx i w ht t) -> done idx j w ht (done idx i w ht t) = done idx j w ht t.
Proof.
  intros [_ E]. unfold eff in E. assert (X : forall a b c a' b' c' : bytes, (a, b, c) = (a', b', c') -> a = a' /\ b = b' /\ c = c') by (intros; repeat split; congruence). apply X in E. destruct E as (E1 & E2 & E3).
  unfold done at 1. unfold filled. rewrite <- E1, <- E2, <- E3. unfold done, filled, set_in, set_ins, set_caches. destruct w; cbn [tx_version tx_locktime tx_ins tx_outs tx_prevouts tx_sequence tx_outputs]; rewrite update_update; reflexivity.
Qed.
Lemma index_done idx i j w ht t : index (tx_ins t) idx = Ok i -> index (tx_ins (done idx j w ht t)) idx = Ok j.
Proof. intros Hi. unfold done. rewrite (index_set_in idx (fun _ => j) (filled w ht t) i); [reflexivity|]. now rewrite filled_ins. Qed.

Lemma loop_iff idx c ht ks : forall t i signs t1, index (tx_ins t) idx = Ok i -> ks <> [] ->
  sign_loop idx c ht ks t = Ok (signs, t1) <-> guard i /\ exists h, digest idx (in_has_witness i) t ht = Ok h /\ sigs c ht ks h = Ok signs /\ t1 = done idx (with_sighash h i) (in_has_witness i) ht t.
Proof.
  induction ks as [|k ks IH]; intros t i signs t1 Hi Nk; [congruence|]. cbn [TxModel.sign_loop sigs]. rewrite Hi. cbn [rbind].
  assert (St : forall h, same DS ht t (done idx (with_sighash h i) (in_has_witness i) ht t)) by (intros h; apply (done_same idx i); [exact Hi|reflexivity]).
  assert (Dg : forall h, digest idx (in_has_witness i) (done idx (with_sighash h i) (in_has_witness i) ht t) ht = digest idx (in_has_witness i) t ht) by (intros h; symmetry; apply same_digest; apply St).
  split.
  - intros E. apply rbind_ok in E. destruct E as ((sg & t2) & E1 & E). apply (one_key idx ht k t i sg t2 Hi) in E1. destruct E1 as (G & h & s & Eh & Es & -> & ->). apply rbind_ok in E. destruct E as ((sgs & t3) & E2 & E). apply ok_pair in E. destruct E as [<- <-].
    split; [exact G|]. exists h. split; [exact Eh|]. rewrite Es. cbn [rbind]. destruct ks as [|k2 ks]; [cbn [TxModel.sign_loop] in E2; apply ok_pair in E2; destruct E2 as [<- <-]; cbn [sigs rbind]; auto|].
    apply (IH _ (with_sighash h i) _ _ (index_done _ _ _ _ _ _ Hi) ltac:(discriminate)) in E2. destruct E2 as (_ & h2 & Eh2 & E2 & ->). change (in_has_witness (with_sighash h i)) with (in_has_witness i) in *. rewrite Dg in Eh2. assert (h2 = h) by congruence. subst h2.
    rewrite E2. cbn [rbind]. split; [reflexivity|]. change (with_sighash h (with_sighash h i)) with (with_sighash h i). now apply done_done.
  - intros (G & h & Eh & Es & ->). apply rbind_ok in Es. destruct Es as (s & Es & E). apply rbind_ok in E. destruct E as (r & Er & E). assert (Eg : signs = PKS (PubKeyBytes k c) (s ++ [u8 ht]) :: r) by congruence.
    rewrite (proj2 (one_key idx ht k t i (s ++ [u8 ht]) _ Hi) (conj G (ex_intro _ h (ex_intro _ s (conj Eh (conj Es (conj eq_refl eq_refl))))))). cbn [rbind].
    destruct ks as [|k2 ks]; [cbn [TxModel.sign_loop sigs] in *; cbn [rbind]; rewrite Eg; f_equal; f_equal; congruence|].
    rewrite (proj2 (IH _ (with_sighash h i) r (done idx (with_sighash h i) (in_has_witness i) ht t) (index_done _ _ _ _ _ _ Hi) ltac:(discriminate))); [cbn [rbind]; rewrite Eg; reflexivity|].
    split; [exact G|]. exists h. change (in_has_witness (with_sighash h i)) with (in_has_witness i). rewrite Dg. split; [exact Eh|]. split; [exact Er|]. change (with_sighash h (with_sighash h i)) with (with_sighash h i). symmetry. now apply done_done.
Qed.

(** Signing one input, as a statement about the input alone. *)
Lemma embed_iff idx signs t i t' : index (tx_ins t) idx = Ok i -> EmbedIdxSignature sha256 idx signs t = Ok t' <-> exists i', embed_in signs i = Ok i' /\ t' = set_in idx (fun _ => i') t.
Proof.
  intros Hi. destruct (index_nth_error _ _ _ Hi) as [_ Hn]. unfold EmbedIdxSignature, embed_in. rewrite Hi. cbn [rbind].
  assert (Sd : forall f, set_in idx f t = set_in idx (fun _ => f i) t) by (intros f; unfold set_in; f_equal; now apply update_const).
  destruct ((1 <? len signs) && _); [split; [discriminate|intros (x & X & _); discriminate]|]. destruct (ParseLockingScript (ti_rawlock i)) as [s| |]; cbn [rbind]; [|split; [discriminate|intros (x & X & _); discriminate]..].
  destruct (GetRawUnlockingScriptBytes sha256 s signs (nilb (ti_redeem i))) as [u| |]; [| |split; [discriminate|intros (x & X & _); discriminate]].
  - destruct (GetWitnessUnlockingScriptBytes sha256 s signs (nilb (ti_redeem i))) as [w| |]; cbn [rbind]; [|split; [discriminate|intros (x & X & _); discriminate]..].
    rewrite (Sd (fun i => with_witness w (with_unlock u i))). split; [intros E; eexists; split; [reflexivity|congruence]|]. intros (x & X & ->). f_equal. assert (Ex : x = with_witness w (with_unlock u i)) by congruence. now rewrite Ex.
  - rewrite (Sd (with_unlock [])). split; [intros E; eexists; split; [reflexivity|congruence]|]. intros (x & X & ->). f_equal. assert (Ex : x = with_unlock [] i) by congruence. now rewrite Ex.
Qed.
Definition few (ks : list prvkey) (i : TxIn) : Prop := (1 <? len ks) && (match ti_redeem i with None => true | Some _ => false end) = false.
Lemma sign_iff idx c ht ks t t' : ks <> [] ->
  SignIndex idx c ht ks t = Ok t' <-> exists i h signs i', index (tx_ins t) idx = Ok i /\ few ks i /\ guard i /\ digest idx (in_has_witness i) t ht = Ok h /\ sigs c ht ks h = Ok signs /\
    embed_in signs (with_sighash h i) = Ok i' /\ t' = done idx i' (in_has_witness i) ht t.
Proof.
  intros Nk. unfold TxModel.SignIndex.
  assert (Fin : forall i h i' w, index (tx_ins t) idx = Ok i -> set_in idx (fun _ => i') (done idx (with_sighash h i) w ht t) = done idx i' w ht t) by (intros; unfold done, set_in, set_ins; cbn [tx_version tx_locktime tx_ins tx_outs tx_prevouts tx_sequence tx_outputs]; rewrite update_update; reflexivity).
  split.
  - intros E. apply rbind_ok in E. destruct E as (i & Hi & E). destruct ((1 <? len ks) && _) eqn:Fw; [discriminate|]. apply rbind_ok in E. destruct E as ((signs & t1) & El & E).
    apply (loop_iff idx c ht ks t i signs t1 Hi Nk) in El. destruct El as (G & h & Eh & Es & ->). apply (embed_iff idx signs _ (with_sighash h i) _ (index_done _ _ _ _ _ _ Hi)) in E. destruct E as (i' & Ei & ->).
    exists i, h, signs, i'. repeat (split; [assumption|]). now apply Fin.
  - intros (i & h & signs & i' & Hi & Fw & G & Eh & Es & Ei & ->). rewrite Hi. cbn [rbind]. unfold few in Fw. rewrite Fw.
    rewrite (proj2 (loop_iff idx c ht ks t i signs _ Hi Nk) (conj G (ex_intro _ h (conj Eh (conj Es eq_refl))))). cbn [rbind].
    apply (embed_iff idx signs _ (with_sighash h i) _ (index_done _ _ _ _ _ _ Hi)). exists i'. split; [exact Ei|]. symmetry. now apply (Fin i).
Qed.
Lemma embed_blank signs i i' : embed_in signs i = Ok i' -> blank i' = blank i /\ (forall h, with_sighash h i' = i' -> embed_in signs (with_sighash h i') = Ok i').
Proof.
  intros E. assert (K : forall j, ti_redeem j = ti_redeem i -> ti_rawlock j = ti_rawlock i -> (i' = with_unlock [] i /\ embed_in signs j = Ok (with_unlock [] j)) \/ exists u w, i' = with_witness w (with_unlock u i) /\ embed_in signs j = Ok (with_witness w (with_unlock u j))).
  { intros j Rj Lj. unfold embed_in in E |- *. rewrite Rj, Lj. destruct ((1 <? len signs) && _); [discriminate|]. destruct (ParseLockingScript (ti_rawlock i)) as [s| |]; cbn [rbind] in *; try discriminate.
    destruct (GetRawUnlockingScriptBytes sha256 s signs (nilb (ti_redeem i))) as [u| |]; try discriminate; [|left; split; [congruence|reflexivity]].
    destruct (GetWitnessUnlockingScriptBytes sha256 s signs (nilb (ti_redeem i))) as [w| |]; cbn [rbind] in *; try discriminate. right. exists u, w. split; [congruence|reflexivity]. }
  split; [destruct (K i eq_refl eq_refl) as [[-> _]|(u & w & -> & _)]; reflexivity|]. intros h Eh.
  rewrite Eh. destruct (K i' ) as [[-> ->]|(u & w & -> & ->)]; try reflexivity; destruct (K i eq_refl eq_refl) as [[-> _]|(u0 & w0 & -> & _)]; reflexivity.
Qed.

(** Two inputs, types that use the same digests. *)
Lemma commute a b ca cb ha hb ka kb t t1 t2 : a <> b -> ka <> [] -> kb <> [] -> (forall t, eff DS ha t = eff DS hb t) ->
  SignIndex a ca ha ka t = Ok t1 -> SignIndex b cb hb kb t1 = Ok t2 -> exists t1', SignIndex b cb hb kb t = Ok t1' /\ SignIndex a ca ha ka t1' = Ok t2.
Proof.
  intros N Na Nb Ef E1 E2. apply (sign_iff a ca ha ka t t1 Na) in E1. destruct E1 as (i & h & sg & i' & Hi & Fi & Gi & Dh & Sg & Em & E1).
  apply (sign_iff b cb hb kb t1 t2 Nb) in E2. destruct E2 as (j & h2 & sg2 & j' & Hj & Fj & Gj & Dh2 & Sg2 & Em2 & E2).
  pose proof (index_nonneg _ _ _ Hi) as Ra. pose proof (index_nonneg _ _ _ Hj) as Rb.
  destruct (embed_blank _ _ _ Em) as [Bi _]. destruct (embed_blank _ _ _ Em2) as [Bj _].
  assert (S1 : same DS ha t t1) by (rewrite E1; apply (done_same a i); [exact Hi|exact Bi]).
  assert (Sx : forall x y, same DS ha x y -> same DS hb x y) by (intros x y [A B]; split; [exact A|rewrite <- !Ef; exact B]). assert (Sy : forall x y, same DS hb x y -> same DS ha x y) by (intros x y [A B]; split; [exact A|rewrite !Ef; exact B]).
  assert (Hj0 : index (tx_ins t) b = Ok j). { rewrite E1 in Hj. unfold done in Hj. rewrite index_set_other in Hj by lia. now rewrite filled_ins in Hj. }
  assert (Dj : digest b (in_has_witness j) t hb = Ok h2) by (rewrite <- Dh2; apply same_digest; now apply Sx).
  assert (S2 : same DS hb t (done b j' (in_has_witness j) hb t)) by (apply (done_same b j); [exact Hj0|exact Bj]).
  exists (done b j' (in_has_witness j) hb t). split; [apply (sign_iff b cb hb kb t _ Nb); exists j, h2, sg2, j'; repeat (split; [assumption|]); reflexivity|].
  apply (sign_iff a ca ha ka _ _ Na). exists i, h, sg, i'. split; [unfold done; rewrite index_set_other by lia; now rewrite filled_ins|]. split; [exact Fi|]. split; [exact Gi|]. split; [rewrite <- Dh; symmetry; apply same_digest; now apply Sy|]. split; [exact Sg|]. split; [exact Em|].
  rewrite E2, E1. clear - N Ra Rb Ef S1 S2 E1. assert (X : forall a b c a' b' c' : bytes, (a, b, c) = (a', b', c') -> a = a' /\ b = b' /\ c = c') by (intros; repeat split; congruence).
  assert (Ea : eff DS hb t1 = eff DS ha t) by (rewrite <- Ef; symmetry; apply S1). assert (Eb : eff DS ha (done b j' (in_has_witness j) hb t) = eff DS ha t) by (rewrite !Ef; symmetry; apply S2). pose proof (Ef t) as Et.
  rewrite E1 in Ea. unfold eff in Ea, Eb, Et. apply X in Ea, Eb, Et. destruct Ea as (A1 & A2 & A3), Eb as (B1 & B2 & B3), Et as (C1 & C2 & C3).
  unfold done at 1 3. unfold filled at 1 2. rewrite A1, A2, A3, B1, B2, B3. unfold done, filled. rewrite <- C1, <- C2, <- C3.
  destruct (in_has_witness i), (in_has_witness j); unfold set_in, set_ins, set_caches; cbn [tx_version tx_locktime tx_ins tx_outs tx_prevouts tx_sequence tx_outputs]; f_equal; apply update_comm; lia.
Qed.
Lemma again a ca ha ka t t1 : ka <> [] -> SignIndex a ca ha ka t = Ok t1 -> SignIndex a ca ha ka t1 = Ok t1.
Proof.
  intros Na E1. apply (sign_iff a ca ha ka t t1 Na) in E1. destruct E1 as (i & h & sg & i' & Hi & Fi & Gi & Dh & Sg & Em & E1). destruct (embed_blank _ _ _ Em) as [Bi Em2].
  assert (S1 : same DS ha t t1) by (rewrite E1; apply (done_same a i); [exact Hi|exact Bi]).
  assert (F : ti_redeem i' = ti_redeem i /\ ti_rawlock i' = ti_rawlock i /\ in_has_witness i' = in_has_witness i) by (unfold in_has_witness; unfold blank in Bi; cbn in Bi; repeat split; try congruence; replace (ti_code i') with (ti_code i) by congruence; reflexivity). destruct F as (F1 & F2 & F3).
  apply (sign_iff a ca ha ka t1 t1 Na). exists i', h, sg, i'. split; [rewrite E1; now apply (index_done a i)|]. split; [unfold few in *; now rewrite F1|]. split; [unfold guard in *; now rewrite F2, F3|].
  split; [rewrite F3, <- Dh; symmetry; now apply same_digest|]. split; [exact Sg|]. split; [apply Em2|].
  - assert (Hh : ti_sighash i' = h). { unfold embed_in in Em. destruct ((1 <? len sg) && _); [discriminate|]. apply rbind_ok in Em. destruct Em as (s & _ & Em). destruct (GetRawUnlockingScriptBytes _ _ _ _); try discriminate; [apply rbind_ok in Em; destruct Em as (w & _ & Em)|]; match type of Em with Ok ?x = _ => assert (Ex : i' = x) by congruence; rewrite Ex; reflexivity end. }
    rewrite <- Hh. destruct i'. reflexivity.
  - rewrite F3. rewrite E1 at 2. rewrite done_done; [exact E1|]. now rewrite <- E1.
Qed.
End Again.
