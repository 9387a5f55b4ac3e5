(** The decoders accept exactly the payloads of the specification. *)
From Verif Require Import GoBase BaseLemmas BufferModel BufferSpec BufferProofs BufferMore Codec TxModel TxProofs TxReadSpec TxReadProofs ProtoModel ProtoSpec ProtoProofs ProtoStream ProtoReadSpec.
From Coq Require Import ZifyBool ZifyNat.
Local Open Scope Z_scope.

Lemma exactly_blob n : (n <= 64)%nat -> exactly (read_bytes (Z.of_nat n)) (blob n).
Proof.
  intros N. unfold read_bytes. eapply exactly_iff.
  2: { apply exactly_bind with (G1 := fun e x => len e = Z.of_nat n /\ x = nilify e) (G2 := fun d e x => e = [] /\ x = nilb d); [apply exactly_bytes; lia|]. intros ? d _. apply exactly_ret. }
  intros e x _ _. split.
  - intros (e1 & e2 & d & -> & [L ->] & -> & ->). rewrite app_nil_r, nilb_nilify. constructor. unfold len in L. lia.
  - intros B. inversion B as [e' L]; subst. exists x, [], (nilify x). rewrite app_nil_r, nilb_nilify. unfold len. split; [reflexivity|]. split; [split; [reflexivity|reflexivity]|]. auto.
Qed.
Lemma exactly_octet : exactly ReadU8 octet.
Proof.
  eapply exactly_iff; [|exact exactly_U8]. intros e x _ _. split; [intros [-> B]; now constructor|]. intros O. inversion O; subst; auto.
Qed.
Lemma exactly_string : exactly ReadVarString sized.
Proof. exact exactly_item. Qed.
Ltac prim := first [exact (exactly_fixed 8 _ fixed_ReadU64)|exact (exactly_fixed 4 _ fixed_ReadU32)|exact (exactly_fixed 2 _ fixed_ReadU16)|exact (exactly_blob 16 ltac:(lia))|exact (exactly_blob 32 ltac:(lia))|exact exactly_string|exact exactly_octet|exact exactly_varint].
Ltac fields := repeat (eapply exactly_bind; [prim|intros ? ? _]); apply exactly_ret.
Ltac pieces := repeat match goal with H : exists _, _ |- _ => destruct H | H : _ /\ _ |- _ => destruct H end; subst; rewrite ?app_nil_r.

Lemma exactly_inv : exactly read_inv an_inv.
Proof.
  unfold read_inv. eapply exactly_iff; [|fields]. intros e i _ _. cbv beta. split.
  - intros H. pieces. now constructor.
  - intros I. inversion I as [a t b h W B]; subst. exists a, b, t. split; [reflexivity|]. split; [exact W|]. exists b, [], h. rewrite app_nil_r. auto.
Qed.
Lemma exactly_header : exactly read_header a_header.
Proof.
  unfold read_header. eapply exactly_iff; [|fields]. intros e i _ _. cbv beta. split.
  - intros H. pieces. match goal with H : octet _ _ |- _ => inversion H; subst end. now constructor.
  - intros I. inversion I as [a v b p c m d t e' bi f n z W1 W2 W3 W4 W5 W6 Bz]; subst.
    do 3 eexists. split; [reflexivity|]. split; [exact W1|]. do 3 eexists. split; [reflexivity|]. split; [exact W2|]. do 3 eexists. split; [reflexivity|]. split; [exact W3|].
    do 3 eexists. split; [reflexivity|]. split; [exact W4|]. do 3 eexists. split; [reflexivity|]. split; [exact W5|]. do 3 eexists. split; [reflexivity|]. split; [exact W6|].
    exists [z], [], z. split; [reflexivity|]. split; [now constructor|]. auto.
Qed.
Lemma exactly_version : exactly read_version a_version.
Proof.
  unfold read_version. eapply exactly_iff; [|fields]. intros e i _ _. cbv beta. split.
  - intros H. pieces. now constructor.
  - intros I. inversion I as [a v b s c t d sy e' ay f py g sm h am i0 pm j n k ua l lb m r W1 W2 W3 W4 W5 W6 W7 W8 W9 W10 W11 W12 W13]; subst.
    repeat (do 3 eexists; split; [reflexivity|]; split; [eassumption|]). 
    exists m, [], r. rewrite app_nil_r. auto.
Qed.
(** Lists that are read with [for i := 0; i < int(count); i++]. *)
Lemma i64_huge n : 2 ^ 63 <= n < 2 ^ 64 -> Z.to_nat (i64 n) = 0%nat.
Proof. intros H. assert (E : i64 n = n - 2 ^ 64) by (unfold i64; cbv zeta; Z.div_mod_to_equations; lia). rewrite E. lia. Qed.
Lemma exactly_tallied {A} (rd : BM A) G : exactly rd G -> (forall e x, G e x -> 1 <= len e) -> exactly (do n <- ReadVarInt; read_n (Z.to_nat (i64 n)) rd) (tallied G).
Proof.
  intros R Q. eapply exactly_iff; [|eapply exactly_bind; [exact exactly_varint|intros ? n _; apply exactly_n; exact R]]. intros e l Le _. cbv beta. split.
  - intros (c & f & n & -> & S & M & L). pose proof (size_range _ _ S) as [B _]. destruct (Z_lt_ge_dec n (2 ^ 63)) as [H|H].
    + constructor 1. rewrite i64_id in L by lia. constructor; [|exact M]. replace (len l) with n by (unfold len; lia). exact S.
    + rewrite i64_huge in L by lia. destruct l; [|discriminate]. inversion M; subst. rewrite app_nil_r. apply tally_huge with n; [exact S|lia].
  - intros T. inversion T as [e' l' C|c n S H]; subst.
    + inversion C as [c f l' S M]; subst. exists c, f, (len l). split; [reflexivity|]. split; [exact S|]. split; [exact M|]. pose proof (many_len G 1 Q _ _ M). rewrite len_app in Le.
      pose proof (len_nonneg c). rewrite i64_id by (pose proof (len_nonneg l); lia). unfold len. lia.
    + pose proof (size_range _ _ S) as [B _]. exists e, [], n. rewrite app_nil_r. split; [reflexivity|]. split; [exact S|]. split; [constructor|]. now rewrite i64_huge by lia.
Qed.
Lemma exactly_map {A B} (rd : BM A) G (f : A -> B) : exactly rd G -> exactly (do x <- rd; bret (f x)) (fun e y => exists x, G e x /\ y = f x).
Proof.
  intros R. eapply exactly_iff; [|eapply exactly_bind; [exact R|intros ? x _; apply exactly_ret]]. intros e y _ _. cbv beta. split.
  - intros (e1 & e2 & x & -> & g & -> & ->). rewrite app_nil_r. eauto.
  - intros (x & g & ->). exists e, [], x. rewrite app_nil_r. auto.
Qed.
Lemma bbind_assoc {A B C} (m : BM A) (f : A -> BM B) (g : B -> BM C) b : bbind (bbind m f) g b = bbind m (fun x => bbind (f x) g) b.
Proof. unfold bbind. destruct (m b) as [[x|e|] b1]; reflexivity. Qed.
Lemma bbind_ext {A B} (m : BM A) (f g : A -> BM B) b : (forall x b, f x b = g x b) -> bbind m f b = bbind m g b.
Proof. intros E. unfold bbind. destruct (m b) as [[x|e|] b1]; [apply E|reflexivity|reflexivity]. Qed.
Lemma exactly_ext {A} (rd rd' : BM A) G : (forall b, rd b = rd' b) -> exactly rd G -> exactly rd' G.
Proof. intros E R pre rest F O x b. rewrite <- E. apply (R pre rest F O). Qed.
Lemma word_pos n e x : word (S n) e x -> 1 <= len e.
Proof. intros W. apply word_len in W. lia. Qed.
Lemma header_pos e x : a_header e x -> 1 <= len e.
Proof. intros I. inversion I; subst. rewrite !len_app. match goal with H : word 4 ?a _ |- 1 <= len ?a + _ => apply word_len in H; rewrite H end. rewrite <- !len_app. match goal with |- 1 <= _ + len ?x => pose proof (len_nonneg x) end. lia. Qed.
Lemma exactly_headers : exactly (read_headers []) (tallied a_header).
Proof.
  eapply exactly_iff; [|eapply exactly_ext; [|eapply (exactly_map (do n <- ReadVarInt; read_n (Z.to_nat (i64 n)) read_header) (tallied a_header) (fun r : list BlockHeader => r)); apply exactly_tallied; [exact exactly_header|exact header_pos]]].
  - intros e l _ _. cbv beta. split; [intros (x & g & ->); exact g|]. intros g. now exists l.
  - intros b. unfold read_headers. apply bbind_assoc.
Qed.
Lemma exactly_locator : exactly (read_getheaders empty_getheaders) a_locator.
Proof.
  eapply exactly_iff; [|eapply exactly_ext; [|eapply exactly_bind; [exact (exactly_fixed 4 _ fixed_ReadU32)|intros ? v _; eapply (exactly_map (do n <- ReadVarInt; read_n (Z.to_nat (i64 n)) (read_bytes 32)) (tallied (blob 32)) (fun r => MkGetHeaders v r (repeat 0 32))); apply (exactly_tallied (read_bytes 32)); [exact (exactly_blob 32 ltac:(lia))|]]]].
  - intros e g _ _. cbv beta. split.
    + intros H. pieces. now constructor.
    + intros I. inversion I as [a v b l W T]; subst. exists a, b, v. split; [reflexivity|]. split; [exact W|]. exists l. auto.
  - intros b. unfold read_getheaders. cbn [gh_locators gh_stop empty_getheaders app]. apply bbind_ext. intros v b1. apply bbind_assoc.
  - intros e' x B. inversion B as [e0 L]; subst. unfold len. lia.
Qed.
Lemma inv_pos e x : an_inv e x -> 1 <= len e.
Proof. intros I. inversion I as [a t b h W B]; subst. rewrite len_app. apply word_len in W. pose proof (len_nonneg b). lia. Qed.
Lemma exactly_invs : exactly (read_invs []) (fun e l => counted an_inv e l /\ len l <= 50000).
Proof.
  unfold read_invs. eapply exactly_iff.
  2: { eapply exactly_bind with (G2 := fun n e l => n <= 50000 /\ many an_inv e l /\ len l = n); [exact exactly_varint|]. intros c n S. apply size_range in S. destruct S as [S _]. unfold MaxInvPerMsg. destruct (50000 <? n) eqn:K.
       - intros pre rest F O x b. unfold bfail. split; [discriminate|]. intros (e & t & _ & _ & N & _). lia.
       - rewrite i64_id by lia. eapply exactly_iff; [|apply (exactly_map (read_n (Z.to_nat n) read_inv) (fun e l => many an_inv e l /\ length l = Z.to_nat n) (fun r : list InvVect => [] ++ r)); apply exactly_n; exact exactly_inv]. intros e l _ _. cbv beta. cbn [app]. unfold len. split.
         + intros (x & [M L] & ->). split; [lia|]. split; [exact M|lia].
         + intros (_ & M & L). exists l. split; [split; [exact M|lia]|reflexivity]. }
  intros e l _ _. cbv beta. split.
  - intros (c & f & n & -> & S & H & M & <-). split; [now constructor|exact H].
  - intros [C H]. inversion C as [c f l' S M]; subst. exists c, f, (len l). auto.
Qed.
Lemma hash_iff c : has_hash c = true <-> c = str_bytes "block" \/ c = str_bytes "tx".
Proof. unfold has_hash. rewrite Bool.orb_true_iff. unfold CommandBlock, CommandTx. now rewrite !list_Z_eqb_spec. Qed.
Lemma exactly_reject : exactly (read_reject empty_reject) a_reject.
Proof.
  unfold read_reject. eapply exactly_iff.
  2: { eapply exactly_bind; [exact exactly_string|intros ? c _]. eapply exactly_bind; [exact exactly_octet|intros ? k _]. eapply exactly_bind with (G2 := fun r e x => if has_hash c then exists h, blob 32 e h /\ x = MkReject c k r h else e = [] /\ x = MkReject c k r []); [exact exactly_string|intros ? r _].
       cbv beta. destruct (has_hash c).
       - apply (exactly_map (read_bytes 32) (blob 32) (fun h => MkReject c k r h)). exact (exactly_blob 32 ltac:(lia)).
       - apply exactly_ret. }
  intros e x _ _. cbv beta. split.
  - intros (a & ? & c & -> & S1 & b & ? & k & -> & O & d & f & r & -> & S2 & H). destruct (has_hash c) eqn:E.
    + destruct H as (h & B & ->). apply hash_iff in E. now constructor.
    + destruct H as [-> ->]. rewrite app_nil_r. apply reject_plain; auto; intros ->; discriminate.
  - intros I. inversion I as [a c b k d r e' h S1 O S2 T B|a c b k d r S1 O S2 N1 N2]; subst.
    + exists a, (b ++ d ++ e'), c. split; [reflexivity|]. split; [exact S1|]. exists b, (d ++ e'), k. split; [reflexivity|]. split; [exact O|]. exists d, e', r. split; [reflexivity|]. split; [exact S2|]. rewrite (proj2 (hash_iff c) T). now exists h.
    + exists a, (b ++ d), c. split; [reflexivity|]. split; [exact S1|]. exists b, d, k. split; [reflexivity|]. split; [exact O|]. exists d, [], r. rewrite app_nil_r. split; [reflexivity|]. split; [exact S2|].
      destruct (has_hash c) eqn:E; [apply hash_iff in E; tauto|]. auto.
Qed.

(** ** Decode *)
Lemma run_iff {A} (rd : BM A) G (C : A -> message) d m : exactly rd G -> bytes_ok d -> len d <= 2 ^ 43 ->
  ((let! v := run rd d in Ok (C v)) = Ok m <-> exists e junk v, d = e ++ junk /\ G e v /\ m = C v).
Proof.
  intros R O L. unfold run. split.
  - destruct (fst (rd (NewBufferReader d))) as [v|e|] eqn:E; cbn [rbind]; try discriminate. intros H. apply (exactly_run rd G d v R O L) in E. destruct E as (e & j & -> & g). exists e, j, v. split; [reflexivity|]. split; [exact g|congruence].
  - intros (e & j & v & D & g & ->). assert (E : fst (rd (NewBufferReader d)) = Ok v) by (apply (exactly_run rd G d v R O L); now exists e, j). now rewrite E.
Qed.
Lemma known_dec c : In c known \/ ~ In c known.
Proof. destruct (in_dec (list_eq_dec Z.eq_dec) c known); auto. Qed.
Ltac its_own := let A := fresh in let E := fresh in intros A; match type of A with accepts ?c _ _ => remember c as k eqn:E end; destruct A; try (exfalso; discriminate E);
  try (exfalso; match goal with H : ~ In _ _ |- _ => apply H; rewrite E; cbn [map In]; tauto end).
Lemma decode_iff c d m : bytes_ok d -> len d <= 2 ^ 43 -> (Decode (makeEmptyMessage c) d = Ok m <-> accepts c d m).
Proof.
  intros O L. destruct (known_dec c) as [K|K].
  - unfold known in K. cbn [map In] in K. repeat destruct K as [<-|K]; [| | | | | | | |contradiction].
    + change (Decode (makeEmptyMessage (str_bytes "version")) d) with (let! v := run read_version d in Ok (Version v)). rewrite (run_iff _ _ _ _ _ exactly_version O L). split; [|its_own; eauto 7].
      intros (e & j & v & -> & g & ->). now constructor.
    + change (Decode (makeEmptyMessage (str_bytes "verack")) d) with (@Ok message VerAck). split; [|its_own; reflexivity]. intros E. assert (m = VerAck) by congruence. subst m. constructor.
    + change (Decode (makeEmptyMessage (str_bytes "inv")) d) with (let! v := run (read_invs []) d in Ok (Inv v)). rewrite (run_iff _ _ _ _ _ exactly_invs O L). split; [|its_own; eauto 7].
      intros (e & j & v & -> & [g B] & ->). now constructor.
    + change (Decode (makeEmptyMessage (str_bytes "getdata")) d) with (let! v := run (read_invs []) d in Ok (GetData v)). rewrite (run_iff _ _ _ _ _ exactly_invs O L). split; [|its_own; eauto 7].
      intros (e & j & v & -> & [g B] & ->). now constructor.
    + change (Decode (makeEmptyMessage (str_bytes "getheaders")) d) with (let! v := run (read_getheaders empty_getheaders) d in Ok (GetHeaders v)). rewrite (run_iff _ _ _ _ _ exactly_locator O L). split; [|its_own; eauto 7].
      intros (e & j & v & -> & g & ->). now constructor.
    + change (Decode (makeEmptyMessage (str_bytes "tx")) d) with (Ok (Tx d)). split; [|its_own; reflexivity]. intros E. assert (m = Tx d) by congruence. subst m. constructor.
    + change (Decode (makeEmptyMessage (str_bytes "headers")) d) with (let! v := run (read_headers []) d in Ok (Headers v)). rewrite (run_iff _ _ _ _ _ exactly_headers O L). split; [|its_own; eauto 7].
      intros (e & j & v & -> & g & ->). now constructor.
    + change (Decode (makeEmptyMessage (str_bytes "reject")) d) with (let! v := run (read_reject empty_reject) d in Ok (Reject v)). rewrite (run_iff _ _ _ _ _ exactly_reject O L). split; [|its_own; eauto 7].
      intros (e & j & v & -> & g & ->). now constructor.
  - rewrite (unknown c K). cbn [Decode]. split.
    + intros E. assert (m = Unhandle c) by congruence. subst m. now constructor.
    + intros A. destruct A; try reflexivity; exfalso; apply K; unfold known; cbn [map In]; tauto.
Qed.

(** ** Frames *)
Lemma drop_zeros_spec l : exists k, l = repeat 0 k ++ drop_zeros l /\ forall a, drop_zeros l <> 0 :: a.
Proof.
  induction l as [|x l (k & E & N)]; [exists 0%nat; split; [reflexivity|discriminate]|]. destruct (Z.eq_dec x 0) as [->|X].
  - exists (S k). cbn [drop_zeros repeat app]. split; [now rewrite <- E|exact N].
  - exists 0%nat. replace (drop_zeros (x :: l)) with (x :: l) by (destruct x; [congruence|reflexivity|reflexivity]). split; [reflexivity|]. intros a H. congruence.
Qed.
Lemma trim_names f : length f = 12%nat -> names f (TrimRight0 f).
Proof.
  intros L. split; [exact L|]. unfold TrimRight0. destruct (drop_zeros_spec (rev f)) as (k & E & N). split.
  - exists k. rewrite <- (rev_involutive f) at 1. rewrite E at 1. now rewrite rev_app_distr, rev_repeat.
  - intros a H. apply (f_equal (@rev Z)) in H. rewrite rev_involutive, rev_app_distr in H. cbn [rev app] in H. exact (N _ H).
Qed.
Lemma names_trim f c : names f c -> TrimRight0 f = c.
Proof.
  intros (L & (k & ->) & N). assert (W : wire_command c) by (split; [rewrite app_length in L; lia|exact N]). rewrite <- (trim_field c W) at 2. f_equal. unfold command_field.
  rewrite app_length, repeat_length in L. rewrite firstn_all2 by lia. f_equal. f_equal. lia.
Qed.
Lemma read_iff sha256 r m rest : (forall b, (4 <= length (sha256 b))%nat) -> reader_wf r -> bytes_ok (content r) ->
  ((exists r', ReadMessage sha256 r = (Ok m, r') /\ content r' = rest) <->
   exists magic field c size data, content r = magic ++ field ++ size ++ firstn 4 (sha256 (sha256 data)) ++ data ++ rest /\ length magic = 4%nat /\ names field c /\ word 4 size (len data) /\ accepts c data m).
Proof.
  intros H W O. split.
  - intros (r' & E & <-). destruct (read_sound sha256 r m r' W O E) as (magic & f & size & check & data & C & L1 & L2 & L3 & V & -> & D). unfold frame_bytes in C. exists magic, f, (TrimRight0 f), size, data.
    rewrite C, <- !app_assoc. split; [reflexivity|]. split; [exact L1|]. split; [now apply trim_names|]. rewrite C in O. rewrite !bytes_ok_app in O.
    split; [rewrite <- V; constructor; [exact L3|tauto]|]. apply decode_iff; [tauto| |exact D]. assert (Os : bytes_ok size) by tauto. pose proof (le_value_range size Os) as R. unfold len in R at 1. rewrite L3 in R. cbn in R. lia.
  - intros (magic & f & c & size & data & C & L1 & N & S & A). inversion S as [e L3 Os E1 E2]. subst e.
    destruct (read_frame sha256 r magic f size (firstn 4 (sha256 (sha256 data))) data rest) as (r' & W' & C' & E); auto.
    + unfold frame_bytes. now rewrite <- !app_assoc.
    + exact (proj1 N).
    + rewrite firstn_length. specialize (H (sha256 data)). lia.
    + exists r'. split; [|exact C']. rewrite E. unfold checksum. rewrite list_Z_eqb_refl, (names_trim f c N). f_equal. apply decode_iff; [rewrite C, !bytes_ok_app in O; tauto| |exact A].
      pose proof (le_value_range size Os) as R. unfold len in R at 1. rewrite L3 in R. cbn in R. lia.
Qed.
