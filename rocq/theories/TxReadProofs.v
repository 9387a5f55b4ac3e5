(** The readers accept exactly the grammar. *)
From Verif Require Import GoBase BaseLemmas BufferModel BufferSpec BufferProofs BufferMore Codec TxModel TxProofs TxReadSpec.
From Coq Require Import ZifyBool ZifyNat.
Local Open Scope Z_scope.

Definition room (pre rest : bytes) : Prop := len (pre ++ rest) <= 2 ^ 43.
Lemma room_fits pre rest : room pre rest -> fits pre rest.
Proof. unfold room, fits. lia. Qed.
Lemma room_shift pre e rest : room pre (e ++ rest) -> room (pre ++ e) rest.
Proof. unfold room. now rewrite <- app_assoc. Qed.
Definition exactly {A} (rd : BM A) (G : bytes -> A -> Prop) : Prop := forall pre rest, room pre rest -> bytes_ok rest ->
  forall x b, rd (rbuf pre rest) = (Ok x, b) <-> exists e t, rest = e ++ t /\ b = rbuf (pre ++ e) t /\ G e x.

Lemma exactly_iff {A} (rd : BM A) G G' : (forall e x, len e <= 2 ^ 43 -> bytes_ok e -> (G e x <-> G' e x)) -> exactly rd G -> exactly rd G'.
Proof.
  intros I R pre rest F O x b. rewrite (R pre rest F O x b). split; intros (e & t & -> & -> & g); exists e, t; (split; [reflexivity|]); (split; [reflexivity|]); apply bytes_ok_app in O; destruct O as [O _];
    apply I; auto; unfold room in F; rewrite !len_app in F; pose proof (len_nonneg pre); pose proof (len_nonneg t); lia.
Qed.
Lemma exactly_ret {A} (y : A) : exactly (bret y) (fun e x => e = [] /\ x = y).
Proof.
  intros pre rest F O x b. unfold bret. split.
  - intros E. exists [], rest. rewrite app_nil_r. split; [reflexivity|]. split; [congruence|]. split; congruence.
  - intros (e & t & -> & -> & -> & ->). now rewrite app_nil_r.
Qed.
Lemma exactly_bind {A B} (m : BM A) (f : A -> BM B) G1 G2 : exactly m G1 -> (forall e x, G1 e x -> exactly (f x) (G2 x)) ->
  exactly (bbind m f) (fun e y => exists e1 e2 x, e = e1 ++ e2 /\ G1 e1 x /\ G2 x e2 y).
Proof.
  intros R1 R2 pre rest F O y b. unfold bbind. split.
  - intros E. destruct (m (rbuf pre rest)) as [[x|er|] b1] eqn:M; try discriminate. apply (R1 pre rest F O) in M. destruct M as (e1 & t1 & -> & -> & g1).
    apply bytes_ok_app in O. destruct O as [O1 O2]. apply (R2 e1 x g1 (pre ++ e1) t1 (room_shift _ _ _ F) O2) in E. destruct E as (e2 & t2 & -> & -> & g2).
    exists (e1 ++ e2), t2. rewrite !app_assoc. split; [reflexivity|]. split; [reflexivity|]. exists e1, e2, x. auto.
  - intros (e & t & -> & -> & e1 & e2 & x & -> & g1 & g2). rewrite <- app_assoc in *.
    assert (M : m (rbuf pre (e1 ++ e2 ++ t)) = (Ok x, rbuf (pre ++ e1) (e2 ++ t))) by (apply (R1 _ _ F O); exists e1, (e2 ++ t); auto). rewrite M.
    apply bytes_ok_app in O. destruct O as [O1 O2]. apply (R2 e1 x g1 (pre ++ e1) (e2 ++ t) (room_shift _ _ _ F) O2). exists e2, t. rewrite app_assoc. auto.
Qed.
Lemma exactly_assert c s {B} (m : BM B) G : exactly m G -> exactly (do _ <- bassert c s; m) (fun e x => c = true /\ G e x).
Proof.
  intros R pre rest F O x b. destruct c; unfold bbind, bassert, bret, bfail; cbv beta iota.
  - rewrite (R pre rest F O x b). split; intros (e & t & E & Q & g); exists e, t; (split; [exact E|]); (split; [exact Q|]); [now split|now destruct g].
  - split; [discriminate|]. intros (e & t & _ & _ & N). destruct N as [N _]. discriminate N.
Qed.
Lemma exactly_make n k {B} (m : BM B) G : exactly m G -> (forall e x, len e <= 2 ^ 43 -> G e x -> make_ok n k = true) -> exactly (do _ <- bmake n k; m) G.
Proof.
  intros R M pre rest F O x b. unfold bbind, bmake, bret, bpanic. destruct (make_ok n k) eqn:K; cbv beta iota; [apply (R pre rest F O)|]. split; [discriminate|].
  intros (e & t & -> & _ & g). assert (Q : false = true); [|discriminate Q]. apply (M e x); [|exact g]. unfold room in F. rewrite !len_app in F. pose proof (len_nonneg pre). pose proof (len_nonneg t). lia.
Qed.

(** ** Primitive reads *)
Lemma exactly_fixed n rd : fixed_read n rd -> exactly rd (word n).
Proof.
  intros R pre rest F O x b. destruct (R pre rest (room_fits _ _ F) O) as [(e & t & -> & L & ->)|[L ->]].
  - split.
    + intros E. assert (le_value e = x /\ rbuf (pre ++ e) t = b) as [<- <-] by (split; congruence). exists e, t. apply bytes_ok_app in O. repeat split; tauto.
    + intros (e' & t' & E & -> & W). inversion W as [e0 L' O']; subst. apply app_inj_len in E; [|congruence]. destruct E as [-> ->]. reflexivity.
  - split; [discriminate|]. intros (e' & t' & -> & _ & W). inversion W as [e0 L' O']; subst. rewrite app_length in L. lia.
Qed.
Lemma exactly_U8 : exactly ReadU8 (fun e x => e = [x] /\ is_byte x).
Proof.
  eapply exactly_iff; [|exact (exactly_fixed 1 _ fixed_ReadU8)]. intros e x _ O. split.
  - intros W. inversion W as [e0 L O' E1 E2]. destruct e as [|c [|]]; try discriminate. cbn [le_value]. rewrite Z.mul_0_r, Z.add_0_r. apply bytes_ok_cons in O. tauto.
  - intros [-> B]. replace x with (le_value [x]) at 2 by (cbn [le_value]; lia). constructor; [reflexivity|exact O].
Qed.
Lemma exactly_varint : exactly ReadVarInt size.
Proof.
  unfold ReadVarInt. eapply exactly_iff.
  2: { apply exactly_bind with (G1 := fun e x => e = [x] /\ is_byte x) (G2 := fun first e x => if first =? 253 then word 2 e x else if first =? 254 then word 4 e x else if first =? 255 then word 8 e x else e = [] /\ x = first).
       - exact exactly_U8.
       - intros ? f _. destruct (f =? 253); [apply exactly_fixed, fixed_ReadU16|]. destruct (f =? 254); [apply exactly_fixed, fixed_ReadU32|]. destruct (f =? 255); [apply exactly_fixed, fixed_ReadU64|]. apply exactly_ret. }
  intros e x _ O. split.
  - intros (e1 & e2 & f & -> & [-> B] & W). destruct (f =? 253) eqn:E1; [|destruct (f =? 254) eqn:E2; [|destruct (f =? 255) eqn:E3]].
    + assert (f = 253) by lia. subst f. inversion W; subst. now apply size_3.
    + assert (f = 254) by lia. subst f. inversion W; subst. now apply size_5.
    + assert (f = 255) by lia. subst f. inversion W; subst. now apply size_9.
    + destruct W as [-> ->]. cbn [app]. apply size_1. unfold is_byte in B. lia.
  - intros S. inversion S as [n R|e' L O'|e' L O'|e' L O']; subst.
    + exists [x], [], x. split; [reflexivity|]. split; [split; [reflexivity|unfold is_byte; lia]|]. replace (x =? 253) with false by lia. replace (x =? 254) with false by lia. replace (x =? 255) with false by lia. auto.
    + exists [253], e', 253. split; [reflexivity|]. split; [split; [reflexivity|unfold is_byte; lia]|]. now constructor.
    + exists [254], e', 254. split; [reflexivity|]. split; [split; [reflexivity|unfold is_byte; lia]|]. now constructor.
    + exists [255], e', 255. split; [reflexivity|]. split; [split; [reflexivity|unfold is_byte; lia]|]. now constructor.
Qed.
Lemma size_range e n : size e n -> 0 <= n < 2 ^ 64 /\ (1 <= length e)%nat.
Proof.
  intros S. inversion S as [m R|e' L O'|e' L O'|e' L O']; subst; (split; [|cbn; lia]); [lia| | |]; pose proof (le_value_range e' O') as Q; unfold len in Q; rewrite L in Q; cbn in Q; lia.
Qed.
Lemma exactly_bytes n : - 2 ^ 63 <= n < 2 ^ 63 -> exactly (ReadBytes n) (fun e x => len e = n /\ x = nilify e).
Proof.
  intros B pre rest F O x b. pose proof (room_fits _ _ F) as F'.
  destruct (Z_lt_ge_dec n (2 ^ 62)) as [H|H]; [destruct (Z_lt_ge_dec n 0) as [N|N]|].
  2: { destruct (ReadBytes_any pre rest n F' O ltac:(lia)) as [(e & t & -> & L & ->)|[L ->]].
       - split.
         + intros E. assert (nilify e = x /\ rbuf (pre ++ e) t = b) as [<- <-] by (split; congruence). exists e, t. auto.
         + intros (e' & t' & E & -> & L' & ->). apply app_inj_len in E; [|unfold len in *; lia]. destruct E as [-> ->]. reflexivity.
       - split; [discriminate|]. intros (e' & t' & -> & _ & L' & _). rewrite len_app in L. pose proof (len_nonneg t'). lia. }
  all: split; [|intros (e' & t' & -> & _ & L' & _); unfold room in F; rewrite !len_app in F; pose proof (len_nonneg pre); pose proof (len_nonneg t'); pose proof (len_nonneg e'); lia].
  all: unfold ReadBytes; replace (n =? 0) with false by lia; destruct (check _ _); [|discriminate]; replace (make_ok n 1) with false by (unfold make_ok; lia); discriminate.
Qed.
Lemma i64_len n k : 0 <= n < 2 ^ 64 -> 0 <= k -> i64 n = k -> n = k /\ n < 2 ^ 63.
Proof. intros R K E. unfold i64 in E. cbv zeta in E. Z.div_mod_to_equations. lia. Qed.
Lemma exactly_varbytes : exactly ReadVarBytes (fun e x => exists s, sized e s /\ x = nilify s).
Proof.
  unfold ReadVarBytes. eapply exactly_iff.
  2: { apply exactly_bind with (G1 := size) (G2 := fun l e x => len e = i64 l /\ x = nilify e); [exact exactly_varint|]. intros ? l _. apply exactly_bytes. apply i64_range. }
  intros e x L O. split.
  - intros (e1 & e2 & l & -> & S & Q & ->). exists e2. split; [|reflexivity]. apply bytes_ok_app in O. constructor; [|tauto].
    pose proof (size_range _ _ S) as [R _]. destruct (i64_len l (len e2) R (len_nonneg e2) (eq_sym Q)) as [-> _]. exact S.
  - intros (s & S & ->). inversion S as [c s' Z0 O']; subst. exists c, s, (len s). split; [reflexivity|]. split; [exact Z0|]. split; [|reflexivity].
    rewrite len_app in L. pose proof (len_nonneg c). pose proof (len_nonneg s). rewrite i64_id; lia.
Qed.
Lemma exactly_n {A} (rd : BM A) G : exactly rd G -> forall n, exactly (read_n n rd) (fun e l => many G e l /\ length l = n).
Proof.
  intros R. induction n as [|n IH]; cbn [read_n].
  - eapply exactly_iff; [|apply exactly_ret]. intros e l _ _. split.
    + intros [-> ->]. split; [constructor|reflexivity].
    + intros [M L]. inversion M; subst; [auto|discriminate].
  - eapply exactly_iff.
    2: { apply exactly_bind with (G1 := G) (G2 := fun x e l => exists e1 e2 xs, e = e1 ++ e2 /\ (many G e1 xs /\ length xs = n) /\ (e2 = [] /\ l = x :: xs)); [exact R|]. intros ? x _. eapply exactly_bind with (G2 := fun xs e l => e = [] /\ l = x :: xs); [exact IH|]. intros ? xs _. apply exactly_ret. }
    intros e l _ _. split.
    + intros (e1 & e2 & x & -> & g & e3 & e4 & xs & -> & [M L] & -> & ->). rewrite app_nil_r. split; [now constructor|cbn; lia].
    + intros [M L]. inversion M as [|e1 x es xs g M']; subst; [discriminate|]. exists e1, es, x. split; [reflexivity|]. split; [exact g|]. exists es, [], xs. rewrite app_nil_r. cbn in L. auto with arith.
Qed.
Lemma many_len {A} (G : bytes -> A -> Prop) k : (forall e x, G e x -> k <= len e) -> forall e l, many G e l -> k * len l <= len e.
Proof.
  intros H. induction 1 as [|e x es xs g M IH]; [unfold len; cbn [length]; lia|]. rewrite len_cons, len_app. specialize (H _ _ g). nia.
Qed.

(** ** Parts of a transaction *)
Lemma sized_len e s : sized e s -> len s < len e.
Proof. intros S. inversion S as [c s' Z0 O']; subst. rewrite len_app. pose proof (size_range _ _ Z0). unfold len in *. lia. Qed.
Lemma word_len n e x : word n e x -> len e = Z.of_nat n.
Proof. intros W. inversion W; subst. unfold len. lia. Qed.
Lemma exactly_in : exactly read_in an_input.
Proof.
  unfold read_in. eapply exactly_iff.
  2: { apply exactly_bind with (G1 := fun e x => len e = 32 /\ x = nilify e) (G2 := fun h e i => exists e1 e2 ix, e = e1 ++ e2 /\ word 4 e1 ix /\ exists e3 e4 u, e2 = e3 ++ e4 /\ (exists s, sized e3 s /\ u = nilify s) /\
         exists e5 e6 sq, e4 = e5 ++ e6 /\ word 4 e5 sq /\ e6 = [] /\ i = MkIn (nilb h) ix 0 sq [] None [] None [] [] (nilb u)); [apply exactly_bytes; lia|]. intros ? h _.
       apply exactly_bind with (G2 := fun ix e2 i => exists e3 e4 u, e2 = e3 ++ e4 /\ (exists s, sized e3 s /\ u = nilify s) /\
         exists e5 e6 sq, e4 = e5 ++ e6 /\ word 4 e5 sq /\ e6 = [] /\ i = MkIn (nilb h) ix 0 sq [] None [] None [] [] (nilb u)); [apply exactly_fixed, fixed_ReadU32|]. intros ? ix _.
       apply exactly_bind with (G1 := fun e x => exists s, sized e s /\ x = nilify s) (G2 := fun u e4 i => exists e5 e6 sq, e4 = e5 ++ e6 /\ word 4 e5 sq /\ e6 = [] /\ i = MkIn (nilb h) ix 0 sq [] None [] None [] [] (nilb u)); [exact exactly_varbytes|]. intros ? u _.
       apply exactly_bind with (G2 := fun sq e6 i => e6 = [] /\ i = MkIn (nilb h) ix 0 sq [] None [] None [] [] (nilb u)); [apply exactly_fixed, fixed_ReadU32|]. intros ? sq _. apply exactly_ret. }
  intros e i _ O. split.
  - intros (h & r & x & -> & [L ->] & a & r2 & ix & -> & W1 & u & r3 & x2 & -> & (s & S & ->) & b & r4 & sq & -> & W2 & -> & ->). rewrite !nilb_nilify, app_nil_r. apply bytes_ok_app in O.
    apply (input_of h a ix u s b sq); try tauto. unfold len in L. lia.
  - intros I. inversion I as [h a ix u s b sq L Oh W1 S W2]; subst. exists h, (a ++ u ++ b), (nilify h). split; [reflexivity|]. split; [split; [unfold len; lia|reflexivity]|].
    exists a, (u ++ b), ix. split; [reflexivity|]. split; [exact W1|]. exists u, b, (nilify s). split; [reflexivity|]. split; [now exists s|]. exists b, [], sq. rewrite app_nil_r, !nilb_nilify. auto.
Qed.
Lemma exactly_out : exactly read_out an_output.
Proof.
  unfold read_out. eapply exactly_iff.
  2: { apply exactly_bind with (G2 := fun v e o => exists e1 e2 u, e = e1 ++ e2 /\ (exists s, sized e1 s /\ u = nilify s) /\ e2 = [] /\ o = MkOut v (nilb u)); [apply exactly_fixed, fixed_ReadU64|]. intros ? v _.
       apply exactly_bind with (G2 := fun u e2 o => e2 = [] /\ o = MkOut v (nilb u)); [exact exactly_varbytes|]. intros ? u _. apply exactly_ret. }
  intros e o _ _. split.
  - intros (a & r & v & -> & W & u & r2 & x & -> & (s & S & ->) & -> & ->). rewrite nilb_nilify, app_nil_r. now constructor.
  - intros I. inversion I as [a v u s W S]; subst. exists a, u, v. split; [reflexivity|]. split; [exact W|]. exists u, [], (nilify s). rewrite app_nil_r, nilb_nilify. split; [reflexivity|]. split; [now exists s|]. auto.
Qed.
Lemma exactly_item : exactly read_item sized.
Proof.
  unfold read_item. eapply exactly_iff.
  2: { apply exactly_bind with (G2 := fun u e2 o => e2 = [] /\ o = nilb u); [exact exactly_varbytes|]. intros ? u _. apply exactly_ret. }
  intros e o _ _. split.
  - intros (u & r2 & x & -> & (s & S & ->) & -> & ->). now rewrite nilb_nilify, app_nil_r.
  - intros S. exists e, [], (nilify o). rewrite app_nil_r, nilb_nilify. split; [reflexivity|]. split; [now exists o|]. auto.
Qed.
Lemma counted_reads {A} (rd : BM A) G (k : Z) : exactly rd G -> 1 <= k <= 2 ^ 20 -> (forall e x, G e x -> k <= 32 * len e) ->
  forall n, 0 <= n < 2 ^ 64 -> exactly (do _ <- bmake n k; read_n (Z.to_nat n) rd) (fun e l => many G e l /\ len l = n).
Proof.
  intros R K Hk n Hn. apply exactly_make.
  - eapply exactly_iff; [|apply exactly_n; exact R]. intros e l _ _. unfold len. split; intros [M L]; (split; [exact M|]); lia.
  - intros e l Le [M L]. assert (Q : k * len l <= 32 * len e).
    { clear - M Hk K. induction M as [|e x es xs g M IH]; [unfold len; cbn [length]; lia|]. rewrite len_cons, len_app. specialize (Hk _ _ g). nia. }
    subst n. unfold make_ok. pose proof (len_nonneg l). lia.
Qed.
Lemma many_none {A} (G : bytes -> A -> Prop) f l : many G f l -> len l = 0 -> f = [] /\ l = [].
Proof. intros M L. inversion M; subst; [auto|]. rewrite len_cons in L. pose proof (len_nonneg xs). lia. Qed.
Lemma counted_iff {A} (G : bytes -> A -> Prop) e l : (exists e1 e2 n, e = e1 ++ e2 /\ size e1 n /\ many G e2 l /\ len l = n) <-> counted G e l.
Proof.
  split.
  - intros (e1 & e2 & n & -> & S & M & <-). now constructor.
  - intros C. inversion C as [c f l' S M]; subst. exists c, f, (len l). auto.
Qed.
Lemma exactly_list {A} (rd : BM A) G : exactly rd G -> (forall e x, G e x -> 9 <= len e) ->
  exactly (do n <- ReadVarInt; if 0 <? n then do _ <- bmake n 8; read_n (Z.to_nat (i64 n)) rd else bret []) (counted G).
Proof.
  intros R H. eapply exactly_iff; [intros e l _ _; apply counted_iff|].
  apply exactly_bind with (G1 := size) (G2 := fun n e l => many G e l /\ len l = n); [exact exactly_varint|]. intros c n S. apply size_range in S. destruct S as [S _]. destruct (0 <? n) eqn:N.
  - destruct (Z_lt_ge_dec n (2 ^ 63)) as [B|B].
    + rewrite i64_id by lia. apply (counted_reads rd G 8 R); [lia|intros e x g; specialize (H e x g); lia|lia].
    + intros pre rest F O x b. unfold bbind, bmake. replace (make_ok n 8) with false by (unfold make_ok; lia). split; [discriminate|]. intros (e & t & -> & _ & M & L).
      pose proof (many_len G 9 H _ _ M). unfold room in F. rewrite !len_app in F. pose proof (len_nonneg pre). pose proof (len_nonneg t). lia.
  - assert (n = 0) by lia. subst n. eapply exactly_iff; [|apply exactly_ret]. intros e l _ _. split.
    + intros [-> ->]. split; [constructor|reflexivity].
    + intros [M L]. now apply many_none in M.
Qed.
Lemma exactly_ins : exactly (read_ins []) (counted an_input).
Proof.
  apply exactly_list; [exact exactly_in|]. intros e x I. inversion I as [h a ix u s b sq L Oh W1 S W2]; subst. rewrite !len_app. apply word_len in W1, W2. apply sized_len in S. pose proof (len_nonneg s). unfold len at 1. lia.
Qed.
Lemma exactly_outs : exactly (read_outs []) (counted an_output).
Proof.
  apply exactly_list; [exact exactly_out|]. intros e x I. inversion I as [a v u s W S]; subst. rewrite !len_app. apply word_len in W. apply sized_len in S. pose proof (len_nonneg s). lia.
Qed.
Lemma exactly_stack i : exactly (read_witness i) (fun e j => exists ws, counted sized e ws /\ j = with_witness ws i).
Proof.
  unfold read_witness. eapply exactly_iff.
  2: { apply exactly_bind with (G1 := size) (G2 := fun n e j => exists e1 e2 ws, e = e1 ++ e2 /\ (many sized e1 ws /\ len ws = n) /\ e2 = [] /\ j = with_witness ws i); [exact exactly_varint|]. intros c n S. apply size_range in S. destruct S as [S _].
       apply exactly_make.
       - apply exactly_bind with (G1 := fun e l => many sized e l /\ len l = n) (G2 := fun ws e j => e = [] /\ j = with_witness ws i); [|intros ? ws _; apply exactly_ret].
         eapply exactly_iff; [|apply exactly_n; exact exactly_item]. intros e l _ _. unfold len. split; intros [M L]; (split; [exact M|]); lia.
       - intros e j Le (e1 & e2 & ws & -> & [M L] & -> & _). rewrite app_nil_r in Le.
         assert (Q : 1 * len ws <= len e1) by (apply (many_len sized); [|exact M]; intros e x Q; apply sized_len in Q; pose proof (len_nonneg x); lia). unfold make_ok. lia. }
  intros e j _ _. split.
  - intros (c & r & n & -> & S & e1 & e2 & ws & -> & [M L] & -> & ->). exists ws. rewrite app_nil_r. split; [|reflexivity]. apply counted_iff. exists c, e1, n. auto.
  - intros (ws & C & ->). apply counted_iff in C. destruct C as (c & f & n & -> & S & M & L). exists c, f, n. split; [reflexivity|]. split; [exact S|]. exists f, [], ws. rewrite app_nil_r. auto.
Qed.
Definition fresh_in (i : TxIn) : Prop := exists h ix sq u ws, i = arrived h ix sq u ws.
Lemma exactly_stacks l : Forall fresh_in l -> exactly (read_each read_witness l) (fun e l' => witnesses e l l').
Proof.
  induction 1 as [|i l (h & ix & sq & u & old & ->) _ IH]; cbn [read_each].
  - eapply exactly_iff; [|apply exactly_ret]. intros e l' _ _. split; [intros [-> ->]; constructor|]. intros W. inversion W; auto.
  - eapply exactly_iff.
    2: { apply exactly_bind with (G1 := fun e j => exists ws, counted sized e ws /\ j = with_witness ws (arrived h ix sq u old)) (G2 := fun x e l' => exists e1 e2 xs, e = e1 ++ e2 /\ witnesses e1 l xs /\ e2 = [] /\ l' = x :: xs); [apply exactly_stack|]. intros ? x _.
         apply exactly_bind with (G1 := fun e l' => witnesses e l l') (G2 := fun xs e2 l' => e2 = [] /\ l' = x :: xs); [exact IH|]. intros ? xs _. apply exactly_ret. }
    intros e l' _ _. split.
    + intros (e1 & r & x & -> & (ws & C & ->) & e2 & e3 & xs & -> & W & -> & ->). rewrite app_nil_r. now constructor.
    + intros W. inversion W as [|e1 ws h' ix' sq' u' old' es l0 xs C W']; subst. exists e1, es, (arrived h ix sq u ws). split; [reflexivity|]. split; [now exists ws|]. exists es, [], xs. rewrite app_nil_r. auto.
Qed.
Lemma inputs_fresh e l : counted an_input e l -> Forall fresh_in l.
Proof.
  intros C. inversion C as [c f l' S M]; subst. clear C S. induction M as [|e x es xs I M IH]; constructor; [|exact IH]. inversion I; subst. unfold fresh_in. eauto 10.
Qed.

Lemma exactly_legacy : exactly dec_legacy legacy_tx.
Proof.
  unfold dec_legacy. eapply exactly_iff.
  2: { apply exactly_bind with (G2 := fun v e t => exists i r ins, e = i ++ r /\ counted an_input i ins /\ exists o r2 outs, r = o ++ r2 /\ counted an_output o outs /\ exists b r3 lt, r2 = b ++ r3 /\ word 4 b lt /\ r3 = [] /\ t = MkTx v lt ins outs None None None); [apply exactly_fixed, fixed_ReadU32|]. intros ? v _.
       apply exactly_bind with (G2 := fun ins r t => exists o r2 outs, r = o ++ r2 /\ counted an_output o outs /\ exists b r3 lt, r2 = b ++ r3 /\ word 4 b lt /\ r3 = [] /\ t = MkTx v lt ins outs None None None); [exact exactly_ins|]. intros ? ins _.
       apply exactly_bind with (G2 := fun outs r2 t => exists b r3 lt, r2 = b ++ r3 /\ word 4 b lt /\ r3 = [] /\ t = MkTx v lt ins outs None None None); [exact exactly_outs|]. intros ? outs _.
       apply exactly_bind with (G2 := fun lt r3 t => r3 = [] /\ t = MkTx v lt ins outs None None None); [apply exactly_fixed, fixed_ReadU32|]. intros ? lt _. apply exactly_ret. }
  intros e t _ _. split.
  - intros (a & r & v & -> & W1 & i & r1 & ins & -> & I & o & r2 & outs & -> & U & b & r3 & lt & -> & W2 & -> & ->). rewrite app_nil_r. now constructor.
  - intros L. inversion L as [a v i ins o outs b lt W1 I U W2]; subst. exists a, (i ++ o ++ b), v. split; [reflexivity|]. split; [exact W1|]. exists i, (o ++ b), ins. split; [reflexivity|]. split; [exact I|].
    exists o, b, outs. split; [reflexivity|]. split; [exact U|]. exists b, [], lt. rewrite app_nil_r. auto.
Qed.
Lemma exactly_bip144 : exactly dec_bip144 witness_tx.
Proof.
  unfold dec_bip144. eapply exactly_iff.
  2: { apply exactly_bind with (G2 := fun v e t => exists m r0 mv, e = m ++ r0 /\ (m = [mv] /\ is_byte mv) /\ (mv =? 0) = true /\ exists f r1 fv, r0 = f ++ r1 /\ (f = [fv] /\ is_byte fv) /\ (fv =? 1) = true /\
           exists i r ins, r1 = i ++ r /\ counted an_input i ins /\ exists o r2 outs, r = o ++ r2 /\ counted an_output o outs /\ exists w r4 ins', r2 = w ++ r4 /\ witnesses w ins ins' /\ exists b r3 lt, r4 = b ++ r3 /\ word 4 b lt /\ r3 = [] /\ t = MkTx v lt ins' outs None None None); [apply exactly_fixed, fixed_ReadU32|]. intros ? v _.
       apply exactly_bind with (G2 := fun mv r0 t => (mv =? 0) = true /\ exists f r1 fv, r0 = f ++ r1 /\ (f = [fv] /\ is_byte fv) /\ (fv =? 1) = true /\
           exists i r ins, r1 = i ++ r /\ counted an_input i ins /\ exists o r2 outs, r = o ++ r2 /\ counted an_output o outs /\ exists w r4 ins', r2 = w ++ r4 /\ witnesses w ins ins' /\ exists b r3 lt, r4 = b ++ r3 /\ word 4 b lt /\ r3 = [] /\ t = MkTx v lt ins' outs None None None); [exact exactly_U8|]. intros ? mv _.
       apply exactly_assert. apply exactly_bind with (G2 := fun fv r1 t => (fv =? 1) = true /\
           exists i r ins, r1 = i ++ r /\ counted an_input i ins /\ exists o r2 outs, r = o ++ r2 /\ counted an_output o outs /\ exists w r4 ins', r2 = w ++ r4 /\ witnesses w ins ins' /\ exists b r3 lt, r4 = b ++ r3 /\ word 4 b lt /\ r3 = [] /\ t = MkTx v lt ins' outs None None None); [exact exactly_U8|]. intros ? fv _.
       apply exactly_assert. apply exactly_bind with (G2 := fun ins r t => exists o r2 outs, r = o ++ r2 /\ counted an_output o outs /\ exists w r4 ins', r2 = w ++ r4 /\ witnesses w ins ins' /\ exists b r3 lt, r4 = b ++ r3 /\ word 4 b lt /\ r3 = [] /\ t = MkTx v lt ins' outs None None None); [exact exactly_ins|]. intros ? ins Hi.
       apply exactly_bind with (G2 := fun outs r2 t => exists w r4 ins', r2 = w ++ r4 /\ witnesses w ins ins' /\ exists b r3 lt, r4 = b ++ r3 /\ word 4 b lt /\ r3 = [] /\ t = MkTx v lt ins' outs None None None); [exact exactly_outs|]. intros ? outs _.
       apply exactly_bind with (G1 := fun e l' => witnesses e ins l') (G2 := fun ins' r4 t => exists b r3 lt, r4 = b ++ r3 /\ word 4 b lt /\ r3 = [] /\ t = MkTx v lt ins' outs None None None); [apply exactly_stacks; now apply inputs_fresh in Hi|]. intros ? ins' _.
       apply exactly_bind with (G2 := fun lt r3 t => r3 = [] /\ t = MkTx v lt ins' outs None None None); [apply exactly_fixed, fixed_ReadU32|]. intros ? lt _. apply exactly_ret. }
  intros e t _ _. split.
  - intros (a & r & v & -> & W1 & m & r0 & mv & -> & [-> _] & Em & f & r1 & fv & -> & [-> _] & Ef & i & r2 & ins & -> & I & o & r3 & outs & -> & U & w & r4 & ins' & -> & Wi & b & r5 & lt & -> & W2 & -> & ->).
    apply Z.eqb_eq in Em, Ef. subst mv fv. rewrite app_nil_r. exact (witness_of a v i ins o outs w ins' b lt W1 I U Wi W2).
  - intros L. inversion L as [a v i ins o outs w ins' b lt W1 I U Wi W2]; subst. exists a, ([0; 1] ++ i ++ o ++ w ++ b), v. split; [reflexivity|]. split; [exact W1|].
    exists [0], ([1] ++ i ++ o ++ w ++ b), 0. split; [reflexivity|]. split; [split; [reflexivity|unfold is_byte; lia]|]. split; [reflexivity|].
    exists [1], (i ++ o ++ w ++ b), 1. split; [reflexivity|]. split; [split; [reflexivity|unfold is_byte; lia]|]. split; [reflexivity|].
    exists i, (o ++ w ++ b), ins. split; [reflexivity|]. split; [exact I|]. exists o, (w ++ b), outs. split; [reflexivity|]. split; [exact U|]. exists w, b, ins'. split; [reflexivity|]. split; [exact Wi|]. exists b, [], lt. rewrite app_nil_r. auto.
Qed.
Lemma exactly_run {A} (rd : BM A) G d x : exactly rd G -> bytes_ok d -> len d <= 2 ^ 43 -> (fst (rd (NewBufferReader d)) = Ok x <-> exists e junk, d = e ++ junk /\ G e x).
Proof.
  intros R O L. change (NewBufferReader d) with (rbuf [] d). assert (F : room [] d) by exact L. split.
  - intros E. destruct (rd (rbuf [] d)) as [r b] eqn:Q. cbn [fst] in E. subst r. apply (R [] d F O) in Q. destruct Q as (e & t & -> & _ & g). now exists e, t.
  - intros (e & t & -> & g). assert (Q : rd (rbuf [] (e ++ t)) = (Ok x, rbuf ([] ++ e) t)) by (apply (R [] _ F O); exists e, t; auto). now rewrite Q.
Qed.
