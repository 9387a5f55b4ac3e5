(** Composing encoders and decoders over the byte buffer. *)
From Verif Require Import GoBase BaseLemmas BufferModel BufferSpec BufferProofs BufferMore.
From Coq Require Import ZifyBool ZifyNat ZifyN.

(** ** Writing: what a call appends. *)
Lemma data_U8 v b : bdata (WriteU8 v b) = bdata b ++ [v]. Proof. reflexivity. Qed.
Lemma data_U16 v b : bdata (WriteU16 v b) = bdata b ++ le_bytes 2 v. Proof. now rewrite WriteU16_spec. Qed.
Lemma data_U32 v b : bdata (WriteU32 v b) = bdata b ++ le_bytes 4 v. Proof. now rewrite WriteU32_spec. Qed.
Lemma data_U64 v b : bdata (WriteU64 v b) = bdata b ++ le_bytes 8 v. Proof. now rewrite WriteU64_spec. Qed.
Lemma data_bytes v b : bdata (WriteBytes v b) = bdata b ++ v. Proof. reflexivity. Qed.
Lemma data_varint v b : 0 <= v < 2 ^ 64 -> bdata (WriteVarInt v b) = bdata b ++ varint_bytes v.
Proof. intros. now rewrite WriteVarInt_spec. Qed.
Lemma data_count {A} (l : list A) b : len l < 2 ^ 64 -> bdata (WriteVarInt (u64 (len l)) b) = bdata b ++ varint_bytes (len l).
Proof. intros. pose proof (len_nonneg l). rewrite u64_id by lia. now rewrite data_varint by lia. Qed.
Definition varbytes (v : bytes) : bytes := varint_bytes (len v) ++ v.
Lemma data_varbytes v b : len v < 2 ^ 64 -> bdata (WriteVarBytes v b) = bdata b ++ varbytes v.
Proof. intros. now rewrite WriteVarBytes_spec. Qed.
Lemma data_fold {A} (w : buffer -> A -> buffer) (enc : A -> bytes) l : Forall (fun x => forall b, bdata (w b x) = bdata b ++ enc x) l ->
  forall b, bdata (fold_left w l b) = bdata b ++ concat (map enc l).
Proof.
  induction 1 as [|x l Hx _ IH]; intros b; cbn [fold_left map concat]; [now rewrite app_nil_r|]. rewrite IH, Hx. now rewrite app_assoc.
Qed.

(** ** Reading what was written. *)
Definition reads {A} (rd : BM A) (e : bytes) (x : A) : Prop :=
  forall pre rest, fits pre (e ++ rest) -> rd (rbuf pre (e ++ rest)) = (Ok x, rbuf (pre ++ e) rest).

Lemma reads_ret {A} (x : A) : reads (bret x) [] x.
Proof. intros pre rest F. unfold bret. now rewrite app_nil_r. Qed.
Lemma reads_bind {A B} (m : BM A) (f : A -> BM B) e1 e2 x y : reads m e1 x -> reads (f x) e2 y -> reads (bbind m f) (e1 ++ e2) y.
Proof.
  intros R1 R2 pre rest F. unfold bbind. rewrite <- app_assoc in *. rewrite R1 by exact F. rewrite R2 by now apply fits_shift. now rewrite <- app_assoc.
Qed.
(** The last step of a decoder. *)
Lemma reads_last {A B} (m : BM A) (f : A -> BM B) e x y : reads m e x -> (forall b, f x b = (Ok y, b)) -> reads (bbind m f) e y.
Proof. intros R E pre rest F. unfold bbind. rewrite R by exact F. apply E. Qed.
Lemma reads_U8 v : reads ReadU8 [v] v.
Proof. intros pre rest F. now apply ReadU8_cons. Qed.
Lemma reads_U16 v : 0 <= v < 2 ^ 16 -> reads ReadU16 (le_bytes 2 v) v.
Proof. intros H pre rest F. now apply ReadU16_le. Qed.
Lemma reads_U32 v : 0 <= v < 2 ^ 32 -> reads ReadU32 (le_bytes 4 v) v.
Proof. intros H pre rest F. now apply ReadU32_le. Qed.
Lemma reads_U64 v : 0 <= v < 2 ^ 64 -> reads ReadU64 (le_bytes 8 v) v.
Proof. intros H pre rest F. now apply ReadU64_le. Qed.
Lemma reads_varint v : 0 <= v < 2 ^ 64 -> reads ReadVarInt (varint_bytes v) v.
Proof. intros H pre rest F. now apply ReadVarInt_varint. Qed.
Lemma reads_bytes v n : len v = n -> reads (ReadBytes n) v (nilify v).
Proof. intros <- pre rest F. now apply ReadBytes_app. Qed.
Lemma reads_varbytes v : reads ReadVarBytes (varbytes v) (nilify v).
Proof. intros pre rest F. now apply ReadVarBytes_app. Qed.

(** A decoder is a function: two encodings that are prefixes of one string denote the same value. *)
Lemma reads_inj {A} (rd : BM A) e1 e2 x y r1 r2 : reads rd e1 x -> reads rd e2 y -> len (e1 ++ r1) <= 2 ^ 48 ->
  e1 ++ r1 = e2 ++ r2 -> x = y /\ e1 = e2 /\ r1 = r2.
Proof.
  intros R1 R2 L E. pose proof (R1 [] r1 L) as H1. assert (L2 : fits [] (e2 ++ r2)) by (unfold fits; cbn [app]; now rewrite <- E).
  pose proof (R2 [] r2 L2) as H2. cbn [app] in *. rewrite E in H1. rewrite H1 in H2. injection H2 as -> P _ _.
  apply app_inj_len in E; [|unfold len in P; lia]. tauto.
Qed.

(** ** Reading anything at all. *)
Definition tame (Q : bytes -> Prop) {A} (rd : BM A) : Prop := forall pre rest, fits pre rest -> bytes_ok rest ->
  exists r e t, rest = e ++ t /\ rd (rbuf pre rest) = (r, rbuf (pre ++ e) t) /\ (r = Panic -> Q rest).
Definition suffix_closed (Q : bytes -> Prop) : Prop := forall e t, Q t -> Q (e ++ t).
Definition moves {A} (rd : BM A) : Prop := tame (fun _ => True) rd.
Lemma tame_moves Q {A} (rd : BM A) : tame Q rd -> moves rd.
Proof. intros T pre rest F O. destruct (T pre rest F O) as (r & e & t & E & R & _). exists r, e, t. auto. Qed.

Lemma tame_ret Q {A} (x : A) : tame Q (bret x).
Proof. intros pre rest F O. exists (Ok x), [], rest. unfold bret. rewrite app_nil_r. repeat split; easy. Qed.
Lemma tame_fail Q {A} e : tame Q (@bfail A e).
Proof. intros pre rest F O. exists (Err e), [], rest. unfold bfail. rewrite app_nil_r. repeat split; easy. Qed.
Lemma moves_panic {A} : moves (@bpanic A).
Proof. intros pre rest F O. exists Panic, [], rest. unfold bpanic. rewrite app_nil_r. repeat split; easy. Qed.
Lemma tame_bind Q {A B} (m : BM A) (f : A -> BM B) : suffix_closed Q -> tame Q m -> (forall x, tame Q (f x)) -> tame Q (bbind m f).
Proof.
  intros C T1 T2 pre rest F O. destruct (T1 pre rest F O) as (r & e & t & -> & R & P). unfold bbind. rewrite R.
  destruct r as [x|er|].
  - apply bytes_ok_app in O. destruct O as [O1 O2]. destruct (T2 x (pre ++ e) t (fits_shift _ _ _ F) O2) as (r2 & e2 & t2 & -> & R2 & P2).
    exists r2, (e ++ e2), t2. rewrite <- app_assoc. split; [reflexivity|]. split; [rewrite R2; now rewrite <- app_assoc|]. intros X. apply C. auto.
  - exists (Err er), e, t. repeat split; easy.
  - exists Panic, e, t. repeat split; auto.
Qed.
Lemma moves_bind {A B} (m : BM A) (f : A -> BM B) : moves m -> (forall x, moves (f x)) -> moves (bbind m f).
Proof. apply tame_bind. now intros ? ?. Qed.
Lemma tame_fixed Q w rd : fixed_read w rd -> tame Q rd.
Proof.
  intros Hrd pre rest F O. destruct (Hrd pre rest F O) as [(e & t & -> & _ & R)|[_ R]]; rewrite R.
  - exists (Ok (le_value e)), e, t. repeat split; easy.
  - exists (Err "error.seek"), [], rest. rewrite app_nil_r. repeat split; easy.
Qed.
Lemma tame_bytes Q n : 0 <= n < 2 ^ 62 -> tame Q (ReadBytes n).
Proof.
  intros Hn pre rest F O. destruct (ReadBytes_any pre rest n F O Hn) as [(e & t & -> & _ & R)|[_ R]]; rewrite R.
  - exists (Ok (nilify e)), e, t. repeat split; easy.
  - exists (Err "error.seek"), [], rest. rewrite app_nil_r. repeat split; easy.
Qed.
Lemma moves_bytes n : - 2 ^ 63 <= n < 2 ^ 63 -> moves (ReadBytes n).
Proof.
  intros Hn. destruct (Z_lt_ge_dec n (2 ^ 62)) as [H|H]; [destruct (Z_lt_ge_dec n 0)|].
  2: (apply tame_bytes; lia).
  1-2: intros pre rest F O; exists (fst (ReadBytes n (rbuf pre rest))), [], rest; rewrite app_nil_r; split; [reflexivity|]; split; [|easy];
    unfold fits in F; rewrite len_app in F; pose proof (len_nonneg pre); pose proof (len_nonneg rest);
    unfold ReadBytes; replace (n =? 0) with false by lia; destruct (check _ _) eqn:Ck; [|reflexivity];
    replace (make_ok n 1) with false by (unfold make_ok; lia); reflexivity.
Qed.
Lemma tame_varint Q : tame Q ReadVarInt.
Proof.
  intros pre rest F O. destruct (ReadVarInt_any pre rest F O) as [(e & t & v & -> & _ & _ & R)|(e & t & -> & R)]; rewrite R.
  - exists (Ok v), e, t. repeat split; easy.
  - exists (Err "error.seek"), e, t. repeat split; easy.
Qed.

(** A count or length above [lim], written in the nine-byte form, somewhere in the input. *)
Definition hostile (lim : Z) (d : bytes) : Prop := exists a e b, d = a ++ 255 :: e ++ b /\ length e = 8%nat /\ lim < le_value e.
Lemma hostile_suffix lim : suffix_closed (hostile lim).
Proof. intros e t (a & x & b & -> & L & H). exists (e ++ a), x, b. rewrite app_assoc. auto. Qed.
Lemma varint_big pre rest v b' : fits pre rest -> bytes_ok rest -> ReadVarInt (rbuf pre rest) = (Ok v, b') -> 2 ^ 32 <= v ->
  exists e t, rest = 255 :: e ++ t /\ length e = 8%nat /\ le_value e = v.
Proof.
  intros F O. unfold ReadVarInt, bbind. rewrite ReadU8_any by auto. destruct rest as [|x r]; [discriminate|]. apply bytes_ok_cons in O. destruct O as [Hx O].
  assert (F' : fits (pre ++ [x]) r) by (unfold fits in *; now rewrite app_cons_assoc).
  assert (G : forall w rd, fixed_read w rd -> rd (rbuf (pre ++ [x]) r) = (Ok v, b') -> exists e t, r = e ++ t /\ length e = w /\ le_value e = v /\ 0 <= v < 256 ^ Z.of_nat w).
  { intros w rd Hrd E. destruct (Hrd _ _ F' O) as [(e & t & E' & L & R)|[L R]]; rewrite R in E; [|discriminate]. injection E as <- _. exists e, t. split; [exact E'|]. split; [exact L|]. split; [reflexivity|].
    subst r. apply bytes_ok_app in O. destruct O as [O _]. pose proof (le_value_range e O) as HR. unfold len in HR. now rewrite L in HR. }
  destruct (x =? 253) eqn:E1. { intros E Hv. apply (G 2%nat) in E; [|apply fixed_ReadU16]. destruct E as (? & ? & _ & _ & _ & B). change (256 ^ Z.of_nat 2) with (2 ^ 16) in B. lia. }
  destruct (x =? 254) eqn:E2. { intros E Hv. apply (G 4%nat) in E; [|apply fixed_ReadU32]. destruct E as (? & ? & _ & _ & _ & B). change (256 ^ Z.of_nat 4) with (2 ^ 32) in B. lia. }
  destruct (x =? 255) eqn:E3. { intros E Hv. apply (G 8%nat) in E; [|apply fixed_ReadU64]. destruct E as (e & t & -> & L & V & _). exists e, t. replace x with 255 by lia. auto. }
  intros E Hv. injection E as <- _. unfold is_byte in Hx. lia.
Qed.
(** A count followed by something whose panics a small count rules out. *)
Lemma tame_count lim {B} (f : Z -> BM B) : 2 ^ 32 <= lim -> (forall v, 0 <= v <= lim -> tame (hostile lim) (f v)) ->
  (forall v, 0 <= v < 2 ^ 64 -> moves (f v)) -> tame (hostile lim) (bbind ReadVarInt f).
Proof.
  intros Hl T M pre rest F O. destruct (ReadVarInt_any pre rest F O) as [(e & t & v & E & _ & Hv & R)|(e & t & E & R)].
  - unfold bbind. rewrite R. pose proof O as O'. rewrite E in O'. apply bytes_ok_app in O'. destruct O' as [O1 O2].
    assert (F2 : fits (pre ++ e) t) by (apply fits_shift; now rewrite <- E).
    destruct (Z_le_gt_dec v lim) as [Sm|Bg].
    + destruct (T v (conj (proj1 Hv) Sm) (pre ++ e) t F2 O2) as (r2 & e2 & t2 & -> & R2 & P2). exists r2, (e ++ e2), t2. rewrite <- !app_assoc. split; [exact E|].
      split; [rewrite R2; now rewrite <- app_assoc|]. intros X. rewrite E. apply hostile_suffix. auto.
    + destruct (M v Hv (pre ++ e) t F2 O2) as (r2 & e2 & t2 & -> & R2 & _). exists r2, (e ++ e2), t2. rewrite <- !app_assoc. split; [exact E|].
      split; [rewrite R2; now rewrite <- app_assoc|]. intros _. destruct (varint_big pre rest v _ F O R ltac:(lia)) as (x & y & -> & L & V).
      exists [], x, y. split; [reflexivity|]. split; [exact L|]. lia.
  - exists (Err "error.seek"), e, t. unfold bbind. rewrite R. repeat split; easy.
Qed.
Lemma tame_varbytes lim : 2 ^ 32 <= lim < 2 ^ 62 -> tame (hostile lim) ReadVarBytes.
Proof.
  intros Hl. unfold ReadVarBytes. apply tame_count; [lia| |].
  - intros v Hv. rewrite i64_id by lia. apply tame_bytes. lia.
  - intros v Hv. apply moves_bytes. pose proof (i64_range v). lia.
Qed.
