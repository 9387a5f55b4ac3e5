(** Message encodings: layout, reading back, sizes. *)
From Verif Require Import GoBase BaseLemmas BufferModel BufferSpec BufferProofs BufferMore Codec TxModel TxProofs ProtoModel ProtoSpec.

Lemma le_is n v : le n v = le_bytes n v. 
Proof.
  revert v. induction n as [|n IH]; intros v; [reflexivity|]. cbn [le_bytes]. rewrite <- IH. unfold le. cbn [seq map]. f_equal; [now rewrite Z.div_1_r|].
  rewrite <- seq_shift, map_map. apply map_ext. intros i. rewrite Nat2Z.inj_succ, Z.pow_succ_r by lia. now rewrite Z.div_div by lia.
Qed.
Lemma compact_is n : 0 <= n < 2 ^ 64 -> compact n = varint_bytes n.
Proof.
  intros H. unfold compact, varint_bytes. change 0xfd with 253. change 0xffff with 65535. change 0xffffffff with 4294967295. change (2 ^ 16) with 65536. change (2 ^ 32) with 4294967296.
  rewrite !le_is. destruct (n <? 253) eqn:E1; [reflexivity|]. destruct (n <? 65536) eqn:E2, (n <=? 65535) eqn:E3; try lia; try reflexivity.
  destruct (n <? 4294967296) eqn:E4, (n <=? 4294967295) eqn:E5; try lia; reflexivity.
Qed.
Lemma zlist_eqb a b : list_Z_eqb a b = true <-> a = b.
Proof.
  revert b. induction a as [|x a IH]; destruct b as [|y b]; cbn [list_Z_eqb]; try (split; [discriminate|discriminate]); [tauto|].
  rewrite andb_true_iff, Z.eqb_eq, IH. split; [intros [-> ->]; reflexivity|intros E; injection E; auto].
Qed.
Lemma has_hash_iff c : has_hash c = true <-> about_hash c.
Proof. unfold has_hash, about_hash. now rewrite orb_true_iff, !zlist_eqb. Qed.

Ltac tauto_hash := match goal with
  | I : _ \/ _ \/ False |- _ \/ _ => destruct I as [<-|[<-|[]]]; [left|right]; reflexivity
  | I : _ \/ _ |- _ \/ _ \/ False => destruct I as [->| ->]; [left|right; left]; reflexivity
  end.
(** ** Layout. *)
Definition version_len_ok (v : MsgVersion) : Prop := len (mv_agent v) < 2 ^ 64.
Lemma write_version_layout v : len (mv_agent v) < 2 ^ 64 -> Bytes (write_version v NewBuffer) = version_layout port_le v.
Proof.
  intros H. unfold Bytes, write_version, WriteVarString, version_layout, port_le. rewrite data_U8, data_U32, data_varbytes by exact H.
  rewrite !data_U64, data_U16, data_bytes, data_U64, data_U16, data_bytes, !data_U64, data_U32. rewrite !le_is, compact_is by (pose proof (len_nonneg (mv_agent v)); lia).
  unfold varbytes. cbn [bdata NewBuffer]. rewrite <- !app_assoc. reflexivity.
Qed.
Lemma write_inv_data b i : bdata (write_inv b i) = bdata b ++ inv_layout i.
Proof. unfold write_inv, inv_layout. now rewrite data_bytes, data_U32, le_is, <- app_assoc. Qed.
Lemma write_header_data b h : bdata (write_header b h) = bdata b ++ header_layout h ++ [0].
Proof. unfold write_header, header_layout. rewrite data_U8, !data_U32, !data_bytes, data_U32, !le_is. rewrite <- !app_assoc. reflexivity. Qed.
Lemma write_list_layout {A} (w : buffer -> A -> buffer) (enc : A -> bytes) (l : list A) : (forall b x, bdata (w b x) = bdata b ++ enc x) -> len l < 2 ^ 64 ->
  Bytes (fold_left w l (WriteVarInt (u64 (len l)) NewBuffer)) = compact (len l) ++ concat (map enc l).
Proof.
  intros H L. unfold Bytes. rewrite (data_fold w enc) by (apply Forall_forall; intros; apply H). rewrite data_count by exact L. rewrite compact_is by (pose proof (len_nonneg l); lia). reflexivity.
Qed.
Lemma settle_with m : settle m = with_locator m.
Proof. destruct m; try reflexivity. destruct g as [v l s]. cbn [settle settle_gh with_locator gh_locators]. unfold settle_gh. cbn [gh_locators]. destruct l as [|x l]; [reflexivity|]. rewrite len_cons. replace (1 + len l =? 0) with false by (pose proof (len_nonneg l); lia). reflexivity. Qed.
Lemma write_getheaders_layout v l s : len l < 2 ^ 64 -> Bytes (write_getheaders (MkGetHeaders v l s) NewBuffer) = le 4 v ++ compact (len l) ++ concat l ++ s.
Proof.
  intros H. unfold Bytes, write_getheaders. cbn [gh_version gh_locators gh_stop]. rewrite data_bytes, (data_fold _ (fun x : bytes => x)) by (apply Forall_forall; intros; apply data_bytes).
  rewrite data_count by exact H. rewrite data_U32, le_is, map_id, compact_is by (pose proof (len_nonneg l); lia). cbn [bdata NewBuffer app]. now rewrite <- !app_assoc.
Qed.
Lemma write_reject_layout c k r h : len c < 2 ^ 64 -> len r < 2 ^ 64 -> Bytes (write_reject (MkReject c k r h) NewBuffer) = layout port_le (Reject (MkReject c k r h)).
Proof.
  intros Hc Hr. unfold Bytes, write_reject, WriteVarString. cbn [rj_cmd rj_code rj_reason rj_hash layout].
  assert (E : bdata (WriteVarBytes r (WriteU8 k (WriteVarBytes c NewBuffer))) = compact (len c) ++ c ++ [k] ++ compact (len r) ++ r).
  { rewrite data_varbytes, data_U8, data_varbytes by assumption. rewrite !compact_is by (pose proof (len_nonneg c); pose proof (len_nonneg r); lia). unfold varbytes. cbn [bdata NewBuffer app]. now rewrite <- !app_assoc. }
  destruct (in_dec _ c _) as [I|N].
  - replace (has_hash c) with true by (symmetry; apply has_hash_iff; cbn in I; unfold about_hash; tauto_hash). rewrite data_bytes, E. now rewrite <- !app_assoc.
  - replace (has_hash c) with false by (destruct (has_hash c) eqn:X; [|reflexivity]; exfalso; apply N; apply has_hash_iff in X; cbn; unfold about_hash in X; tauto_hash). rewrite E, app_nil_r. reflexivity.
Qed.
(** The strings and lists of a message are shorter than 2^64. *)
Definition in_memory (m : message) : Prop :=
  match m with
  | Version v => len (mv_agent v) < 2 ^ 64
  | Inv l | GetData l => len l < 2 ^ 64
  | GetHeaders g => len (gh_locators g) < 2 ^ 64
  | Headers l => len l < 2 ^ 64
  | Reject r => len (rj_cmd r) < 2 ^ 64 /\ len (rj_reason r) < 2 ^ 64
  | _ => True
  end.
Lemma encode_layout m : in_memory m -> Encode m = layout port_le (with_locator m).
Proof.
  destruct m; cbn [in_memory]; intros H; try reflexivity.
  - now apply write_version_layout.
  - cbn [Encode with_locator layout]. apply write_list_layout; [exact write_inv_data|exact H].
  - cbn [Encode with_locator layout]. apply write_list_layout; [exact write_inv_data|exact H].
  - rewrite <- settle_with. cbn [Encode settle]. destruct g as [v l s]. unfold settle_gh. cbn [gh_locators] in *. destruct (len l =? 0) eqn:E.
    + unfold AddBlockLocatorHash. cbn [gh_version gh_locators gh_stop]. apply write_getheaders_layout. rewrite len_app. unfold len in *. cbn [length]. lia.
    + now apply write_getheaders_layout.
  - cbn [Encode with_locator layout]. apply write_list_layout; [exact write_header_data|exact H].
  - cbn [Encode with_locator layout]. unfold Bytes. now rewrite data_U64, le_is.
  - cbn [Encode with_locator layout]. unfold Bytes. now rewrite data_U64, le_is.
  - destruct r as [c k rs h]. destruct H as [Hc Hr]. cbn [Encode with_locator]. now apply write_reject_layout.
Qed.

(** ** Reading back. *)
Lemma reads_rbytes v n : len v = n -> reads (read_bytes n) v v.
Proof. intros H. unfold read_bytes. eapply reads_last; [now apply reads_bytes|]. intros b. now rewrite nilb_nilify. Qed.
Lemma reads_varstring v : reads ReadVarString (varbytes v) v.
Proof. unfold ReadVarString. eapply reads_last; [apply reads_varbytes|]. intros b. now rewrite nilb_nilify. Qed.
Lemma run_reads {A} (rd : BM A) e x : reads rd e x -> len e <= 2 ^ 48 -> run rd e = Ok x.
Proof. intros R L. unfold run. rewrite NewBufferReader_rbuf. pose proof (R [] []) as H. rewrite app_nil_r in H. rewrite H; [reflexivity|]. exact L. Qed.
Lemma len_of {A} (l : list A) n : length l = n -> len l = Z.of_nat n. Proof. intros <-. reflexivity. Qed.
Lemma reads_version v : version_ok v -> len (mv_agent v) < 2 ^ 64 -> reads read_version (version_layout port_le v) v.
Proof.
  unfold version_ok, fits_in. intros (H1 & H2 & H3 & H4 & H5 & H6 & H7 & H8 & H9 & H10 & H11 & H12) L. destruct v as [ve se ti sy ay py sm am pm no ua la re]. cbn [mv_version mv_services mv_time mv_services_you mv_addr_you mv_port_you mv_services_me mv_addr_me mv_port_me mv_nonce mv_agent mv_last mv_relay] in *.
  unfold version_layout, read_version, port_le. cbn [mv_version mv_services mv_time mv_services_you mv_addr_you mv_port_you mv_services_me mv_addr_me mv_port_me mv_nonce mv_agent mv_last mv_relay].
  rewrite !le_is, compact_is by (pose proof (len_nonneg ua); lia).
  eapply reads_bind; [now apply reads_U32|]. eapply reads_bind; [now apply reads_U64|]. eapply reads_bind; [now apply reads_U64|]. eapply reads_bind; [now apply reads_U64|].
  eapply reads_bind; [now apply reads_rbytes, (len_of _ 16)|]. eapply reads_bind; [now apply reads_U16|]. eapply reads_bind; [now apply reads_U64|]. eapply reads_bind; [now apply reads_rbytes, (len_of _ 16)|].
  eapply reads_bind; [now apply reads_U16|]. eapply reads_bind; [now apply reads_U64|]. rewrite app_assoc. eapply reads_bind; [apply reads_varstring|]. eapply reads_bind; [now apply reads_U32|].
  eapply reads_last; [apply reads_U8|]. reflexivity.
Qed.
Lemma reads_inv i : inv_ok i -> reads read_inv (inv_layout i) i.
Proof. intros [H1 H2]. destruct i as [t h]. unfold read_inv, inv_layout. cbn [iv_type iv_hash] in *. rewrite le_is. eapply reads_bind; [now apply reads_U32|]. eapply reads_last; [now apply reads_rbytes, (len_of _ 32)|]. reflexivity. Qed.
Lemma reads_header h : header_ok h -> reads read_header (header_layout h ++ [0]) h.
Proof.
  intros (H1 & H2 & H3 & H4 & H5 & H6). destruct h as [v p m t b n]. unfold read_header, header_layout. cbn [bh_version bh_prev bh_merkle bh_time bh_bits bh_nonce] in *. rewrite !le_is. rewrite <- !app_assoc.
  eapply reads_bind; [now apply reads_U32|]. eapply reads_bind; [now apply reads_rbytes, (len_of _ 32)|]. eapply reads_bind; [now apply reads_rbytes, (len_of _ 32)|]. do 3 (eapply reads_bind; [now apply reads_U32|]). eapply reads_last; [apply reads_U8|]. reflexivity.
Qed.
Lemma reads_list {A} (rd : BM A) (enc : A -> bytes) (l : list A) : Forall (fun x => reads rd (enc x) x) l -> reads (read_n (length l) rd) (concat (map enc l)) l.
Proof. intros H. rewrite <- (map_id l) at 3. now apply (reads_n rd enc (fun x => x)). Qed.
Lemma to_nat_len {A} (l : list A) : len l < 2 ^ 63 -> Z.to_nat (i64 (len l)) = length l.
Proof. intros H. pose proof (len_nonneg l). rewrite i64_id by lia. unfold len. lia. Qed.
Lemma reads_invs l : Forall inv_ok l -> len l <= 50000 -> reads (read_invs []) (compact (len l) ++ concat (map inv_layout l)) l.
Proof.
  intros H L. unfold read_invs. pose proof (len_nonneg l). rewrite compact_is by lia. eapply reads_bind; [apply reads_varint; lia|].
  replace (MaxInvPerMsg <? len l) with false by (unfold MaxInvPerMsg; lia). rewrite to_nat_len by lia. eapply reads_last; [apply reads_list; eapply Forall_impl; [|exact H]; exact reads_inv|]. reflexivity.
Qed.
Lemma reads_headers l : Forall header_ok l -> len l < 2 ^ 63 -> reads (read_headers []) (compact (len l) ++ concat (map (fun h => header_layout h ++ [0]) l)) l.
Proof.
  intros H L. unfold read_headers. pose proof (len_nonneg l). rewrite compact_is by lia. eapply reads_bind; [apply reads_varint; lia|].
  rewrite to_nat_len by lia. eapply reads_last; [apply (reads_list read_header (fun h => header_layout h ++ [0])); eapply Forall_impl; [|exact H]; exact reads_header|]. reflexivity.
Qed.
(** The decoder stops before the stop hash. *)
Lemma reads_getheaders g0 v l : fits_in 32 v -> Forall hash_ok l -> len l < 2 ^ 63 ->
  reads (read_getheaders g0) (le 4 v ++ compact (len l) ++ concat l) (MkGetHeaders v (gh_locators g0 ++ l) (gh_stop g0)).
Proof.
  intros Hv H L. unfold read_getheaders. pose proof (len_nonneg l). rewrite le_is, compact_is by lia. eapply reads_bind; [now apply reads_U32|]. eapply reads_bind; [apply reads_varint; lia|].
  rewrite to_nat_len by lia. eapply reads_last; [|reflexivity]. rewrite <- (map_id l) at 2. apply reads_list. eapply Forall_impl; [|exact H]. intros h Hh. now apply reads_rbytes, (len_of _ 32).
Qed.
Lemma reads_reject c k r h : reject_ok (MkReject c k r h) -> len c < 2 ^ 64 -> len r < 2 ^ 64 -> reads (read_reject empty_reject) (layout port_le (Reject (MkReject c k r h))) (MkReject c k r h).
Proof.
  intros (H1 & H2 & H3) Lc Lr. cbn [rj_cmd rj_code rj_hash] in *. cbn [layout]. pose proof (len_nonneg c). pose proof (len_nonneg r). rewrite !compact_is by lia. unfold read_reject.
  rewrite app_assoc. eapply reads_bind; [apply reads_varstring|]. eapply reads_bind; [apply reads_U8|]. rewrite app_assoc. eapply reads_bind; [apply reads_varstring|].
  destruct (in_dec _ c _) as [I|N].
  - assert (A : about_hash c) by (cbn in I; unfold about_hash; tauto_hash). rewrite (proj2 (has_hash_iff c) A). eapply reads_last; [apply reads_rbytes, (len_of _ 32), (H2 A)|]. reflexivity.
  - assert (A : ~ about_hash c) by (intros A; apply N; cbn; unfold about_hash in A; tauto_hash). destruct (has_hash c) eqn:E; [exfalso; apply A; now apply has_hash_iff|].
    rewrite (H3 A). apply reads_ret.
Qed.
(** A prefix that is read leaves the rest unread. *)
Lemma run_reads_more {A} (rd : BM A) e x r : reads rd e x -> len (e ++ r) <= 2 ^ 48 -> run rd (e ++ r) = Ok x.
Proof. intros R L. unfold run. rewrite NewBufferReader_rbuf. rewrite (R [] r); [reflexivity|]. exact L. Qed.

Lemma concat_ge {A} (enc : A -> bytes) k l : (forall x, k <= len (enc x)) -> k * len l <= len (concat (map enc l)).
Proof. intros H. induction l as [|x l IH]; cbn [map concat]; [unfold len; cbn; lia|]. rewrite len_cons, len_app. specialize (H x). lia. Qed.
Lemma compact_len n : 0 <= n < 2 ^ 64 -> 1 <= len (compact n). Proof. intros H. rewrite compact_is by exact H. rewrite varint_len. unfold VarIntSerializeSize. repeat match goal with |- context[if ?c then _ else _] => destruct c end; lia. Qed.
Lemma message_roundtrip m : msg_ok m -> in_memory m -> len (Encode m) <= 2 ^ 48 -> Decode (fresh m) (Encode m) = Ok (with_locator m).
Proof.
  intros Ok_ M L. rewrite (encode_layout m M) in *. destruct m; cbn [msg_ok in_memory fresh with_locator layout Decode] in *; try reflexivity.
  - rewrite (run_reads _ _ v); [reflexivity|now apply reads_version|exact L].
  - destruct Ok_ as [H C]. rewrite (run_reads _ _ l); [reflexivity|now apply reads_invs|exact L].
  - destruct Ok_ as [H C]. rewrite (run_reads _ _ l); [reflexivity|now apply reads_invs|exact L].
  - destruct g as [v l s]. cbn [gh_version gh_locators gh_stop] in *. destruct Ok_ as (H1 & H2 & ->).
    set (l' := match l with [] => [repeat 0 32] | _ => l end).
    assert (E : match l with [] => GetHeaders (MkGetHeaders v [repeat 0 32] (repeat 0 32)) | _ :: _ => GetHeaders (MkGetHeaders v l (repeat 0 32)) end = GetHeaders (MkGetHeaders v l' (repeat 0 32))) by (unfold l'; destruct l; reflexivity).
    rewrite E in L |- *. cbn [layout] in L |- *. assert (F : Forall hash_ok l') by (unfold l'; destruct l; [constructor; [reflexivity|constructor]|exact H2]).
    assert (Ln : len l' < 2 ^ 63).
    { rewrite !len_app in L. assert (G : len l' <= len (concat l')). { clear -F. clearbody l'. induction F as [|x l' Hx F IH]; cbn [concat]; [discriminate|]. rewrite len_cons, len_app. apply len_of in Hx. lia. }
      pose proof (len_nonneg (le 4 v)). pose proof (len_nonneg (compact (len l'))). pose proof (len_nonneg (repeat 0 32)). lia. }
    replace (le 4 v ++ compact (len l') ++ concat l' ++ repeat 0 32) with ((le 4 v ++ compact (len l') ++ concat l') ++ repeat 0 32) in * by now rewrite <- !app_assoc.
    rewrite (run_reads_more _ _ (MkGetHeaders v l' (repeat 0 32))); [reflexivity| |exact L]. apply (reads_getheaders (MkGetHeaders 0 [] (repeat 0 32)) v l' H1 F Ln).
  - assert (Ln : len l < 2 ^ 63). { rewrite len_app in L. pose proof (concat_ge (fun h => header_layout h ++ [0]) 1 l) as G. pose proof (len_nonneg (compact (len l))).
      assert (1 * len l <= len (concat (map (fun h => header_layout h ++ [0]) l))) by (apply G; intros x; rewrite len_app; change (len [0]) with 1; pose proof (len_nonneg (header_layout x)); lia). lia. }
    rewrite (run_reads _ _ l); [reflexivity|now apply reads_headers|exact L].
  - rewrite (run_reads _ _ n); [reflexivity|rewrite le_is; now apply reads_U64|exact L].
  - rewrite (run_reads _ _ n); [reflexivity|rewrite le_is; now apply reads_U64|exact L].
  - destruct r as [c k rs h]. destruct M as [M1 M2]. rewrite (run_reads _ _ (MkReject c k rs h)); [reflexivity|now apply reads_reject|exact L].
Qed.

(** ** Sizes. *)
Lemma le_len n v : len (le n v) = Z.of_nat n. Proof. rewrite le_is. apply le_bytes_len. Qed.
Lemma compact_size n : 0 <= n < 2 ^ 64 -> len (compact n) = VarIntSerializeSize (u64 n). Proof. intros H. rewrite compact_is, varint_len by exact H. unfold u64. now rewrite Z.mod_small. Qed.
Lemma fold_size {A} (sz : A -> Z) (enc : A -> bytes) l s : (forall x, len (enc x) = sz x) -> fold_left (fun s i => s + sz i) l s = s + len (concat (map enc l)).
Proof. intros H. revert s. induction l as [|x l IH]; intros s; cbn [fold_left map concat]; [unfold len; cbn; lia|]. rewrite IH, len_app, H. lia. Qed.
Lemma sizes m : in_memory m -> match m with VerAck | Reject _ | Unhandle _ => False | GetHeaders g => gh_locators g <> [] /\ len (gh_stop g) = 32 | _ => True end -> Size m = len (Encode m).
Proof.
  intros M. rewrite (encode_layout m M). destruct m; cbn [in_memory Size with_locator layout] in *; intros H; try tauto; try reflexivity.
  - unfold version_layout, port_le. rewrite !len_app, !le_len, compact_size by (pose proof (len_nonneg (mv_agent v)); lia). change (len [mv_relay v]) with 1. lia.
  - rewrite (fold_size inv_size inv_layout), len_app, compact_size by (try (intros x; unfold inv_layout, inv_size; rewrite len_app, le_len; lia); pose proof (len_nonneg l); lia). reflexivity.
  - rewrite (fold_size inv_size inv_layout), len_app, compact_size by (try (intros x; unfold inv_layout, inv_size; rewrite len_app, le_len; lia); pose proof (len_nonneg l); lia). reflexivity.
  - destruct g as [v l s]. cbn [gh_version gh_locators gh_stop] in *. destruct H as [Hl Hs]. destruct l as [|x l]; [congruence|]. cbn [layout]. rewrite (fold_size (fun h : bytes => len h) (fun h => h)) by reflexivity.
    rewrite map_id, !len_app, le_len, compact_size by (pose proof (len_nonneg (x :: l)); lia). lia.
  - rewrite (fold_size (fun h => header_size h + 1) (fun h => header_layout h ++ [0])), len_app, compact_size; [reflexivity|pose proof (len_nonneg l); lia|].
    intros h. unfold header_layout, header_size. rewrite !len_app, !le_len. change (len [0]) with 1. lia.
Qed.
(** A reject message's size leaves out the two length prefixes, and counts a hash that is not sent. *)
Lemma reject_size r : len (rj_cmd r) < 2 ^ 64 -> len (rj_reason r) < 2 ^ 64 -> reject_ok r -> len (Encode (Reject r)) = Size (Reject r) + len (compact (len (rj_cmd r))) + len (compact (len (rj_reason r))).
Proof.
  intros H1 H2 (_ & _ & N). rewrite (encode_layout (Reject r)) by now split. destruct r as [c k rs h]. cbn [with_locator layout Size rj_cmd rj_code rj_reason rj_hash] in *. rewrite !len_app. change (len [k]) with 1.
  destruct (in_dec _ c _) as [I|I]; [lia|]. rewrite N; [rewrite ?len_nil; lia|]. intros A. apply I. cbn. unfold about_hash in A. tauto_hash.
Qed.
