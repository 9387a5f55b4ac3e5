(** Theorems added after a changed program got past the others (seeded/LOG.jsonl). *)
From Verif Require Import GoBase BaseLemmas BufferModel BufferSpec BufferProofs BufferMore.
From Verif Require GoBase BaseLemmas BufferModel BufferSpec ScriptNumModel ScriptNumSpec ScriptModel ScriptSpec ScriptProofs VmModel VmSpec VmProofs VmMore VmSig VmCond VmPanic VmLock VmTruth LockSpec Sha256 Sha256Proofs VmProps.
Local Open Scope Z_scope.

(** C03, for one buffer that is written and read in turns, after Reset of whatever it was: everything comes out once, in
    order, and the bytes are those of a new buffer. *)
Theorem C03_in_turns : forall b xs ys, Forall value_ok xs -> Forall value_ok ys -> len (Bytes (write_values (xs ++ ys) NewBuffer)) <= 2 ^ 48 ->
  exists b1 b2, read_values (map shape_of xs) (write_values xs (Reset b)) = (Ok xs, b1) /\ End b1 = true /\
    read_values (map shape_of ys) (write_values ys b1) = (Ok ys, b2) /\ End b2 = true /\ Bytes b2 = Bytes (write_values (xs ++ ys) NewBuffer) /\
    Len b2 = len (Bytes b2) /\ Seek b2 = Len b2.
Proof.
  intros b xs ys Vx Vy L. unfold Bytes in *. assert (Vxy : Forall value_ok (xs ++ ys)) by (apply Forall_app; auto). rewrite write_values_bound in * by auto. cbn [bdata NewBuffer app] in *. rewrite map_app, concat_app in *.
  set (dx := concat (map enc_value xs)) in *. set (dy := concat (map enc_value ys)) in *. pose proof L as L'. rewrite len_app in L'. pose proof (len_nonneg dx). pose proof (len_nonneg dy).
  rewrite write_values_spec; [|exact Vx|reflexivity|fold dx; unfold Reset; cbn [bdata]; rewrite len_nil; lia]. fold dx. unfold Reset. cbn [bseek bdata app].
  assert (Rx := read_values_spec xs [] [] Vx). fold dx in Rx. rewrite app_nil_r in Rx. unfold rbuf in Rx at 1. cbn [app] in Rx. change (len (@nil Z)) with 0 in Rx.
  exists (rbuf dx []), (rbuf (dx ++ dy) []). split; [apply Rx; unfold fits; cbn [app]; lia|]. split; [unfold End, rbuf; cbn [blength bseek]; rewrite app_nil_r; lia|].
  rewrite write_values_spec; [|exact Vy|reflexivity|fold dy; unfold rbuf; cbn [bdata]; rewrite app_nil_r; lia]. fold dy. unfold rbuf at 1 2 3. cbn [bseek bdata]. rewrite app_nil_r.
  assert (Ry := read_values_spec ys dx [] Vy). fold dy in Ry. rewrite app_nil_r in Ry. unfold rbuf in Ry at 1.
  split; [apply Ry; unfold fits; rewrite len_app; lia|]. unfold End, Len, Seek, rbuf. cbn [blength bseek bdata]. rewrite app_nil_r. split; [apply Z.leb_refl|]. auto.
Qed.
Print Assumptions C03_in_turns.
Example C03_turns_example : let b := write_values [VVarBytes [1; 2]; VU32 7] (Reset (Buf 3 5 [9; 9; 9; 9; 9])) in
  fst (read_values [SVarBytes; SU32] b) = Ok [VVarBytes [1; 2]; VU32 7] /\
  fst (read_values [SU8] (write_values [VU8 8] (snd (read_values [SVarBytes; SU32] b)))) = Ok [VU8 8].
Proof. split; reflexivity. Qed.

Import GoBase BaseLemmas BufferModel BufferSpec ScriptNumModel ScriptNumSpec ScriptModel ScriptSpec ScriptProofs VmModel VmSpec VmProofs VmMore VmSig VmCond VmPanic VmLock VmTruth LockSpec Sha256 Sha256Proofs VmProps.
(** C99, for the method Execute. *)
Theorem C99_execute_partial : forall H hasher verifier, (forall x, bytes_ok (H x) /\ len (H x) <= 2 ^ 48) -> oracles_return hasher verifier ->
  forall d st st', in_memory d -> items_ok (dstack st) ->
  (Execute H (Some hasher) (Some verifier) d st = Ok st' <->
   exists s c, execute H (Some hasher) (Some verifier) d false st = Ok (Vm s c) /\
     match s with [] => st' = Vm [] c | x :: r => num_value x <> 0 /\ st' = Vm r c end).
Proof. exact C99_verdict_partial. Qed.
Print Assumptions C99_execute_partial.
Example C99_execute_example : (exists e, Execute ex_hash None None [0x51; 0x00] NewEngine = Err e) /\ Execute ex_hash None None [0x00; 0x51] NewEngine = Ok (Vm [[]] []).
Proof. split; [eexists|]; vm_compute; reflexivity. Qed.

From Verif Require Bip39Model.
(** C109, continued: entropy of the five sizes of BIP 39 is drawn, of that size, and every other size is refused with an
    error. *)
Theorem C109_sizes : forall random n, (forall k, 0 <= k -> len (random k) = k) ->
  (In n [128; 160; 192; 224; 256] -> exists e, Bip39Model.NewEntropy random n = GoBase.Ok e /\ 8 * len e = n) /\
  (~ In n [128; 160; 192; 224; 256] -> exists er, Bip39Model.NewEntropy random n = GoBase.Err er).
Proof.
  intros random n R. unfold Bip39Model.NewEntropy, Bip39Model.validateEntropyBitSize. split; intro I.
  - exists (random (Z.quot n 8)). repeat (destruct I as [<-|I]; [split; [reflexivity|rewrite R by (vm_compute; discriminate); reflexivity]|]). destruct I.
  - destruct (_ && _)%bool eqn:E; [|eexists; reflexivity]. exfalso. apply I. apply andb_true_iff in E. destruct E as [E U]. apply andb_true_iff in E. destruct E as [M L].
    rewrite Z.rem_mod_nonneg in M by lia. apply Z.eqb_eq in M. pose proof (Z.div_mod n 32 ltac:(lia)) as D. rewrite M in D.
    assert (C : n / 32 = 4 \/ n / 32 = 5 \/ n / 32 = 6 \/ n / 32 = 7 \/ n / 32 = 8) by lia. cbn [In]. lia.
Qed.
Print Assumptions C109_sizes.
Example C109_sizes_example : Bip39Model.NewEntropy (fun k => repeat 7 (Z.to_nat k)) 160 = GoBase.Ok (repeat 7 20) /\ exists er, Bip39Model.NewEntropy (fun k => repeat 7 (Z.to_nat k)) 100 = GoBase.Err er.
Proof. split; [reflexivity|eexists; reflexivity]. Qed.

From Verif Require ProtoModel.
(** C78, continued: as long as there is room items are added at the end of the list, one at a time and to getdata several,
    and without room the call is an error. *)
Theorem C78_room : forall (x : ProtoModel.InvVect) (h : ProtoModel.BlockHeader) xs l hs,
  (len l < 50000 -> ProtoModel.Inv_AddInvVect [x] l = GoBase.Ok (l ++ [x])) /\ (50000 <= len l -> exists er, ProtoModel.Inv_AddInvVect [x] l = GoBase.Err er) /\
  (len l + len xs <= 50000 -> ProtoModel.GetData_AddInvVect xs l = GoBase.Ok (l ++ xs)) /\ (50000 < len l + len xs -> exists er, ProtoModel.GetData_AddInvVect xs l = GoBase.Err er) /\
  (len hs < 2000 -> ProtoModel.AddBlockHeader [h] hs = GoBase.Ok (hs ++ [h])) /\ (2000 <= len hs -> exists er, ProtoModel.AddBlockHeader [h] hs = GoBase.Err er).
Proof.
  intros x h xs l hs. unfold ProtoModel.Inv_AddInvVect, ProtoModel.GetData_AddInvVect, ProtoModel.AddBlockHeader, ProtoModel.MaxInvPerMsg, ProtoModel.MaxBlockHeadersPerMsg.
  repeat split; intro H; match goal with |- context [?a <? ?b] => destruct (Z.ltb_spec a b); [|] end; try lia; try reflexivity; eexists; reflexivity.
Qed.
Print Assumptions C78_room.
Example C78_room_example : forall x : ProtoModel.BlockHeader, len (repeat x 1999) < 2000 /\ exists er, ProtoModel.AddBlockHeader [x] (repeat x 2000) = GoBase.Err er.
Proof. intro x. split; [unfold len; rewrite repeat_length; lia|eexists; vm_compute; reflexivity]. Qed.
