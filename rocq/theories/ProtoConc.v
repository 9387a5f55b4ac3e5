(** Model of concurrent use of one Connection (/repo/xprotocol/connection.go, stream.go), and what holds of it.

    Any number of goroutines call Send at any time, goroutine 0 (the one running ReadLoop) only from its onReceive
    callback.  Send is WriteMessage: it takes the stream's mutex, hands its frame to the connection in pieces of any sizes
    (bufio's flushes), and releases the mutex; it may fail at any point, and once a write has failed the bufio.Writer
    refuses all later ones.  ReadMessage holds the same mutex from before its first read until the message is complete or
    the read fails (deadline, bad checksum, closed).  The mutex is Go's: no fairness is assumed. *)
From Verif Require Import GoBase BaseLemmas.

(** Where a goroutine is in WriteMessage (stream.go:103-128). *)
Inductive tstate :=
| Idle                                 (* not in Send *)
| Waits (frame : bytes)                (* in s.mutex.Lock(), stream.go:104 *)
| Sends (frame left : bytes).          (* has the mutex; [left] is not written yet, stream.go:106-127 *)
(** Where the read loop is (connection.go:41-51). *)
Inductive rstate :=
| Wants                                (* in s.mutex.Lock(), stream.go:64 *)
| Reads                                (* has the mutex, reading, stream.go:66-99 *)
| Calls                                (* in c.onReceive, connection.go:48 *)
| Stopped.                             (* ReadMessage failed, connection.go:45 *)
Inductive holder := ReaderHolds | SenderHolds (t : nat).
Record state := St { lock : option holder; wire : bytes; broken : bool; threads : nat -> tstate; rloop : rstate }.
Definition upd (th : nat -> tstate) (t : nat) (x : tstate) : nat -> tstate := fun u => if Nat.eqb u t then x else th u.
Definition start : state := St None [] false (fun _ => Idle) Wants.

(** What happens: a Send begins, gets the mutex, writes, returns; the loop gets the mutex, a message comes in from the
    peer, the read fails, the callback is over. *)
Inductive event :=
| Call (t : nat) (f : bytes) | Acquire (t : nat) | Write (t : nat) (d : bytes) | Return (t : nat) (f : bytes) (ok : bool)
| RLock | Received | ReadFailed | CallbackOver.
Inductive step : state -> event -> state -> Prop :=
| s_call l w b th r t f : th t = Idle -> (t = 0%nat -> r = Calls) -> step (St l w b th r) (Call t f) (St l w b (upd th t (Waits f)) r)
| s_acquire w b th r t f : th t = Waits f -> step (St None w b th r) (Acquire t) (St (Some (SenderHolds t)) w b (upd th t (Sends f f)) r)
| s_write l w th r t f d left : th t = Sends f (d ++ left) -> d <> [] -> step (St l w false th r) (Write t d) (St l (w ++ d) false (upd th t (Sends f left)) r)
| s_return l w th r t f : th t = Sends f [] -> step (St l w false th r) (Return t f true) (St None w false (upd th t Idle) r)
  (* stream.go:106-108: the deadline cannot be set; nothing was written *)
| s_early l w b th r t f : th t = Sends f f -> step (St l w b th r) (Return t f false) (St None w b (upd th t Idle) r)
  (* stream.go:124-127: the connection fails, now or in an earlier write *)
| s_fail l w b th r t f left : th t = Sends f left -> step (St l w b th r) (Return t f false) (St None w true (upd th t Idle) r)
| s_rlock w b th : step (St None w b th Wants) RLock (St (Some ReaderHolds) w b th Reads)
| s_received l w b th : step (St l w b th Reads) Received (St None w b th Calls)
| s_readfailed l w b th : step (St l w b th Reads) ReadFailed (St None w b th Stopped)
| s_over l w b th : th 0%nat = Idle -> step (St l w b th Calls) CallbackOver (St l w b th Wants).
Inductive exec : state -> list event -> state -> Prop :=
| r_nil s : exec s [] s
| r_step s e s' tr s'' : step s e s' -> exec s' tr s'' -> exec s (e :: tr) s''.

(** ** What should be on the wire. *)
(** The frames of the Sends that returned without an error, in the order they returned. *)
Fixpoint sent (tr : list event) : list bytes :=
  match tr with [] => [] | Return _ f true :: r => f :: sent r | _ :: r => sent r end.
(** The Sends begun but not returned, and those that returned an error. *)
Definition begun (tr : list event) (f : bytes) : Prop := exists t, In (Call t f) tr.

Lemma sent_app a b : sent (a ++ b) = sent a ++ sent b.
Proof. induction a as [|e a IH]; [reflexivity|]. cbn [app sent]. destruct e as [| | |t f [|]| | | |]; rewrite ?IH; reflexivity. Qed.
Lemma exec_app s tr1 s1 tr2 s2 : exec s tr1 s1 -> exec s1 tr2 s2 -> exec s (tr1 ++ tr2) s2.
Proof. induction 1; intros R; cbn [app]; [exact R|]. econstructor; eauto. Qed.
Lemma upd_eq th t x : upd th t x t = x. Proof. unfold upd. now rewrite Nat.eqb_refl. Qed.
Lemma upd_ne th t x u : u <> t -> upd th t x u = th u. Proof. intros N. unfold upd. destruct (Nat.eqb_spec u t); congruence. Qed.

(** The mutex is held by exactly those inside. *)
Definition locked (s : state) : Prop :=
  (forall t f l, threads s t = Sends f l -> lock s = Some (SenderHolds t)) /\ (rloop s = Reads <-> lock s = Some ReaderHolds) /\
  (forall t, lock s = Some (SenderHolds t) -> exists f l, threads s t = Sends f l).
(** The wire holds the frames sent, then the part written by whoever is sending or failed. *)
Definition wired (tr : list event) (s : state) : Prop :=
  (forall t f, threads s t = Waits f -> begun tr f) /\ (forall t f l, threads s t = Sends f l -> begun tr f) /\
  (if broken s then exists p f q, wire s = concat (sent tr) ++ p /\ begun tr f /\ f = p ++ q
   else match lock s with
        | Some (SenderHolds t) => exists f p q, threads s t = Sends f q /\ f = p ++ q /\ wire s = concat (sent tr) ++ p
        | _ => wire s = concat (sent tr)
        end).
(** Once broken nothing is written. *)
Lemma begun_app tr e f : begun tr f -> begun (tr ++ [e]) f. Proof. intros [t I]. exists t. apply in_or_app. now left. Qed.

Lemma locked_step s e s' : locked s -> step s e s' -> locked s'.
Proof.
  intros (A & B & C) S. destruct S; unfold locked in *; cbn [lock wire broken threads rloop] in *.
  - split; [|split].
    + intros u g l' H1. destruct (Nat.eq_dec u t) as [->|N]; [rewrite upd_eq in H1; discriminate|]. rewrite upd_ne in H1 by exact N. eapply A; eauto.
    + exact B.
    + intros u H1. destruct (C u H1) as (g & l' & H2). exists g, l'. rewrite upd_ne; [exact H2|]. intros ->. congruence.
  - split; [|split].
    + intros u g l' H1. destruct (Nat.eq_dec u t) as [->|N]; [reflexivity|]. rewrite upd_ne in H1 by exact N. apply A in H1. discriminate.
    + split; [intros H1; apply B in H1; discriminate|discriminate].
    + intros u H1. injection H1 as ->. exists f, f. apply upd_eq.
  - split; [|split].
    + intros u g l' H1. destruct (Nat.eq_dec u t) as [->|N]; [eapply A; eauto|]. rewrite upd_ne in H1 by exact N. eapply A; eauto.
    + exact B.
    + intros u H1. destruct (Nat.eq_dec u t) as [->|N]; [exists f, left; apply upd_eq|]. rewrite upd_ne by exact N. auto.
  - assert (L : l = Some (SenderHolds t)) by (eapply A; eauto). subst l. split; [|split].
    + intros u g l' H1. destruct (Nat.eq_dec u t) as [->|N]; [rewrite upd_eq in H1; discriminate|]. rewrite upd_ne in H1 by exact N. apply A in H1. congruence.
    + split; [intros H1; apply B in H1; discriminate|discriminate].
    + discriminate.
  - assert (L : l = Some (SenderHolds t)) by (eapply A; eauto). subst l. split; [|split].
    + intros u g l' H1. destruct (Nat.eq_dec u t) as [->|N]; [rewrite upd_eq in H1; discriminate|]. rewrite upd_ne in H1 by exact N. apply A in H1. congruence.
    + split; [intros H1; apply B in H1; discriminate|discriminate].
    + discriminate.
  - assert (L : l = Some (SenderHolds t)) by (eapply A; eauto). subst l. split; [|split].
    + intros u g l' H1. destruct (Nat.eq_dec u t) as [->|N]; [rewrite upd_eq in H1; discriminate|]. rewrite upd_ne in H1 by exact N. apply A in H1. congruence.
    + split; [intros H1; apply B in H1; discriminate|discriminate].
    + discriminate.
  - split; [|split]; [intros u g l' H1; apply A in H1; discriminate|tauto|discriminate].
  - assert (L : l = Some ReaderHolds) by (now apply B). subst l. split; [|split]; [intros u g l' H1; apply A in H1; discriminate|split; discriminate|discriminate].
  - assert (L : l = Some ReaderHolds) by (now apply B). subst l. split; [|split]; [intros u g l' H1; apply A in H1; discriminate|split; discriminate|discriminate].
  - split; [exact A|split; [|exact C]]. split; [discriminate|]. intros H1. apply B in H1. discriminate.
Qed.
Lemma sent_other tr e : (forall t f, e <> Return t f true) -> sent (tr ++ [e]) = sent tr.
Proof. intros N. rewrite sent_app. destruct e as [| | |t f [|]| | | |]; cbn [sent]; rewrite ?app_nil_r; try reflexivity. exfalso. eapply N; reflexivity. Qed.
Ltac old := let u := fresh in let g := fresh in let H := fresh in intros u g; intros; apply begun_app; eauto.
Lemma wired_step tr s e s' : locked s -> wired tr s -> step s e s' -> wired (tr ++ [e]) s'.
Proof.
  intros (LA & LB & LC) (A & B & C) S. destruct S; unfold wired in *; cbn [lock wire broken threads rloop] in *.
  - split; [|split].
    + intros u g H1. destruct (Nat.eq_dec u t) as [->|N]; [rewrite upd_eq in H1; injection H1 as <-; exists t; apply in_or_app; right; now left|]. rewrite upd_ne in H1 by exact N. apply begun_app; eauto.
    + intros u g l' H1. destruct (Nat.eq_dec u t) as [->|N]; [rewrite upd_eq in H1; discriminate|]. rewrite upd_ne in H1 by exact N. apply begun_app; eauto.
    + rewrite sent_other by discriminate. destruct b; [destruct C as (p & g & q & C1 & C2 & C3); exists p, g, q; auto using begun_app|].
      destruct l as [[|u]|]; try exact C. destruct C as (g & p & q & C1 & C2 & C3). exists g, p, q. rewrite upd_ne; [auto|]. intros ->. congruence.
  - split; [|split].
    + intros u g H1. destruct (Nat.eq_dec u t) as [->|N]; [rewrite upd_eq in H1; discriminate|]. rewrite upd_ne in H1 by exact N. apply begun_app; eauto.
    + intros u g l' H1. destruct (Nat.eq_dec u t) as [->|N]; [rewrite upd_eq in H1; injection H1 as <- _; apply begun_app; eauto|]. rewrite upd_ne in H1 by exact N. apply begun_app; eauto.
    + rewrite sent_other by discriminate. destruct b; [destruct C as (p & g & q & C1 & C2 & C3); exists p, g, q; auto using begun_app|].
      exists f, [], f. rewrite upd_eq, app_nil_r. auto.
  - assert (L : l = Some (SenderHolds t)) by eauto. subst l. split; [|split].
    + intros u g H1. destruct (Nat.eq_dec u t) as [->|N]; [rewrite upd_eq in H1; discriminate|]. rewrite upd_ne in H1 by exact N. apply begun_app; eauto.
    + intros u g l' H1. destruct (Nat.eq_dec u t) as [->|N]; [rewrite upd_eq in H1; injection H1 as <- _; apply begun_app; eauto|]. rewrite upd_ne in H1 by exact N. apply begun_app; eauto.
    + rewrite sent_other by discriminate. destruct C as (g & p & q & C1 & C2 & C3). rewrite H in C1. injection C1 as <- <-. exists f, (p ++ d), left. rewrite upd_eq. split; [reflexivity|]. split; [now rewrite <- app_assoc|]. now rewrite C3, app_assoc.
  - assert (L : l = Some (SenderHolds t)) by eauto. subst l. split; [|split].
    + intros u g H1. destruct (Nat.eq_dec u t) as [->|N]; [rewrite upd_eq in H1; discriminate|]. rewrite upd_ne in H1 by exact N. apply begun_app; eauto.
    + intros u g l' H1. destruct (Nat.eq_dec u t) as [->|N]; [rewrite upd_eq in H1; discriminate|]. rewrite upd_ne in H1 by exact N. apply begun_app; eauto.
    + destruct C as (g & p & q & C1 & C2 & C3). rewrite H in C1. injection C1 as <- <-. rewrite app_nil_r in C2. subst p. rewrite sent_app, concat_app. cbn [sent concat]. now rewrite app_nil_r.
  - assert (L : l = Some (SenderHolds t)) by eauto. subst l. split; [|split].
    + intros u g H1. destruct (Nat.eq_dec u t) as [->|N]; [rewrite upd_eq in H1; discriminate|]. rewrite upd_ne in H1 by exact N. apply begun_app; eauto.
    + intros u g l' H1. destruct (Nat.eq_dec u t) as [->|N]; [rewrite upd_eq in H1; discriminate|]. rewrite upd_ne in H1 by exact N. apply begun_app; eauto.
    + rewrite sent_other by discriminate. destruct b; [destruct C as (p & g & q & C1 & C2 & C3); exists p, g, q; auto using begun_app|].
      destruct C as (g & p & q & C1 & C2 & C3). rewrite H in C1. injection C1 as <- <-. assert (p = []) by (apply (app_inv_tail f); now rewrite <- C2). subst p. now rewrite app_nil_r in C3.
  - assert (L : l = Some (SenderHolds t)) by eauto. subst l. split; [|split].
    + intros u g H1. destruct (Nat.eq_dec u t) as [->|N]; [rewrite upd_eq in H1; discriminate|]. rewrite upd_ne in H1 by exact N. apply begun_app; eauto.
    + intros u g l' H1. destruct (Nat.eq_dec u t) as [->|N]; [rewrite upd_eq in H1; discriminate|]. rewrite upd_ne in H1 by exact N. apply begun_app; eauto.
    + rewrite sent_other by discriminate. destruct b; [destruct C as (p & g & q & C1 & C2 & C3); exists p, g, q; auto using begun_app|].
      destruct C as (g & p & q & C1 & C2 & C3). rewrite H in C1. injection C1 as <- <-. exists p, f, left. split; [exact C3|]. split; [apply begun_app; eauto|exact C2].
  - split; [old|split; [old|]]. rewrite sent_other by discriminate. destruct b; [destruct C as (p & g & q & C1 & C2 & C3); exists p, g, q; auto using begun_app|]. exact C.
  - assert (L : l = Some ReaderHolds) by (now apply LB). subst l. split; [old|split; [old|]]. rewrite sent_other by discriminate. destruct b; [destruct C as (p & g & q & C1 & C2 & C3); exists p, g, q; auto using begun_app|]. exact C.
  - assert (L : l = Some ReaderHolds) by (now apply LB). subst l. split; [old|split; [old|]]. rewrite sent_other by discriminate. destruct b; [destruct C as (p & g & q & C1 & C2 & C3); exists p, g, q; auto using begun_app|]. exact C.
  - split; [old|split; [old|]]. rewrite sent_other by discriminate. destruct b; [destruct C as (p & g & q & C1 & C2 & C3); exists p, g, q; auto using begun_app|]. exact C.
Qed.
Lemma start_ok : locked start /\ wired [] start.
Proof. split; [split; [discriminate|split; [split; discriminate|discriminate]]|]. split; [discriminate|]. split; [discriminate|reflexivity]. Qed.
Lemma exec_ok : forall tr s pre s0, locked s0 -> wired pre s0 -> exec s0 tr s -> locked s /\ wired (pre ++ tr) s.
Proof.
  intros tr s pre s0 L W R. revert pre L W. induction R as [s|s e s' tr s'' S R IH]; intros pre L W; [rewrite app_nil_r; auto|].
  replace (pre ++ e :: tr) with ((pre ++ [e]) ++ tr) by now rewrite <- app_assoc. apply IH; [eapply locked_step; eauto|eapply wired_step; eauto].
Qed.
(** Whatever the schedule: the frames sent, whole and in the order the Sends returned, then at most a part of one more. *)
Lemma frames_contiguous tr s : exec start tr s -> exists p q, wire s = concat (sent tr) ++ p /\ (p = [] \/ begun tr (p ++ q)).
Proof.
  intros R. destruct (exec_ok tr s [] start (proj1 start_ok) (proj2 start_ok) R) as [_ (A & B & C)]. cbn [app] in *. destruct (broken s).
  - destruct C as (p & f & q & C1 & C2 & ->). exists p, q. auto.
  - destruct (lock s) as [[|t]|]; [exists [], []; rewrite app_nil_r; auto| |exists [], []; rewrite app_nil_r; auto].
    destruct C as (f & p & q & C1 & -> & C3). exists p, q. split; [exact C3|]. right. eauto.
Qed.

(** ** Progress. *)
(** Nothing from the peer and no failed read. *)
Definition silent (e : event) : Prop := e <> Received /\ e <> ReadFailed.
Definition waiting (t : nat) (s : state) : Prop := exists f, threads s t = Waits f.
Lemma stuck_step s e s' : lock s = Some ReaderHolds -> locked s -> silent e -> step s e s' ->
  lock s' = Some ReaderHolds /\ locked s' /\ (forall t, waiting t s -> waiting t s') /\ (forall t f ok, e <> Return t f ok).
Proof.
  intros L K [S1 S2] S. split; [|split; [eapply locked_step; eauto|]].
  - destruct K as (A & _ & _). destruct S; cbn [lock threads] in *; try congruence; try (apply A in H; congruence).
  - destruct K as (A & _ & _). destruct S; cbn [lock threads] in *; try congruence; try (apply A in H; congruence).
    + split; [|discriminate]. intros u [g H1]. cbn [threads] in *. unfold waiting. cbn [threads]. destruct (Nat.eq_dec u t) as [->|N]; [congruence|]. exists g. now rewrite upd_ne.
    + split; [|discriminate]. intros u [g H1]. now exists g.
Qed.
Lemma stuck_run s tr s' : lock s = Some ReaderHolds -> locked s -> Forall silent tr -> exec s tr s' -> (forall t, waiting t s -> waiting t s') /\ forall t f ok, ~ In (Return t f ok) tr.
Proof.
  intros L K F R. revert L K F. induction R as [s|s e s' tr s'' S R IH]; intros L K F; [split; [auto|intros t f ok []]|].
  inversion F as [|? ? F1 F2]; subst. destruct (stuck_step s e s' L K F1 S) as (L' & K' & W & N). destruct (IH L' K' F2) as [W' N']. split; [auto|]. intros t f ok [->|I]; [exact (N t f ok eq_refl)|exact (N' t f ok I)].
Qed.
(** The read loop takes the mutex, the peer says nothing, and no Send ever returns. *)
Lemma silent_peer_blocks (t : nat) (f : bytes) : (1 <= t)%nat -> exists tr s, exec start tr s /\ Forall silent tr /\ waiting t s /\
  forall tr' s', Forall silent tr' -> exec s tr' s' -> waiting t s' /\ forall u g ok, ~ In (Return u g ok) tr'.
Proof.
  intros T. pose (s := St (Some ReaderHolds) [] false (upd (fun _ => Idle) t (Waits f)) Reads). exists [RLock; Call t f], s.
  assert (R : exec start [RLock; Call t f] s). { econstructor; [apply s_rlock|]. econstructor; [|constructor]. apply s_call; [reflexivity|lia]. }
  destruct (exec_ok _ _ [] start (proj1 start_ok) (proj2 start_ok) R) as [K _].
  split; [exact R|]. split; [repeat constructor; discriminate|]. split; [exists f; apply upd_eq|]. intros tr' s' F R'. destruct (stuck_run s tr' s' eq_refl K F R') as [W N]. split; [|exact N]. apply W. exists f. apply upd_eq.
Qed.
(** But whoever has the mutex can let it go without the peer: a read by its deadline, a Send by finishing. *)
Lemma can_finish w th r t f left : th t = Sends f left -> forall l, exists tr s', exec (St l w false th r) (tr ++ [Return t f true]) s' /\ ~ In Received tr /\ lock s' = None /\ broken s' = false /\
  forall u, u <> t -> threads s' u = th u.
Proof.
  intros E l. destruct left as [|x left].
  - exists [], (St None w false (upd th t Idle) r). split; [econstructor; [apply s_return, E|constructor]|]. split; [tauto|]. split; [reflexivity|]. split; [reflexivity|]. intros u N. now apply upd_ne.
  - exists [Write t (x :: left)], (St None (w ++ x :: left) false (upd (upd th t (Sends f [])) t Idle) r). split.
    { econstructor; [apply s_write with (f := f) (left := []); [now rewrite app_nil_r|discriminate]|]. econstructor; [|constructor]. apply s_return. apply upd_eq. }
    split; [intros [X|[]]; discriminate|]. split; [reflexivity|]. split; [reflexivity|]. intros u N. cbn [threads]. now rewrite !upd_ne by exact N.
Qed.
Lemma can_release s : locked s -> broken s = false -> exists tr s', exec s tr s' /\ lock s' = None /\ broken s' = false /\ ~ In Received tr /\ forall t f, threads s t = Waits f -> threads s' t = Waits f.
Proof.
  intros (A & B & C) Br. destruct s as [l w b th r]. cbn [lock threads rloop broken] in *. subst b. destruct l as [[|t]|].
  - rewrite (proj2 B eq_refl). exists [ReadFailed], (St None w false th Stopped). split; [econstructor; [apply s_readfailed|constructor]|]. split; [reflexivity|]. split; [reflexivity|]. split; [intros [X|[]]; discriminate|auto].
  - destruct (C t eq_refl) as (f & l & E). destruct (can_finish w th r t f l E (Some (SenderHolds t))) as (tr & s' & R & N & L & Bk & T). exists (tr ++ [Return t f true]), s'. split; [exact R|]. split; [exact L|]. split; [exact Bk|].
    split; [intros I; apply in_app_or in I; destruct I as [I|[I|[]]]; [exact (N I)|discriminate]|]. intros u g H. rewrite T; [exact H|]. intros ->. congruence.
  - exists [], (St None w false th r). split; [constructor|]. auto.
Qed.
(** From any state reached without a failed write, a waiting Send can succeed without anything from the peer. *)
Lemma can_send tr s t f : exec start tr s -> broken s = false -> threads s t = Waits f -> exists tr' s', exec s (tr' ++ [Return t f true]) s' /\ ~ In Received tr'.
Proof.
  intros R Br H. destruct (exec_ok tr s [] start (proj1 start_ok) (proj2 start_ok) R) as [K _]. destruct (can_release s K Br) as (tr1 & s1 & R1 & L1 & B1 & N1 & W1). specialize (W1 t f H).
  destruct s1 as [l w b th r]. cbn [lock threads broken] in *. subst l b. destruct (can_finish w (upd th t (Sends f f)) r t f f (upd_eq _ _ _) (Some (SenderHolds t))) as (tr2 & s2 & R2 & N2 & _).
  exists (tr1 ++ Acquire t :: tr2), s2. split.
  - rewrite <- app_assoc. eapply exec_app; [exact R1|]. cbn [app]. econstructor; [apply s_acquire, W1|exact R2].
  - intros I. apply in_app_or in I. destruct I as [I|[I|I]]; [exact (N1 I)|discriminate|exact (N2 I)].
Qed.
