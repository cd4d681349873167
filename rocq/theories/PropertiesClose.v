(** Closing a subscriber (C128). *)
From Coq Require Import Arith Lia.
From Verif Require Import Base ConcModel ShutdownModel ShutdownSpec CloseModel CloseSpec CloseProofs CloseProofs2.

(** * C128 *)

(** Any number of calls of Close and of Disconnect at once, while the publisher keeps
    the connection open.  Missing for the full property: that Close has done its work
    when it returns (only a call that waited has), calls in callbacks, that the callback
    is called once, and Dial under way. *)
Theorem C128_close_partial : forall n calls sched, disconnecting_only calls -> keeps_open sched ->
  let s := crun (cinit (repeat None n) 0 calls) sched in
  crashed (base s) = false /\ (terminations (base s) <= n + calls_of calls)%nat /\
  (cmoves (cinit (repeat None n) 0 calls) sched <= 20 * (n + calls_of calls) + 8 + 8 * n)%nat /\
  (forall k, waited_back s k -> over (base s)) /\
  (all_rest s -> (forall k, (k < n)%nat -> closed_back s k) /\ returned (base s) /\
    ((0 < n + calls_of calls)%nat -> down (base s) /\ In 1%nat (closed (base s)) /\ (1 <= terminations (base s))%nat)).
Proof. exact close_shuts_down. Qed.
Print Assumptions C128_close_partial.

(** One call of Close, and nothing else: one callback. *)
Theorem C128_one_call_partial : forall sched, keeps_open sched ->
  let s := crun (cinit [None] 0 []) sched in all_rest s -> closed_back s 0 /\ terminations (base s) = 1%nat /\ down (base s) /\ In 1%nat (closed (base s)).
Proof.
  intros sched KO s R. destruct (close_shuts_down 1 [] sched ltac:(constructor) KO) as (_ & T & _ & _ & D). specialize (D R) as (D1 & _ & D2). specialize (D2 ltac:(cbn; lia)) as (D2 & D3 & D4).
  change (crun (cinit (repeat None 1) 0 []) sched) with s in *. cbn in T. specialize (D1 0%nat ltac:(lia)). split; [exact D1|]. split; [lia|auto].
Qed.
Print Assumptions C128_one_call_partial.

(** Once a call of Close has begun and no Dial that began before is under way, nothing
    connects any more. *)
Theorem C128_stays_down : forall hosts d calls sched k more,
  let s := crun (cinit hosts d calls) sched in begun s k -> (forall g, In g (sgors (base s)) -> ~ dials g) ->
  conns (base (crun s more)) = conns (base s) /\ established (base (crun s more)) = established (base s).
Proof. intros hosts d calls sched k more s B F. apply no_dial_after; [exact (begun_disposing hosts d calls sched k B)|]. apply List.Forall_forall. exact F. Qed.
Print Assumptions C128_stays_down.

Definition go (i n : nat) : list cact := map CAct (map Go (repeat i n)).
Definition close (k n : nat) : list cact := repeat (CClose k) n.
Lemma go_open i n : keeps_open (go i n).
Proof. unfold keeps_open, go. rewrite !Forall_map. apply List.Forall_forall. intros x _ c E. discriminate. Qed.
Lemma close_open k n : keeps_open (close k n).
Proof. apply List.Forall_forall. intros x I c E. apply repeat_spec in I. congruence. Qed.
Lemma open_app a b : keeps_open a -> keeps_open b -> keeps_open (a ++ b).
Proof. intros A B. apply List.Forall_app. auto. Qed.
#[local] Hint Resolve go_open close_open open_app : opened.
(** Finitely many goroutines and calls: a check that nothing is left to do *)
Definition none {A} (o : option A) : bool := match o with None => true | _ => false end.
Definition rests (s : cst) : bool :=
  forallb (fun i => none (cact_step s (CAct (Go i)))) (seq 0 (length (sgors (base s)))) &&
  forallb (fun k => none (close_step s k)) (seq 0 (length (closers s))) && forallb (fun k => none (dial_step s k)) (seq 0 (length (dialers s))).
Lemma rests_all s : rests s = true -> all_rest s.
Proof.
  intros H. apply andb_prop in H as (H & H3). apply andb_prop in H as (H1 & H2). rewrite forallb_forall in H1, H2, H3. split; [|split].
  - intros i. destruct (Nat.lt_ge_cases i (length (sgors (base s)))) as [L|L].
    + specialize (H1 i ltac:(apply in_seq; lia)). destruct (cact_step s (CAct (Go i))); [discriminate|reflexivity].
    + cbn. destruct (held_up s i); [reflexivity|]. unfold sstep. destruct (crashed (base s)); [reflexivity|]. apply nth_error_None in L. rewrite L. reflexivity.
  - intros k. destruct (Nat.lt_ge_cases k (length (closers s))) as [L|L].
    + specialize (H2 k ltac:(apply in_seq; lia)). destruct (close_step s k); [discriminate|reflexivity].
    + unfold close_step. destruct (crashed (base s)); [reflexivity|]. apply nth_error_None in L. rewrite L. reflexivity.
  - intros k. destruct (Nat.lt_ge_cases k (length (dialers s))) as [L|L].
    + specialize (H3 k ltac:(apply in_seq; lia)). destruct (dial_step s k); [discriminate|reflexivity].
    + unfold dial_step. destruct (crashed (base s)); [reflexivity|]. apply nth_error_None in L. rewrite L. reflexivity.
Qed.

(** A call that waits, and one that finds it under way: both return when all is over.
    Goroutine 0 is the reader, 1 and 2 make the calls, 3 is the disconnect thread. *)
Definition two_closes : list cact := go 0 3 ++ close 0 5 ++ close 1 4 ++ go 3 1 ++ close 0 1 ++ close 1 1 ++ go 3 5 ++ go 0 5 ++ go 3 8 ++ close 0 1 ++ close 1 1 ++ go 3 1.
Example C128_example : keeps_open two_closes /\ let s := crun (cinit [None; None] 0 []) two_closes in
  all_rest s /\ waited_back s 0 /\ waited_back s 1 /\ over (base s) /\ terminations (base s) = 1%nat /\ begun s 0 /\ (forall g, In g (sgors (base s)) -> ~ dials g).
Proof.
  split; [unfold two_closes; auto 20 with opened|]. cbn zeta. split; [apply rests_all; vm_compute; reflexivity|]. split; [do 2 eexists; vm_compute; reflexivity|]. split; [do 2 eexists; vm_compute; reflexivity|].
  split; [vm_compute; auto 10|]. split; [vm_compute; reflexivity|]. split; [eexists; split; [vm_compute; reflexivity|discriminate]|].
  intros g I. vm_compute in I. repeat (destruct I as [<-|I]; [intros []|]). destruct I.
Qed.
(** A Dial that begins later is cancelled. *)
Example C128_dial_example : let s := crun (cinit [None] 1 []) (close 0 6 ++ go 3 9 ++ go 0 9 ++ go 3 9 ++ [CDial 0]) in
  all_rest s /\ conns (base s) = 1%nat /\ connected (base s) = false /\ map kat (dialers s) = [KCanceled].
Proof. cbn zeta. split; [apply rests_all; vm_compute; reflexivity|]. vm_compute. auto. Qed.

(** Close starts the disconnect thread and joins it, but Join does not wait for a thread
    that has been started and does not run yet: Close returns, the connection is open. *)
Theorem C128_early_refuted : ~ forall sched, keeps_open sched -> let s := crun (cinit [None] 0 []) sched in closed_back s 0 -> In 1%nat (closed (base s)) \/ (0 < terminations (base s))%nat.
Proof.
  intros H. specialize (H (close 0 6) (close_open _ _)). cbn zeta in H. destruct H as [H|H].
  - exists 1%nat, None, false. vm_compute. reflexivity.
  - vm_compute in H. exact H.
  - vm_compute in H. lia.
Qed.
Print Assumptions C128_early_refuted.
(** Close in a callback of the reader: the reader waits for Close, Close for the
    disconnect thread, and that for the reader. *)
Theorem C128_in_callback_refuted : ~ forall sched, keeps_open sched -> let s := crun (cinit [Some 0%nat] 0 []) sched in all_rest s -> begun s 0 -> closed_back s 0.
Proof.
  intros H. specialize (H (go 0 2 ++ close 0 5 ++ go 2 1 ++ close 0 1 ++ go 2 5) ltac:(auto 10 with opened)). cbn zeta in H.
  destruct H as (u & h & w & N); [apply rests_all; vm_compute; reflexivity|eexists; split; [vm_compute; reflexivity|discriminate]|]. vm_compute in N. discriminate.
Qed.
Print Assumptions C128_in_callback_refuted.
(** Close in the connection-terminated callback, after Disconnect: the disconnect thread
    waits for itself. *)
Theorem C128_in_terminated_refuted : ~ forall sched, keeps_open sched -> let s := crun (cinit [Some 3%nat] 0 [[ODisconnect]]) sched in all_rest s -> begun s 0 -> closed_back s 0.
Proof.
  intros H. specialize (H (go 2 5 ++ go 0 4 ++ go 3 7 ++ close 0 5) ltac:(auto 10 with opened)). cbn zeta in H.
  destruct H as (u & h & w & N); [apply rests_all; vm_compute; reflexivity|eexists; split; [vm_compute; reflexivity|discriminate]|]. vm_compute in N. discriminate.
Qed.
Print Assumptions C128_in_terminated_refuted.
(** A Dial that tested for Close just before connects when all is over. *)
Theorem C128_dial_refuted : ~ forall sched, keeps_open sched -> let s := crun (cinit [None] 1 []) sched in all_rest s -> closed_back s 0 -> connected (base s) = false.
Proof.
  intros H. specialize (H ([CDial 0] ++ close 0 6 ++ go 3 5 ++ go 0 9 ++ go 3 12 ++ go 2 9 ++ go 4 3)). cbn zeta in H.
  assert (KO : keeps_open ([CDial 0] ++ close 0 6 ++ go 3 5 ++ go 0 9 ++ go 3 12 ++ go 2 9 ++ go 4 3)) by (apply open_app; [repeat constructor; discriminate|auto 10 with opened]).
  specialize (H KO ltac:(apply rests_all; vm_compute; reflexivity) ltac:(exists 1%nat, None, false; vm_compute; reflexivity)). vm_compute in H. discriminate.
Qed.
Print Assumptions C128_dial_refuted.
(** Close after Disconnect calls the callback again. *)
Theorem C128_again_refuted : ~ forall sched, keeps_open sched -> (terminations (base (crun (cinit [None] 0 [[ODisconnect]]) sched)) <= 1)%nat.
Proof.
  intros H. specialize (H (go 2 5 ++ go 3 6 ++ go 0 9 ++ go 3 12 ++ close 0 6 ++ go 4 15) ltac:(auto 20 with opened)). vm_compute in H. lia.
Qed.
Print Assumptions C128_again_refuted.
