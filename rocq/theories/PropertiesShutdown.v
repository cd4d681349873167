(** How connections end (C102-C104). *)
From Coq Require Import Arith Lia.
From Verif Require Import Base ConcModel ShutdownModel ShutdownSpec ShutdownProofs ShutdownLost ShutdownAgain.

Definition steps (i n : nat) : list sact := map Go (repeat i n).
Lemma steps_stay i n : publisher_stays (steps i n).
Proof. unfold publisher_stays, steps. rewrite Forall_map. apply Forall_forall. eauto. Qed.

(** * C102 *)

(** Missing for the full property: a publisher that closes the connection meanwhile
    (see the crash below), and that the callback is called once rather than at most
    once for each call of Disconnect. *)
Theorem C102_disconnect_partial : forall calls sched, disconnecting_only calls -> publisher_stays sched ->
  let s := srun (sconnected calls) sched in
  crashed s = false /\ (terminations s <= calls_of calls)%nat /\ (moves (sconnected calls) sched <= 20 * calls_of calls + 8)%nat /\
  (at_rest s -> returned s /\ ((0 < calls_of calls)%nat -> down s /\ In 1%nat (closed s) /\ (1 <= terminations s)%nat)).
Proof. exact disconnect_shuts_down. Qed.
Print Assumptions C102_disconnect_partial.

(** One call: exactly one callback. *)
Theorem C102_one_call_partial : forall sched, publisher_stays sched ->
  let s := srun (sconnected [[ODisconnect]]) sched in at_rest s -> terminations s = 1%nat /\ down s /\ In 1%nat (closed s) /\ returned s.
Proof.
  intros sched P s R. destruct (disconnect_shuts_down [[ODisconnect]] sched ltac:(repeat constructor) P) as (_ & T & _ & D). specialize (D R) as (D1 & D2).
  specialize (D2 ltac:(cbn; lia)) as (D2 & D3 & D4). fold s in T, D4. cbn in T. split; [lia|]. auto.
Qed.
Print Assumptions C102_one_call_partial.

(** Two goroutines disconnect at once: the second finds the disconnection under way. *)
Definition two_callers : list sact := steps 0 3 ++ [Go 1; Go 1; Go 1; Go 2] ++ steps 1 2 ++ steps 3 6 ++ steps 0 5 ++ steps 3 9.
Example C102_example : disconnecting_only [[ODisconnect]; [ODisconnect]] /\ publisher_stays two_callers /\
  let s := srun (sconnected [[ODisconnect]; [ODisconnect]]) two_callers in at_rest s /\ terminations s = 1%nat /\ down s.
Proof.
  split; [repeat constructor|]. split; [unfold two_callers; repeat (apply Forall_app; split); auto using steps_stay; repeat constructor; eauto|].
  cbn zeta. split; [|vm_compute; auto]. intros i. destruct (Nat.lt_ge_cases i 5) as [L|L]; [do 5 (destruct i as [|i]; [vm_compute; reflexivity|]); lia|].
  unfold sstep. destruct (crashed _); [reflexivity|]. assert (nth_error (sgors (srun (sconnected [[ODisconnect]; [ODisconnect]]) two_callers)) i = None) as ->; [|reflexivity].
  apply nth_error_None. vm_compute. lia.
Qed.
(** Where [sconnected] comes from: a new subscriber that connects has a connection, a
    reader that is about to start and nothing else under way. *)
Example C102_connected_state : let s := srun (sinit [[OConnect]]) (steps 0 6) in let t := sconnected [[]] in
  sgors s = [User UIdle []; Reader 1 RdNew] /\ sgors t = [Reader 1 RdNew; User UIdle []] /\ cmd s = Some 1%nat /\ cmd t = Some 0%nat /\
  (connected s, disconnecting s, disconnected s, trunning s, theld s, action s, conns s, dthread s, closed s, gone s, crashed s, slog s)
  = (connected t, disconnecting t, disconnected t, trunning t, theld t, action t, conns t, dthread t, closed t, gone t, crashed t, slog t).
Proof. vm_compute. repeat split; reflexivity. Qed.

(** Disconnect while the publisher closes the connection: both the disconnect thread of
    the termination thread, which does not lock, and that of Disconnect find a reader to
    join; the first forgets it and the second uses a nil pointer. *)
Definition racing : list sact :=
  steps 0 2 ++ [Closes 1] ++ steps 0 6 ++ steps 2 2 ++ steps 1 5 ++ steps 2 5 ++ steps 0 3 ++ steps 3 5 ++ steps 4 5 ++ [Go 3].
Theorem C102_crash_refuted : ~ forall sched, crashed (srun (sconnected [[ODisconnect]]) sched) = false.
Proof. intros H. specialize (H racing). vm_compute in H. discriminate. Qed.
Print Assumptions C102_crash_refuted.
(** Without the crash the callback is called twice for one connection and one call of Disconnect. *)
Theorem C102_twice_refuted : ~ forall sched, (terminations (srun (sconnected [[ODisconnect]]) sched) <= 1)%nat.
Proof.
  intros H. specialize (H (steps 0 2 ++ [Closes 1] ++ steps 0 6 ++ steps 2 2 ++ steps 1 5 ++ steps 2 5 ++ steps 0 3 ++ steps 3 9 ++ steps 4 9)). vm_compute in H. lia.
Qed.
Print Assumptions C102_twice_refuted.
(** Disconnecting again calls the callback again, and disconnecting without a connection
    calls it too. *)
Theorem C102_again_refuted :
  ~ (forall sched, publisher_stays sched -> (terminations (srun (sconnected [[ODisconnect; ODisconnect]]) sched) <= 1)%nat) /\
  ~ (forall sched, (terminations (srun (sinit [[ODisconnect]]) sched) <= established (srun (sinit [[ODisconnect]]) sched))%nat).
Proof.
  split; intros H.
  - specialize (H (steps 0 3 ++ steps 1 5 ++ steps 2 7 ++ steps 0 4 ++ steps 2 9 ++ steps 1 5 ++ steps 3 15)).
    assert (P : publisher_stays (steps 0 3 ++ steps 1 5 ++ steps 2 7 ++ steps 0 4 ++ steps 2 9 ++ steps 1 5 ++ steps 3 15)) by (repeat (apply Forall_app; split); apply steps_stay).
    specialize (H P). vm_compute in H. lia.
  - specialize (H (steps 0 9 ++ steps 1 15)). vm_compute in H. lia.
Qed.
Print Assumptions C102_again_refuted.

(** * C103 *)

(** Missing for the full property: that the callback is called once, not twice, and
    that a goroutine that always gets its turn comes to rest by itself. *)
Theorem C103_lost_partial : forall sched, let s := srun (sconnected []) sched in
  crashed s = false /\ (terminations s <= 2)%nat /\
  (~ In 1%nat (gone s) -> connected s = true /\ terminations s = 0%nat /\ closed s = []) /\
  (In 1%nat (gone s) -> at_rest s -> down s /\ In 1%nat (closed s) /\ (1 <= terminations s)%nat) /\
  (In 1%nat (gone s) -> exists more, at_rest (srun s more)).
Proof. exact publisher_leaves. Qed.
Print Assumptions C103_lost_partial.
Definition leaving : list sact := steps 0 2 ++ [Closes 1] ++ steps 0 6 ++ steps 1 7 ++ steps 0 3 ++ steps 2 10.
Example C103_example : let s := srun (sconnected []) leaving in In 1%nat (gone s) /\ at_rest s /\ terminations s = 1%nat /\ down s.
Proof.
  cbn zeta. split; [vm_compute; auto|]. split; [|vm_compute; auto]. apply stuck_rest; [vm_compute; lia|vm_compute; reflexivity].
Qed.

(** The reader finds the termination thread not running yet, waits for its mutex and
    starts it a second time: two callbacks for one connection that the publisher closed. *)
Definition second_run (d : nat) : list sact :=
  steps 0 2 ++ [Closes 1] ++ steps 0 11 ++ steps (1 + d) 6 ++ steps 0 5 ++ steps (1 + d) 1 ++ steps (2 + d) 10.
Theorem C103_once_refuted : ~ forall sched, (terminations (srun (sconnected []) sched) <= 1)%nat.
Proof. intros H. specialize (H (second_run 0 ++ steps 3 8 ++ steps 4 10)). vm_compute in H. lia. Qed.
Print Assumptions C103_once_refuted.

(** * C104 *)

(** Missing for the full property: connecting before everything of the last connection
    has come to rest. *)
Theorem C104_after_disconnect_partial : forall calls sched later,
  disconnecting_only calls -> publisher_stays sched -> (0 < calls_of calls)%nat -> at_rest (srun (sconnected calls) sched) -> publisher_stays later ->
  let s := srun (sconnected calls) sched in let t := srun (later_calls s [OConnect]) later in
  crashed t = false /\ terminations t = terminations s /\ closed t = closed s /\
  (at_rest t -> returned t /\ up t /\ slog t = EEstablished 2 :: slog s).
Proof. exact disconnect_then_connect. Qed.
Print Assumptions C104_after_disconnect_partial.
Theorem C104_after_loss_partial : forall sched later,
  In 1%nat (gone (srun (sconnected []) sched)) -> at_rest (srun (sconnected []) sched) -> publisher_stays later ->
  let s := srun (sconnected []) sched in let t := srun (later_calls s [OConnect]) later in
  crashed t = false /\ terminations t = terminations s /\ closed t = closed s /\
  (at_rest t -> returned t /\ up t /\ slog t = EEstablished 2 :: slog s).
Proof. exact lost_then_connect. Qed.
Print Assumptions C104_after_loss_partial.
(** [leaving] meets the hypotheses of the last theorem, [two_callers] those of the first;
    connecting then takes seven steps and two of the reader. *)
Example C104_example : let s := srun (sconnected []) leaving in let t := srun (later_calls s [OConnect]) (steps 3 7 ++ steps 4 5) in
  connected t = true /\ slog t = [EEstablished 2; ETerminated; EEstablished 1] /\ nth_error (sgors t) 4 = Some (Reader 2 RdRead).
Proof. vm_compute. auto. Qed.

(** One goroutine calls Disconnect and then Connect: connect does not wait, as the
    disconnect thread has been started but does not run yet.  It then closes the new
    connection, and the old one stays open. *)
Theorem C104_sequential_refuted : ~ forall sched, publisher_stays sched -> let s := srun (sconnected [[ODisconnect; OConnect]]) sched in ~ cut s 2 /\ (2 <= conns s -> In 1 (closed s))%nat.
Proof.
  intros H. specialize (H (steps 1 11 ++ steps 2 5)). cbn zeta in H.
  assert (P : publisher_stays (steps 1 11 ++ steps 2 5)) by (apply Forall_app; split; apply steps_stay). specialize (H P) as (_ & H). vm_compute in H.
  destruct H as [H|[]]; [lia|discriminate].
Qed.
Print Assumptions C104_sequential_refuted.
Theorem C104_new_connection_refuted : ~ forall sched, publisher_stays sched -> ~ cut (srun (sconnected [[ODisconnect; OConnect]]) sched) 2.
Proof.
  intros H. apply (H (steps 1 11 ++ steps 2 5)); [apply Forall_app; split; apply steps_stay|]. vm_compute. split; [auto|tauto].
Qed.
Print Assumptions C104_new_connection_refuted.
(** The publisher closed the first connection, the application connected again, nobody
    called Disconnect: the second run of the termination thread closes the new connection. *)
Theorem C104_late_run_refuted : ~ forall sched, ~ cut (srun (sconnected [[OConnect]]) sched) 2.
Proof.
  intros H. apply (H (second_run 1 ++ steps 1 7 ++ steps 4 8 ++ steps 6 10)). vm_compute. split; [auto|]. intros [E|[]]. discriminate.
Qed.
Print Assumptions C104_late_run_refuted.
