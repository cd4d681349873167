(** Goroutine interactions (C39 - C43, C76, C77). *)
From Coq Require Import Lia.
From Verif Require Import Base FrameSpec ConcModel ConcSpec ConcProofs ConcBuffer.

(** ** C39: Thread, one run per Start, Join waits *)

(** Whatever is called from however many goroutines and however they are
    scheduled, the function never begins more often than Start succeeded, and
    when every goroutine has finished it has run to the end exactly once per
    successful Start. *)
Theorem C39_runs_once_per_start : forall calls sched,
  let s := run tstep (tinit calls) sched in
  (ended s <= began s <= started s)%nat /\ (all_finished s -> ended s = started s).
Proof. intros. split; [apply ended_le_began_le_started|apply finished_all_ran]. Qed.

(** No schedule can block for ever: from every reachable state all goroutines can
    run to their ends. *)
Theorem C39_thread_never_deadlocks : forall calls sched,
  exists more, all_finished (run tstep (tinit calls) (sched ++ more)).
Proof. exact thread_completes. Qed.

(** A Join that saw the running flag returns only when every execution started so
    far has ended: at the moment it holds the mutex there is none under way. *)
Theorem C39_join_waits_partial : forall calls sched i todo,
  let s := run tstep (tinit calls) sched in
  nth_error (gors s) i = Some (Caller CJoinUnlock todo) -> ended s = started s.
Proof. exact join_waited. Qed.

(** A Join directly after Start may return before the function has even begun. *)
Theorem C39_join_after_start_returns_early_refuted : exists sched,
  let s := run tstep (tinit [[Start; Join]]) sched in
  log s = [EJoined 0; EStarted] /\ nth_error (gors s) 0 = Some (Caller CIdle []).
Proof. exists [0; 0; 0; 0]%nat. split; reflexivity. Qed.

(** The running flag of a second execution can be cleared by the end of the
    first, so that a Join returns in the middle of an execution that had begun. *)
Theorem C39_join_returns_during_execution_refuted : exists sched,
  let s := run tstep (tinit [[Start; TryStart; Join]; [TryStart; TryStart; TryStart]]) sched in
  executions_in_progress s = 1%nat /\ hd EStarted (log s) = EJoined 0 /\ began s = 2%nat.
Proof.
  (* 0 starts; 1 passes both checks of TryStart and waits for the mutex; the first
     execution ends and releases the mutex; 1 starts the second, which begins; the
     first clears the flag; 0 joins. *)
  exists [0; 0; 0; 1; 1; 2; 0; 2; 2; 1; 1; 3; 2; 0]%nat. vm_compute. auto.
Qed.

(** While the first execution is under way, Start panics ("thread is already
    running") and TryStart reports that it did not start. *)
Theorem C39_start_while_executing_partial : forall calls sched i r,
  let s := run tstep (tinit calls) sched in
  began s = 1%nat -> executions_in_progress s = 1%nat ->
  (nth_error (gors s) i = Some (Caller CIdle (Start :: r)) ->
   nth_error (gors (run tstep s [i])) i = Some (Caller CPanicked r)) /\
  (nth_error (gors s) i = Some (Caller CIdle (TryStart :: r)) ->
   nth_error (gors (run tstep s [i])) i = Some (Caller CIdle r) /\ started (run tstep s [i]) = started s).
Proof. exact start_panics. Qed.
Example C39_start_nonvacuous :
  let s := run tstep (tinit [[Start; Join]; [Start]]) [0; 0; 0; 2]%nat in
  began s = 1%nat /\ executions_in_progress s = 1%nat /\ nth_error (gors s) 1 = Some (Caller CIdle [Start]).
Proof. vm_compute. auto. Qed.

Example C39_nonvacuous :
  let s := run tstep (tinit [[Start; Join]; [Join]]) [0; 0; 0; 2; 1; 0; 2; 2; 1]%nat in
  nth_error (gors s) 1 = Some (Caller CJoinUnlock []) /\ ended s = 1%nat /\ began s = 1%nat.
Proof. vm_compute. auto. Qed.

(** ** C40: no overlapping executions *)

Theorem C40_one_execution_at_a_time : forall calls sched,
  (executions_in_progress (run tstep (tinit calls) sched) <= 1)%nat.
Proof. exact one_execution. Qed.

Example C40_nonvacuous :
  let calls := [[Start; TryStart]; [TryStart; Start]; [TryStart]] in
  executions_in_progress (run tstep (tinit calls) [0; 1; 1; 2; 2; 0; 0; 3]%nat) = 1%nat /\
  started (run tstep (tinit calls) [0; 1; 1; 2; 2; 0; 0; 3; 3; 3; 1; 1; 4; 4; 4; 2; 2]%nat) = 3%nat.
Proof. vm_compute. auto. Qed.

(** ** C41: reporting from callbacks *)

(** A callback running inside the lock that reports a message (as the default
    connection-established handler does) and another goroutine registering a
    callback can block each other for ever, and every later caller too. *)
Theorem C41_report_in_callback_deadlocks_refuted : exists sched,
  forall more, ~ all_done (run lstep (linit [callback report; setter]) (sched ++ more)).
Proof.
  exists [0; 1]%nat. intros more. rewrite run_app.
  change (run lstep (linit [callback report; setter]) [0; 1]%nat) with dead.
  rewrite (lstuck dead dead_stuck). intros H. inversion H. discriminate.
Qed.

(** A callback that registers a callback guarded by the same lock always blocks. *)
Theorem C41_setter_in_callback_always_deadlocks_refuted : forall sched,
  ~ all_done (run lstep (linit [callback setter]) sched).
Proof. exact callback_setter_never. Qed.

(** Goroutines which never enter the lock while they are inside it - reports,
    setters and callbacks that do neither, in any number and any order - never
    deadlock. *)
Theorem C41_flat_code_never_deadlocks_partial : forall progs sched,
  Forall flat progs -> exists more, all_done (run lstep (linit progs) (sched ++ more)).
Proof. exact flat_completes. Qed.

Example C41_nonvacuous :
  Forall flat [callback []; report ++ report; setter ++ report; setter] /\
  all_done (run lstep (linit [callback []; setter]) [0; 1; 0; 1; 1]%nat).
Proof. split; [repeat constructor|]. vm_compute. repeat constructor. Qed.

(** ** C42: measurement reader *)

(** For every delivering goroutine: what NextMeasurement has returned from it,
    followed by what it has still to deliver, is exactly what it received, in
    order - nothing lost, repeated or reordered, for any schedule of any number
    of reading goroutines. *)
Theorem C42_order_no_loss_partial : forall A (bs : list (list (list A))) sched i rest batches0,
  let s := mrun (minit bs) sched in
  nth_error (batches s) i = Some rest -> nth_error bs i = Some batches0 ->
  from i (results s) ++ concat rest = concat batches0.
Proof. intros A. exact reader_order. Qed.

(** As long as the reader is not closed a call returns a measurement or says that it
    completed, and it says so only if its context is done. *)
Theorem C42_no_nil_until_close_partial : forall A (bs : list (list (list A))) sched,
  existsb is_close sched = false ->
  let s := mrun (minit bs) sched in
  closed s = false /\ crashed s = false /\ forall c, ~ In (c, Nil) (results s).
Proof. intros A. exact reader_no_close. Qed.
Theorem C42_completed : forall A (bs : list (list (list A))) sched c,
  In (c, Completed) (results (mrun (minit bs) sched)) -> In (End c) sched.
Proof. intros A. exact reader_completed. Qed.

(** Calling NextMeasurement often enough returns every measurement received. *)
Theorem C42_everything_arrives_partial : forall A (b : list (list A)) cs,
  (length (concat b) <= length cs)%nat ->
  map snd (results (mrun (minit [b]) (map (fun c => Next c 0) cs))) = map (Got 0) (concat b).
Proof. intros A. exact reader_all. Qed.
(** In whatever state an open reader is, a call can receive the next measurement of
    each goroutine that has one to deliver. *)
Theorem C42_meets : forall A (s : mstate A) c i b,
  closed s = false -> crashed s = false -> nth_error (batches s) i = Some b -> concat b <> [] ->
  exists m s', mstep s (Next c i) = Some s' /\ results s' = results s ++ [(c, Got i m)] /\ hd_error (concat b) = Some m.
Proof. intros A. exact reader_meets. Qed.

Example C42_nonvacuous :
  results (mrun (minit [[[1; 2]; []; [3]]; [[10]; [11]]]) [Next 0 0; Next 1 1; End 1; Next 0 0; Expire 1; Expire 0; Next 1 0; Next 0 1])
  = [(0%nat, Got 0 1); (1%nat, Got 1 10); (0%nat, Got 0 2); (1%nat, Completed); (1%nat, Got 0 3); (0%nat, Got 1 11)].
Proof. reflexivity. Qed.

(** After Close, NextMeasurement returns nil without saying that it completed,
    and the arrival of one more measurement ends the program. *)
Theorem C42_after_close_refuted : forall A (m : A) rest,
  let s := mrun (minit [[m :: rest]]) [Close; Next 0 0; Deliver 0] in
  results s = [(0%nat, Nil)] /\ crashed s = true.
Proof. intros. split; reflexivity. Qed.

(** ** C43: metadata lookup *)

(** Two goroutines looking up the same new signal can get different records, and
    one of them is not the one later lookups find. *)
Theorem C43_racing_lookups_differ_refuted : exists sched,
  let s := run kstep (kinit [[7]; [7; 7]]) sched in
  found s = [(7, 0%nat); (7, 1%nat); (7, 0%nat)].
Proof. exists [0; 1; 0; 1; 1]%nat. reflexivity. Qed.

(** Once a signal is registered and no first lookup of it is under way, every
    lookup from any goroutine returns the registered record. *)
Theorem C43_registered_record_shared_partial : forall sid v s,
  assoc (registry s) sid = Some v -> Forall (fun g => ~ missed sid g) (kgors s) ->
  forall sched, exists new, found (run kstep s sched) = new ++ found s /\
    Forall (fun p => fst p = sid -> snd p = v) new.
Proof. exact lookup_after_stored. Qed.

(** Lookups from a single goroutine always return the registered record. *)
Theorem C43_single_goroutine_partial : forall lookups sched p,
  let s := run kstep (kinit [lookups]) sched in
  In p (found s) -> assoc (registry s) (fst p) = Some (snd p).
Proof. intros lookups sched. exact (lookup_sequential lookups sched). Qed.

Example C43_nonvacuous :
  found (run kstep (kinit [[7; 8; 7; 8]]) (repeat 0%nat 6)) =
  [(8, 1%nat); (7, 0%nat); (8, 1%nat); (7, 0%nat)] /\
  let s := run kstep (kinit [[7]; [7]; [7; 7]]) [0; 0]%nat in
  assoc (registry s) 7 = Some 0%nat /\ Forall (fun g => ~ missed 7 g) (kgors s).
Proof. split; [reflexivity|]. split; [reflexivity|]. repeat constructor; cbn; auto. Qed.

(** ** C76: commands from several goroutines *)

(** Two goroutines sending at the same time can put on the wire bytes that are
    not the two frames in either order: here both writes carry the second
    command, and the first one is lost. *)
Theorem C76_concurrent_sends_corrupt_refuted : exists sched,
  let s := run bstep (binit 64 [[(1, [65; 66])]; [(5, [67; 68])]]) sched in
  bgors s = [[]; []] /\ wire s = frame 5 [67; 68] ++ frame 5 [67; 68].
Proof.
  exists (repeat 0%nat 7 ++ repeat 1%nat 8 ++ [0%nat]). vm_compute. auto.
Qed.

(** A mixture of both commands can be sent too. *)
Theorem C76_concurrent_sends_mix_refuted : exists sched,
  let s := run bstep (binit 64 [[(1, [65; 66])]; [(5, [67; 68])]]) sched in
  bgors s = [[]; []] /\ wire s = frame 5 [67; 66] ++ frame 5 [67; 68].
Proof.
  exists (repeat 0%nat 6 ++ repeat 1%nat 6 ++ repeat 0%nat 2 ++ repeat 1%nat 2).
  vm_compute. auto.
Qed.

(** Commands sent from one goroutine arrive as their frames, in order. *)
Theorem C76_one_sender_partial : forall size cmds n,
  Forall (fun c => (5 + length (snd c) <= size)%nat) cmds ->
  (length (flat_map (fun c => send_program (fst c) (snd c)) cmds) <= n)%nat ->
  wire (run bstep (binit size [cmds]) (repeat 0%nat n))
  = concat (map (fun c => frame (fst c) (snd c)) cmds).
Proof. exact one_sender. Qed.

Example C76_nonvacuous :
  wire (run bstep (binit 64 [[(6, [1; 2; 3]); (3, [])]]) (repeat 0%nat 20))
  = [0; 0; 0; 4; 6; 1; 2; 3; 0; 0; 0; 1; 3].
Proof. reflexivity. Qed.

(** ** C77: Unsubscribe and the framing of later responses *)

(** A header read while Unsubscribe has the disconnecting flag set is dropped:
    the body is then read as the next header.  Two packets were sent; what is
    processed is neither. *)
Theorem C77_unsubscribe_loses_framing_refuted : exists sched,
  let ps := [[0; 0; 0; 1; 9]; [1; 2]] in
  let s := run ustep (uinit (concat (map packet_wire ps))) sched in
  disconnecting s = false /\ processed s = [[9]; [1; 2]].
Proof. exists [0; 1; 0; 1; 0; 0; 0; 0; 0; 0; 0; 0]%nat. vm_compute. auto. Qed.

Theorem C77_unsubscribe_loses_packet_refuted : exists sched,
  let ps := [[7; 7]; [1; 2]] in
  let s := run ustep (uinit (concat (map packet_wire ps))) sched in
  disconnecting s = false /\ processed s = [[1; 2]].
Proof. exists [0; 0; 0; 1; 0; 1; 0; 0; 0; 0]%nat. vm_compute. auto. Qed.

(** When the reader does not test the flag while it is set, the packets processed
    are exactly the first packets sent. *)
Theorem C77_undisturbed_framing_partial : forall ps sched,
  Forall (fun p => len p < 2 ^ 32) ps ->
  undisturbed (uinit (concat (map packet_wire ps))) sched = true ->
  exists rest, ps = processed (run ustep (uinit (concat (map packet_wire ps))) sched) ++ rest.
Proof. exact undisturbed_prefix. Qed.

Example C77_nonvacuous :
  let ps := [[7; 7]; [1; 2]] in
  let sched := [0; 0; 1; 1; 0; 0; 0; 0; 0; 0]%nat in
  undisturbed (uinit (concat (map packet_wire ps))) sched = true /\
  processed (run ustep (uinit (concat (map packet_wire ps))) sched) = ps.
Proof. vm_compute. auto. Qed.

Print Assumptions C39_runs_once_per_start.
Print Assumptions C39_thread_never_deadlocks.
Print Assumptions C39_join_waits_partial.
Print Assumptions C39_start_while_executing_partial.
Print Assumptions C39_join_after_start_returns_early_refuted.
Print Assumptions C39_join_returns_during_execution_refuted.
Print Assumptions C40_one_execution_at_a_time.
Print Assumptions C41_report_in_callback_deadlocks_refuted.
Print Assumptions C41_setter_in_callback_always_deadlocks_refuted.
Print Assumptions C41_flat_code_never_deadlocks_partial.
Print Assumptions C42_order_no_loss_partial.
Print Assumptions C42_no_nil_until_close_partial.
Print Assumptions C42_everything_arrives_partial.
Print Assumptions C42_completed.
Print Assumptions C42_meets.
Print Assumptions C42_after_close_refuted.
Print Assumptions C43_racing_lookups_differ_refuted.
Print Assumptions C43_registered_record_shared_partial.
Print Assumptions C43_single_goroutine_partial.
Print Assumptions C76_concurrent_sends_corrupt_refuted.
Print Assumptions C76_concurrent_sends_mix_refuted.
Print Assumptions C76_one_sender_partial.
Print Assumptions C77_unsubscribe_loses_framing_refuted.
Print Assumptions C77_unsubscribe_loses_packet_refuted.
Print Assumptions C77_undisturbed_framing_partial.
