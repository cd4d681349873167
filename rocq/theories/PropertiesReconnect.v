(** Automatic reconnection (C108, C109). *)
From Coq Require Import Arith ZArith Lia.
From Verif Require Import Base ReconnectModel ReconnectSpec ReconnectProofs.
Open Scope nat_scope.

(** [i ^ n]: goroutine [i] takes [n] steps. *)
#[local] Notation "i ^ n" := (repeat (Go i) n).

(** ** C109 A lost connection is made again. *)
(** For every schedule without calls of Disconnect: however often the connection is lost
    and dialling fails, nothing crashes and no open connection is dropped for another;
    established and terminated callbacks balance; the goroutines can always come to
    rest; and at rest the subscriber is connected and one established callback ahead.
    Missing: schedules where the reader goes on to its next read before the goroutine
    it started to end the connection has set the flags ([prompt]), and, if the callback
    is handleReconnect, connections lost before it has returned ([lasting]). *)
Theorem C109_reconnects_partial : forall b sched s log,
  no_calls sched -> always orderly (start b 1) sched -> run (start b 1) [EEstablished] sched = (s, log) ->
  crashed s = false /\ ~ In EDropped log /\ terminated log <= S (established log) /\ established log <= S (terminated log) /\
  (at_rest s -> up s /\ established log = S (terminated log)) /\
  exists more, own_steps more /\ always orderly s more /\ at_rest (fst (run s log more)).
Proof. exact recovery. Qed.
Print Assumptions C109_reconnects_partial.

(** Without the restriction to [prompt]: the reader starts the goroutine that ends the
    connection twice; the second run finds autoReconnect's thread at work and waits for
    it while that thread waits for the callback mutex.  The connection is never made
    again: nothing happens any more, whatever the publisher does. *)
Definition twice : list act := [Closes] ++ 0^13 ++ 2^6 ++ 0^4 ++ 2^1 ++ 3^11 ++ 0^5 ++ 3^2 ++ 4^5 ++ 2^6 ++ 0^1 ++ 2^2 ++ 4^2.
Theorem C109_deadlock_refuted : exists sched t log,
  no_calls sched /\ run (start false 1) [EEstablished] sched = (t, log) /\ connected t = false /\ established log = 1 /\
  forall more, no_calls more -> run t log more = (t, log).
Proof.
  exists twice. eexists. eexists. split; [apply no_callsb_ok; vm_compute; reflexivity|]. split; [vm_compute; reflexivity|]. split; [reflexivity|]. split; [reflexivity|].
  apply frozen_run. vm_compute. reflexivity.
Qed.
Print Assumptions C109_deadlock_refuted.

(** With handleReconnect and a new connection that is lost before handleReconnect looks
    at it: the subscriber disconnects for good, *)
Definition gives_up : list act := [Closes] ++ 0^8 ++ 2^4 ++ 0^2 ++ 2^1 ++ 0^13 ++ 2^2 ++ 3^11 ++ [Closes] ++ 3^3 ++ 0^8 ++ 2^4 ++ 0^2 ++ 2^1 ++ 0^8 ++ 2^2 ++ 3^6 ++ 2^2 ++ 0^3 ++ 2^1 ++ 3^1 ++ 2^9.
Theorem C109_gives_up_refuted : exists sched t log,
  no_calls sched /\ always prompt (start true 1) sched /\ run (start true 1) [EEstablished] sched = (t, log) /\ down t /\
  forall more, no_calls more -> run t log more = (t, log).
Proof.
  exists gives_up. eexists. eexists. split; [apply no_callsb_ok; vm_compute; reflexivity|]. split; [apply alwaysb_ok; vm_compute; reflexivity|].
  split; [vm_compute; reflexivity|]. split; [apply is_down_down; vm_compute; reflexivity|]. apply frozen_run. vm_compute. reflexivity.
Qed.
Print Assumptions C109_gives_up_refuted.

(** or hangs: also every later Disconnect call returns without effect. *)
Definition hangs : list act := [Closes] ++ 0^8 ++ 2^4 ++ 0^2 ++ 2^1 ++ 0^13 ++ 2^2 ++ 3^11 ++ [Closes] ++ 3^3 ++ 0^8 ++ 2^4 ++ 0^2 ++ 2^1 ++ 0^9 ++ 2^2 ++ 3^6 ++ 2^2 ++ 3^1 ++ 0^4 ++ 3^3 ++ 2^2.
Theorem C109_hangs_refuted : exists sched t log,
  no_calls sched /\ always prompt (start true 1) sched /\ run (start true 1) [EEstablished] sched = (t, log) /\
  connected t = false /\ disconnecting t = true /\ forall more, run t log more = (t, log).
Proof.
  exists hangs. eexists. eexists. split; [apply no_callsb_ok; vm_compute; reflexivity|]. split; [apply alwaysb_ok; vm_compute; reflexivity|].
  split; [vm_compute; reflexivity|]. split; [reflexivity|]. split; [reflexivity|]. apply frozen_all. vm_compute. reflexivity.
Qed.
Print Assumptions C109_hangs_refuted.

(** Or a late second run forgets the new reader's thread before it is started: crash. *)
Definition forgets : list act := [Closes] ++ 0^13 ++ 2^6 ++ 0^4 ++ 3^11 ++ 0^5 ++ 3^1 ++ 0^3 ++ 4^5 ++ 0^5 ++ 5^5 ++ 0^1.
Theorem C109_crash_refuted : exists sched t log,
  no_calls sched /\ run (start false 1) [EEstablished] sched = (t, log) /\ crashed t = true.
Proof. exists forgets. eexists. eexists. split; [apply no_callsb_ok; vm_compute; reflexivity|]. split; [vm_compute; reflexivity|reflexivity]. Qed.
Print Assumptions C109_crash_refuted.

(** The callbacks do not alternate: a connection that is lost at once is reported as
    terminated before it is reported as established. *)
Definition swapped : list act := [Closes] ++ 0^8 ++ 2^4 ++ 0^2 ++ 2^1 ++ 0^13 ++ 2^2 ++ 3^11 ++ [Closes] ++ 3^3 ++ 0^8 ++ 2^4 ++ 0^2 ++ 2^1 ++ 0^6.
Theorem C109_order_refuted : exists sched t,
  no_calls sched /\ always orderly (start false 1) sched /\ run (start false 1) [EEstablished] sched = (t, [ETerminated; ETerminated; EEstablished]).
Proof.
  exists swapped. eexists. split; [apply no_callsb_ok; vm_compute; reflexivity|]. split; [apply alwaysb_ok; vm_compute; reflexivity|]. vm_compute. reflexivity.
Qed.
Print Assumptions C109_order_refuted.

(** The connection is lost, dialling fails once, and the connection is made again. *)
Definition loss : list act := [Closes] ++ 0^8 ++ 2^4 ++ 0^2 ++ 2^1 ++ 0^13 ++ 2^2 ++ 3^9 ++ [Refused 3] ++ 3^3 ++ 3^30 ++ 0^5 ++ 3^5.
Example C109_nonvacuous : no_calls loss /\ always orderly (start true 1) loss /\ stuck (fst (run (start true 1) [EEstablished] loss)) = true /\
  snd (run (start true 1) [EEstablished] loss) = [EEstablished; ETerminated; EEstablished].
Proof. split; [apply no_callsb_ok; vm_compute; reflexivity|]. split; [apply alwaysb_ok; vm_compute; reflexivity|]. vm_compute. split; reflexivity. Qed.

(** ** C108 Disconnect ends automatic reconnection. *)
(** Disconnect is called at any moment when the subscriber is at rest (and so, by C109,
    connected), after any history as in C109.  The publisher may close the connection,
    too, but not before Disconnect has set its flag.  Then nothing crashes, the
    terminated callback is called once and no other, the goroutines can come to rest,
    and at rest the subscriber is disconnected with nothing left that could reconnect.
    Missing: Disconnect calls while the connection is being lost or made again. *)
Theorem C108_disconnect_partial : forall b before s log after t log',
  no_calls before -> always orderly (start b 1) before -> run (start b 1) [EEstablished] before = (s, log) -> at_rest s ->
  no_calls after -> always late_close s (Calls 1 :: after) -> run s log (Calls 1 :: after) = (t, log') ->
  crashed t = false /\ (log' = log \/ log' = ETerminated :: log) /\
  (at_rest t -> down t /\ log' = ETerminated :: log) /\
  exists more, own_steps more /\ at_rest (fst (run t log' more)).
Proof. exact finishing_ends. Qed.
Print Assumptions C108_disconnect_partial.

(** Disconnect called while the subscriber waits to reconnect: Cancel stops the timer, so
    the wait never ends, and the goroutine of Disconnect waits for it.  Nothing happens
    any more, and the subscriber stays disconnecting for ever. *)
Definition waiting : list act := [Closes] ++ 0^8 ++ 2^4 ++ 0^2 ++ 2^1 ++ 0^13 ++ 2^2 ++ 3^3 ++ [Calls 1] ++ 1^4 ++ 0^4.
Theorem C108_waiting_refuted : exists before s log after t log',
  no_calls before /\ always orderly (start false 1) before /\ run (start false 1) [EEstablished] before = (s, log) /\
  own_steps after /\ run s log (Calls 1 :: after) = (t, log') /\ disconnecting t = true /\ forall more, run t log' more = (t, log').
Proof.
  exists (fst (split_call waiting)). eexists. eexists. exists (snd (split_call waiting)). eexists. eexists.
  split; [apply no_callsb_ok; vm_compute; reflexivity|]. split; [apply alwaysb_ok; vm_compute; reflexivity|]. split; [vm_compute; reflexivity|].
  split; [apply own_stepsb_ok; vm_compute; reflexivity|]. split; [vm_compute; reflexivity|]. split; [reflexivity|]. apply frozen_all. vm_compute. reflexivity.
Qed.
Print Assumptions C108_waiting_refuted.

(** Disconnect called while the connection is being lost: it returns, and the subscriber
    connects again and stays connected. *)
Definition reconnected : list act := [Closes] ++ 0^8 ++ [Calls 1] ++ 2^3 ++ 1^1 ++ 2^1 ++ 0^2 ++ 2^1 ++ 0^13 ++ 1^3 ++ 2^2 ++ 3^14 ++ 0^2 ++ 3^3.
Theorem C108_reconnects_refuted : exists before s log after t log',
  no_calls before /\ always orderly (start false 1) before /\ run (start false 1) [EEstablished] before = (s, log) /\
  own_steps after /\ run s log (Calls 1 :: after) = (t, log') /\ at_rest t /\ up t /\ log' = [EEstablished; ETerminated; EEstablished].
Proof.
  exists (fst (split_call reconnected)). eexists. eexists. exists (snd (split_call reconnected)). eexists. eexists.
  split; [apply no_callsb_ok; vm_compute; reflexivity|]. split; [apply alwaysb_ok; vm_compute; reflexivity|]. split; [vm_compute; reflexivity|].
  split; [apply own_stepsb_ok; vm_compute; reflexivity|]. split; [vm_compute; reflexivity|]. split; [apply stuck_rest; vm_compute; reflexivity|].
  split; [apply is_up_up; vm_compute; reflexivity|reflexivity].
Qed.
Print Assumptions C108_reconnects_refuted.

(** Disconnect called while the connection is being lost may also crash. *)
Definition both : list act := [Closes] ++ 0^8 ++ [Calls 1] ++ 1^1 ++ 2^2 ++ 1^3 ++ 2^2 ++ 0^2 ++ 2^1 ++ 0^4 ++ 2^2 ++ 3^8 ++ 0^1 ++ 3^1.
Theorem C108_crash_refuted : exists before s log after t log',
  no_calls before /\ always orderly (start false 1) before /\ run (start false 1) [EEstablished] before = (s, log) /\
  own_steps after /\ run s log (Calls 1 :: after) = (t, log') /\ crashed t = true.
Proof.
  exists (fst (split_call both)). eexists. eexists. exists (snd (split_call both)). eexists. eexists.
  split; [apply no_callsb_ok; vm_compute; reflexivity|]. split; [apply alwaysb_ok; vm_compute; reflexivity|]. split; [vm_compute; reflexivity|].
  split; [apply own_stepsb_ok; vm_compute; reflexivity|]. split; [vm_compute; reflexivity|reflexivity].
Qed.
Print Assumptions C108_crash_refuted.

(** After the loss above Disconnect is called, and the publisher closes at the same time. *)
Definition call : list act := 1^4 ++ [Closes] ++ 2^40 ++ 0^4 ++ 2^10.
Example C108_nonvacuous :
  let s := fst (run (start true 1) [EEstablished] loss) in
  let '(t, log) := run s [EEstablished; ETerminated; EEstablished] (Calls 1 :: call) in
  always late_close s (Calls 1 :: call) /\ stuck t = true /\ is_down t = true /\ log = [ETerminated; EEstablished; ETerminated; EEstablished].
Proof. vm_compute. repeat split. Qed.
