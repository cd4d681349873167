(** The callback locks of the three objects together: deadlocks (C138) and races (C139). *)
From Coq Require Import List Arith Lia.
From Verif Require Import ConcModel ConcProofs LocksModel LocksSpec LocksProofs.
Import ListNotations.
Open Scope list_scope.

(** ** C138 *)

(** Any number of goroutines dialing, listening, reconnecting, receiving,
    registering and reporting, in any order and under every schedule, can always
    finish, provided callbacks inside the Subscriber's lock use no lock, those
    inside the DataSubscriber's only report and register with the Subscriber,
    no command fails while a listening subscriber is being connected to, and no
    connection is lost again before the reconnection has ended. *)
Theorem C138_never_deadlock_partial : forall progs sched, Forall quiet progs -> exists more, finished (run gstep (ginit progs) (sched ++ more)).
Proof. intros progs sched Q. apply ordered_completes. apply (Forall_impl _ quiet_ordered Q). Qed.
Print Assumptions C138_never_deadlock_partial.

(** A metadata receiver that registers a new-measurements receiver, and a
    new-measurements receiver that registers a status logger, can stop each other for ever ... *)
Definition metadata_sets : list act := sb_callback SbMetadata (set_ds DsMeasurements) 0.
Theorem C138_receivers_that_register_refuted : exists sched, forall more,
  ~ finished (run gstep (ginit [metadata_sets; ds_callback DsMeasurements (set_sb SbStatus)]) (sched ++ more)).
Proof.
  exists [0; 0; 1; 1; 0; 1]. intros more. rewrite run_app. rewrite stuck_stays; [|intros [|[|i]]; [reflexivity|reflexivity|destruct i; reflexivity]].
  intros F. inversion F as [|g s T]. vm_compute in T. discriminate.
Qed.
Print Assumptions C138_receivers_that_register_refuted.
(** ... and so can one that only reports a status, when a third goroutine registers a receiver. *)
Theorem C138_receiver_that_reports_refuted : exists sched, forall more,
  ~ finished (run gstep (ginit [metadata_sets; ds_callback DsMeasurements (report SbStatus); set_sb SbConfig]) (sched ++ more)).
Proof.
  exists [0; 0; 1; 1; 0; 2]. intros more. rewrite run_app. rewrite stuck_stays; [|intros [|[|[|i]]]; [reflexivity|reflexivity|reflexivity|destruct i; reflexivity]].
  intros F. inversion F as [|g s T]. vm_compute in T. discriminate.
Qed.
Print Assumptions C138_receiver_that_reports_refuted.
(** No receiver need do anything: a listening subscriber whose first command fails,
    while a receiver is being registered, stops for ever. *)
Theorem C138_listening_refuted : forall f, exists sched, forall more, ~ finished (run gstep (ginit [accepted [] 1; set_ds f]) (sched ++ more)).
Proof.
  intros f. exists [0; 0; 0; 0; 0; 0; 0; 0; 1]. intros more. rewrite run_app. rewrite stuck_stays; [|intros [|[|i]]; [reflexivity|reflexivity|destruct i; reflexivity]].
  intros F. inversion F as [|g s T]. vm_compute in T. discriminate.
Qed.
Print Assumptions C138_listening_refuted.

(** Nor need the subscriber listen: a connection that is lost again while the
    reconnection is still sending its first command, which fails, and a receiver
    being registered, stop each other for ever. *)
Theorem C138_reconnecting_refuted : forall f, exists sched, forall more, ~ finished (run gstep (ginit [reconnected 0 [] 1; reconnecting (Some 0); set_ds f]) (sched ++ more)).
Proof.
  intros f. exists ([0; 0; 0; 0; 0; 0; 0; 0; 0] ++ [1; 1; 2]). intros more. rewrite run_app. rewrite stuck_stays; [|intros [|[|[|i]]]; [reflexivity|reflexivity|reflexivity|destruct i; reflexivity]].
  intros F. inversion F as [|g s T]. vm_compute in T. discriminate.
Qed.
Print Assumptions C138_reconnecting_refuted.

(** Dialing, a reconnection, a receiver of measurements that reports, a
    connection-terminated receiver that registers, messages and setters *)
Definition example_goroutines : list (list act) :=
  [dial true 2 [] 1 ++ set_updated; reconnecting None ++ reconnected 1 [] 2; ds_callback DsMeasurements (report SbStatus ++ report SbError ++ []);
   ds_callback DsTerminated (set_sb SbEstablished ++ []) ++ dispatch DsError; start_time []; sb_callback SbMetadata [] 1; set_ds DsNotification ++ set_sb SbConfig; accepted [] 0].
Example C138_nonvacuous : Forall quiet example_goroutines.
Proof.
  unfold example_goroutines. repeat (apply Forall_cons || apply Forall_nil).
  - apply q_then; [apply q_dial|apply q_set_updated].
  - apply q_then; [apply q_reconnecting|apply q_reconnected].
  - apply q_ds_callback. apply h_report, h_report, h_nothing.
  - apply q_then; [apply q_ds_callback; apply h_set, h_nothing|apply q_dispatch].
  - apply q_start_time.
  - apply q_sb_callback.
  - apply q_then; [apply q_set_ds|apply q_set_sb].
  - apply q_accepted.
Qed.

(** ** C139 *)

(** While one goroutine assigns callbacks of an object, no other is in its lock. *)
Theorem C139_exclusive : forall progs sched l i j gi gj w, let s := run gstep (ginit progs) sched in
  nth_error s i = Some gi -> nth_error s j = Some gj -> In (l, true) (held gi) -> In (l, w) (held gj) -> w = true /\ i = j.
Proof.
  intros progs sched l i j gi gj w s Ni Nj Hi Hj. destruct (run_keeps excl excl_step sched _ (excl_init progs)) as [O A]. fold s in O, A.
  apply has_in in Hi. apply has_in in Hj. destruct w; [|exfalso; exact (A l i j gi gj Ni Nj Hi Hj)]. split; [reflexivity|].
  apply (O l i j gi gj Ni Nj); unfold writer; [rewrite Hi|rewrite Hj]; reflexivity.
Qed.
Print Assumptions C139_exclusive.

(** Whatever the receivers do, no callback is assigned while another goroutine
    reads or assigns it - registering, dialing, listening, connecting again,
    receiving and reporting.  SetSubscriptionUpdatedReceiver is left out. *)
Theorem C139_no_race_partial : forall progs sched f, Forall code progs -> ~ race (run gstep (ginit progs) sched) f.
Proof. exact code_no_race. Qed.
Print Assumptions C139_no_race_partial.

(** SetSubscriptionUpdatedReceiver takes the lock of the wrong object: a receiver
    can be assigned while a signal index cache is being announced. *)
Theorem C139_subscription_updated_refuted : exists sched, race (run gstep (ginit [set_updated; dispatch DsUpdated]) sched) DsUpdated.
Proof. exists [0; 0; 1]. exists 0, 1. do 4 eexists. split; [discriminate|]. split; [reflexivity|]. split; [reflexivity|]. split; [reflexivity|]. left. reflexivity. Qed.
Print Assumptions C139_subscription_updated_refuted.

(** Receivers that register and report, inside one another; and a state with
    one goroutine about to assign what another is waiting to read *)
Example C139_nonvacuous : Forall code [metadata_sets; ds_callback DsMeasurements (set_sb SbStatus); dial true 1 (report SbStatus) 1; accepted (set_sb SbError) 2] /\
  map (fun g => hd_error (todo g)) (run gstep (ginit [set_ds DsMeasurements; ds_callback DsMeasurements []]) [0; 0; 1]) = [Some (Assign DsMeasurements); Some (RL Ds)].
Proof.
  split; [|reflexivity]. repeat (apply Forall_cons || apply Forall_nil).
  - apply c_sb_callback; [reflexivity|]. apply c_set_ds. reflexivity.
  - apply c_ds_callback; [reflexivity|]. apply c_set_sb. reflexivity.
  - apply c_dial. apply c_report. reflexivity.
  - apply c_accepted. apply c_set_sb. reflexivity.
Qed.
