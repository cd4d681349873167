(** Commands and the end of the connection (C130). *)
From Coq Require Import Arith Lia.
From Verif Require Import Base ConcModel ShutdownModel ShutdownSpec ShutdownProofs WriteModel WriteSpec WriteProofs WriteProofs2.

Definition go (i n : nat) : list wact := map (fun i => WAct (Go i)) (repeat i n).
Definition sends (k n : nat) : list wact := repeat (WSend k true) n.

(** As long as the publisher keeps the connection, commands, by however many goroutines,
    never end it, none fails, and each is written to it once. *)
Theorem C130_stays : forall commands sched, let s := wrun (winit commands []) sched in ~ In 1%nat (gone (below s)) ->
  connected (below s) = true /\ disconnecting (below s) = false /\ ~ In 1%nat (closed (below s)) /\ terminations (below s) = 0%nat /\ (forall c, ~ failed_on s c) /\
  (all_done s -> all_sent s /\ forall k n, nth_error commands k = Some n -> written s k 1 = n).
Proof. exact commands_written. Qed.
Print Assumptions C130_stays.
Example C130_stays_example : let s := wrun (winit [2; 1]%nat []) (go 0 2 ++ sends 0 3 ++ sends 1 2 ++ sends 0 1) in
  ~ In 1%nat (gone (below s)) /\ all_done s /\ written s 0 1 = 2%nat /\ written s 1 1 = 1%nat.
Proof.
  cbn zeta. split; [vm_compute; tauto|]. split; [|vm_compute; auto]. intros [[i|c]|k f] N.
  - destruct i as [|i]; [vm_compute; reflexivity|]. destruct i; vm_compute; reflexivity.
  - exfalso. exact (N c eq_refl).
  - destruct k as [|[|k]]; try (vm_compute; reflexivity). destruct k; vm_compute; reflexivity.
Qed.

(** When the publisher closes the connection, whoever notices, everything comes to an
    end: nothing crashes, nothing is stuck, the socket is closed and the callback has
    been called.
    Missing: once rather than at least once, and at most twice and once more for each
    command that failed. *)
Theorem C130_lost_partial : forall commands sched, let s := wrun (winit commands []) sched in
  crashed (below s) = false /\ (terminations (below s) <= 2 + failures s)%nat /\
  (In 1%nat (gone (below s)) -> all_done s ->
   all_sent s /\ down (below s) /\ In 1%nat (closed (below s)) /\ (1 <= terminations (below s))%nat /\ all_ended (below s)).
Proof.
  intros commands sched s. pose proof (wrun_good sched _ (winit_good commands)) as W. fold s in W. destruct (wgood_bound s W) as (C & B). split; [exact C|]. split; [exact B|].
  intros G R. destruct (wgood_rest s W G R) as (A1 & A2 & A3 & A4 & A5). unfold all_ended. auto.
Qed.
Print Assumptions C130_lost_partial.
(** A command fails before the reader notices and ends the connection alone. *)
Definition failing : list wact := go 0 2 ++ sends 0 1 ++ [WAct (Closes 1)] ++ sends 0 5 ++ go 1 7 ++ go 0 6 ++ go 2 10.
Example C130_lost_example : let s := wrun (winit [1]%nat []) failing in
  In 1%nat (gone (below s)) /\ all_done s /\ failures s = 1%nat /\ terminations (below s) = 1%nat.
Proof.
  cbn zeta. split; [vm_compute; auto|]. split; [|vm_compute; auto]. intros [[i|c]|k f] N.
  - do 3 (destruct i as [|i]; [vm_compute; reflexivity|]). destruct i; vm_compute; reflexivity.
  - exfalso. exact (N c eq_refl).
  - destruct k as [|k]; [vm_compute; reflexivity|]. destruct k; vm_compute; reflexivity.
Qed.

(** A command and the reader fail at the same time; the command ends the connection
    again after the reader has: two callbacks for one connection. *)
Definition noticed_twice (d : nat) : list wact :=
  go 0 2 ++ sends 0 1 ++ [WAct (Closes 1)] ++ sends 0 3 ++ go 0 6 ++ go (1 + d) 7 ++ go 0 3 ++ go (2 + d) 9.
Theorem C130_once_refuted : ~ forall sched, (terminations (below (wrun (winit [1]%nat []) sched)) <= 1)%nat.
Proof. intros H. specialize (H (noticed_twice 0 ++ sends 0 2 ++ go 3 7 ++ go 4 10)). vm_compute in H. lia. Qed.
Print Assumptions C130_once_refuted.

(** The application has connected again meanwhile: the command that failed on the first
    connection ends the second, which its publisher has not closed. *)
Theorem C130_next_refuted : ~ forall sched, let s := wrun (winit [1]%nat [[OConnect]]) sched in
  (forall c, failed_on s c -> c = 1%nat) -> ~ cut (below s) 2.
Proof.
  intros H. refine (H (noticed_twice 1 ++ go 1 7 ++ sends 0 2 ++ go 5 7 ++ go 6 4) _ _).
  - intros c (k & I). vm_compute in I. destruct I as [[= _ <-]|[]]. reflexivity.
  - vm_compute. split; [auto|]. intros [E|[]]. discriminate.
Qed.
Print Assumptions C130_next_refuted.

(** A command begun on the first connection is written to the second. *)
Theorem C130_wrong_connection_refuted : ~ forall before after,
  let s := wrun (winit [1]%nat [[OConnect]]) before in nth_error (senders s) 0 = Some (Sender WWrite 0) -> written (wrun s after) 0 1 = 0%nat ->
  forall c, c <> conns (below s) -> written (wrun s after) 0 c = 0%nat.
Proof.
  intros H. specialize (H (go 0 2 ++ sends 0 1) ([WAct (Closes 1)] ++ go 0 6 ++ go 2 7 ++ go 0 3 ++ go 3 9 ++ go 1 7 ++ sends 0 1) eq_refl eq_refl 2%nat ltac:(vm_compute; discriminate)).
  vm_compute in H. discriminate.
Qed.
Print Assumptions C130_wrong_connection_refuted.
