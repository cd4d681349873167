(** Calls on a data channel that overlap (C135). *)
From Coq Require Import List ZArith Bool Lia.
Import ListNotations.
From Verif Require Import Base ChannelModel OverlapModel OverlapSpec OverlapProofs OverlapProofs2.

Definition us (k n : nat) : list oact := map (fun k => OUser k true) (repeat k n).
Definition dis (k n : nat) : list oact := map ODisc (repeat k n).
Definition dat (k n : nat) : list oact := map OData (repeat k n).

(** Whatever goroutines call Unsubscribe and Disconnect at the same time, with datagrams and
    answers arriving meanwhile: left to itself the subscriber stands still within a bounded
    number of steps, and unless it has crashed every call has returned by then, and if there
    was one the data channel is closed and its goroutine has ended.
    Missing for the full property: the crash below, and calls of Subscribe meanwhile. *)
Theorem C135_ending_partial : forall port calls l s, only_ending calls -> one_connection l -> orun (subscribed_on port calls) l = Some s ->
  exists bound, forall r s', forallb by_itself r = true -> orun s r = Some s' -> (length r <= bound)%nat /\
  (stands_still s' -> o_crashed s' = false -> all_returned s' /\ (some_call calls -> sockets_open s' = 0%nat /\ reading s' = 0%nat)).
Proof.
  intros port calls l s O C H. exists (work s). intros r s' B H'. split; [exact (work_bound _ _ _ B H')|]. intros R CR. apply (at_end calls s'); auto.
  apply (oinv_run _ r s); [exact (oinv_run _ l _ _ (oinv_start _ _ O) C H)| |exact H'].
  unfold one_connection. apply Forall_forall. intros a I. rewrite forallb_forall in B. specialize (B a I). destruct a; discriminate.
Qed.
Print Assumptions C135_ending_partial.

(** Whatever is called, Subscribe included: when all calls have returned no disconnection is
    noted as under way, so the next Disconnect is heard. *)
Theorem C135_heard : forall port calls l s, orun (subscribed_on port calls) l = Some s -> all_returned s -> o_disconnecting s = false.
Proof. intros port calls l s H R. apply (flag_returned s); [|exact R]. apply (flag_run l (subscribed_on port calls)); [discriminate|exact H]. Qed.
Print Assumptions C135_heard.
Example C135_heard_example : exists s, orun (subscribed_on 9600 [[CUnsubscribe]; [CSubscribe 9601]]) (us 0 2 ++ us 1 1 ++ us 0 1 ++ dat 0 1 ++ us 0 3 ++ dat 0 1 ++ us 0 2 ++ [OAnswer false] ++ us 1 3) = Some s /\
  all_returned s /\ o_connected s = true /\ sockets_open s = 1%nat.
Proof. eexists. split; [vm_compute; reflexivity|]. split; [repeat constructor|]. split; reflexivity. Qed.

(** When they all call Unsubscribe, or all Disconnect, nothing crashes. *)
Theorem C135_unsubscribes : forall port calls l s, only CUnsubscribe calls -> orun (subscribed_on port calls) l = Some s -> o_crashed s = false.
Proof. intros port calls l s O H. exact (proj1 (quietly_run _ _ _ (quietly_start _ _ O) H)). Qed.
Print Assumptions C135_unsubscribes.
Theorem C135_disconnects : forall port calls l s, only CDisconnect calls -> orun (subscribed_on port calls) l = Some s -> o_crashed s = false.
Proof. intros port calls l s O H. exact (l_cr _ (leaves_run _ _ _ (leaves_start _ _ O) H)). Qed.
Print Assumptions C135_disconnects.

(** Nothing more happens by itself: checked on a state. *)
Lemma still s : (forall k ok, (k < length (o_users s))%nat -> user_step s k ok = None) -> (forall k, (k < length (o_discs s))%nat -> disc_step s k = None) ->
  (forall k, (k < length (o_threads s))%nat -> data_step s k = None) -> stands_still s.
Proof.
  intros U D T a B. unfold oact_step. destruct (o_crashed s); [reflexivity|]. destruct a as [k ok|k|k|k|b|]; try discriminate B.
  - destruct (Nat.lt_ge_cases k (length (o_users s))) as [L|L]; [auto|]. unfold user_step. apply nth_error_None in L. rewrite L. reflexivity.
  - destruct (Nat.lt_ge_cases k (length (o_discs s))) as [L|L]; [auto|]. unfold disc_step. apply nth_error_None in L. rewrite L. reflexivity.
  - destruct (Nat.lt_ge_cases k (length (o_threads s))) as [L|L]; [auto|]. unfold data_step. apply nth_error_None in L. rewrite L. reflexivity.
Qed.
Ltac standing := apply still; cbn [o_users o_discs o_threads length];
  [intros ? ? ?|intros ? ?|intros ? ?];
  repeat match goal with L : (?k < S _)%nat |- _ => is_var k; destruct k; [first [reflexivity|match goal with b : bool |- _ => destruct b; reflexivity end]|] | L : (S ?k < S _)%nat |- _ => apply Nat.succ_lt_mono in L end; lia.
Definition three : list (list api) := [[CUnsubscribe; CUnsubscribe]; [CDisconnect]; [CUnsubscribe]].
Definition mixed : list oact := dat 0 1 ++ [ODatagram 0] ++ us 0 2 ++ us 1 1 ++ us 2 2 ++ us 1 3 ++ us 0 2 ++ dat 0 1 ++ us 0 3 ++ us 2 5 ++ dis 0 7 ++ us 0 2.
Example C135_ending_example : only_ending three /\ one_connection mixed /\ some_call three /\ exists s, orun (subscribed_on 9600 three) mixed = Some s /\ o_crashed s = false /\ stands_still s.
Proof.
  split; [repeat constructor; discriminate|]. split; [repeat constructor; discriminate|]. split; [exists [CDisconnect]; split; [right; left; reflexivity|discriminate]|].
  eexists. split; [vm_compute; reflexivity|]. split; [reflexivity|standing].
Qed.

(** Unsubscribe beside Disconnect: the thread that Unsubscribe found not to be nil is set to nil
    before it is used. *)
Theorem C135_crash_refuted : exists l s, one_connection l /\ orun (subscribed_on 9600 [[CUnsubscribe]; [CDisconnect]]) l = Some s /\ o_crashed s = true.
Proof.
  exists (us 0 2 ++ us 1 4 ++ us 0 3 ++ dis 0 5 ++ us 0 1). eexists. split; [repeat constructor; discriminate|]. split; [vm_compute; reflexivity|reflexivity].
Qed.
Print Assumptions C135_crash_refuted.

(** Subscribe beside Disconnect: when both have returned the subscriber is disconnected and the
    socket is open. *)
Theorem C135_leak_refuted : exists l s, one_connection l /\ orun (connected_with [[CSubscribe 9600]; [CDisconnect]]) l = Some s /\
  stands_still s /\ all_returned s /\ o_connected s = false /\ sockets_open s = 1%nat.
Proof.
  exists (us 0 1 ++ us 1 4 ++ dis 0 5 ++ us 0 3 ++ dat 0 1). eexists. split; [repeat constructor; discriminate|]. split; [vm_compute; reflexivity|].
  split; [standing|]. split; [repeat constructor|]. split; reflexivity.
Qed.
Print Assumptions C135_leak_refuted.
(** Subscribe on the next connection then fails, because the port is in use, and from there on
    whatever the application calls: the socket stays open and the port in use. *)
Theorem C135_port_lost_refuted : forall later0 later1 others, exists l s,
  orun (connected_with ((CSubscribe 9600 :: CSubscribe 9600 :: later0) :: (CDisconnect :: later1) :: others)) l = Some s /\ o_connected s = true /\
  forall l' s', orun s l' = Some s' -> (1 <= sockets_open s')%nat /\ port_free (chan_of s') 9600 = false.
Proof.
  intros later0 later1 others. exists (us 0 1 ++ us 1 4 ++ dis 0 5 ++ us 0 3 ++ [OConnect] ++ us 0 2 ++ [OUser 0 false]). eexists. split; [vm_compute; reflexivity|]. split; [reflexivity|].
  intros l' s' H. destruct (orphan_open 9600 s') as (A & B); [|split; [exact A|apply B; discriminate]]. refine (orphan_run 9600 l' _ s' _ H). split; [reflexivity|discriminate].
Qed.
Print Assumptions C135_port_lost_refuted.

(** Unsubscribe beside Subscribe: Unsubscribe waits for the goroutine of the new channel, and
    meanwhile Disconnect does nothing. *)
Theorem C135_waits_refuted : exists l s, one_connection l /\ orun (subscribed_on 9600 [[CUnsubscribe]; [CSubscribe 9600]; [CDisconnect]]) l = Some s /\
  stands_still s /\ o_users s = [User (UWait 1 RReturn) []; User UIdle []; User UIdle []] /\ o_connected s = true /\ o_discs s = [] /\ sockets_open s = 1%nat.
Proof.
  exists (dat 0 1 ++ us 0 3 ++ us 1 1 ++ us 0 1 ++ dat 0 1 ++ [OAnswer false] ++ us 1 1 ++ us 1 1 ++ us 1 1 ++ dat 1 1 ++ us 0 2 ++ us 2 1). eexists. split; [repeat constructor; discriminate|]. split; [vm_compute; reflexivity|].
  split; [standing|]. repeat split; reflexivity.
Qed.
Print Assumptions C135_waits_refuted.
