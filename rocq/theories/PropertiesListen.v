(** Listening for publishers (DataSubscriber.Listen, its accept thread, Disconnect).

    The schedules range over all interleavings of the goroutines involved, over every
    moment at which publishers connect and connections are lost, and over any number of
    calls. *)
From Coq Require Import Arith ZArith Lia.
From Verif Require Import Base Sched Explore ListenModel ListenSpec ListenProofs.
#[local] Open Scope nat_scope.

(** C110 — from a call of Listen until one of Disconnect a subscriber that comes to rest
    is listening, with a goroutine that accepts, and with a publisher whose connection is
    read, or without; before and after it is silent.  It never crashes and never drops a
    connection for another, and it can always come to rest.
    Missing: publishers that are accepted while an earlier connection is being ended are
    made to wait ([unhurried]), calls come in turn ([in_turn]); without that it is false
    (see below). *)
Theorem C110_life_partial : forall sched s log,
  always (fun s a => unhurried s a && in_turn s a) (start 1) sched -> run (start 1) [] sched = (s, log) ->
  crashed s = false /\ ~ In EDropped log /\
  (at_rest s -> if asked log then vacant s \/ serving s else silent s) /\
  exists more, own_steps more /\ always (fun s a => unhurried s a && in_turn s a) s more /\ at_rest (fst (run s log more)).
Proof. exact life_good. Qed.
(** A publisher that connects while the subscriber listens without one is taken; while
    there is one already it is turned away and the connection in use goes on. *)
Theorem C110_accepts_partial : forall sched s log after t log',
  always (fun s a => unhurried s a && in_turn s a) (start 1) sched -> run (start 1) [] sched = (s, log) -> at_rest s -> asked log = true ->
  own_steps after -> run s log (Dials :: after) = (t, log') -> at_rest t ->
  serving t /\ log' = (if connected s then ERefused else EEstablished) :: log.
Proof. exact dial_leads. Qed.
(** After the loss of a connection the subscriber listens for the next publisher and has
    said once that the connection ended. *)
Theorem C110_loss_partial : forall sched s log after t log',
  always (fun s a => unhurried s a && in_turn s a) (start 1) sched -> run (start 1) [] sched = (s, log) -> at_rest s -> connected s = true ->
  own_steps after -> always prompt s (Closes :: after) -> run s log (Closes :: after) = (t, log') -> at_rest t ->
  vacant t /\ log' = ETerminated :: log.
Proof. exact loss_leads. Qed.
(** Over the whole history: at rest every connection but the one in use has been reported
    terminated exactly once. *)
Theorem C110_callbacks_partial : forall sched s log,
  always orderly (start 1) sched -> run (start 1) [] sched = (s, log) ->
  terminated log <= S (established log + idle_calls log) /\ established log + idle_calls log <= S (terminated log) /\
  (at_rest s -> established log + idle_calls log = terminated log + if connected s then 1 else 0).
Proof. exact callbacks_balance. Qed.
Print Assumptions C110_life_partial.
Print Assumptions C110_accepts_partial.
Print Assumptions C110_loss_partial.
Print Assumptions C110_callbacks_partial.

Definition gos (i n : nat) : list act := repeat (Go i) n.
Notation okb := (alwaysb act_step).
Definition serving_sched : list act := [CallsListen 0] ++ gos 0 6 ++ [Dials] ++ gos 1 13 ++ gos 2 2.
(** A publisher is taken, a second one is turned away, the connection is lost, the next
    publisher is taken: the hypotheses are met and both outcomes at rest occur. *)
Example C110_nonvacuous :
  let l := serving_sched ++ [Dials] ++ gos 1 4 ++ [Closes] ++ gos 2 6 ++ gos 3 6 ++ gos 4 1 ++ gos 3 2 ++ gos 4 2 ++ gos 2 6 ++ gos 4 12 in
  okb orderly (start 1) l = true /\
  resting (fst (run (start 1) [] serving_sched)) = true /\ is_serving (fst (run (start 1) [] serving_sched)) = true /\
  (let '(s, log) := run (start 1) [] l in resting s && is_vacant s && evsb log [ETerminated; ERefused; EEstablished; EListen]) = true /\
  (let '(s, log) := run (start 1) [] (l ++ [Dials] ++ gos 1 13 ++ gos 2 5) in resting s && is_serving s && evsb log [EEstablished; ETerminated; ERefused; EEstablished; EListen]) = true.
Proof. vm_compute. repeat split. Qed.

(** ** Publishers that come back quickly *)
Ltac schedule l := exists l; eexists; eexists; split; [apply alwaysb_ok; vm_compute; reflexivity|]; split; [apply alwaysb_ok; vm_compute; reflexivity|]; split; [vm_compute; reflexivity|].
Ltac rests := apply resting_rest; vm_compute; reflexivity.
(** A publisher that connects again while its lost connection is being ended can crash
    the subscriber ... *)
Theorem C110_crash_refuted : exists sched s log,
  always in_turn (start 1) sched /\ always prompt (start 1) sched /\ run (start 1) [] sched = (s, log) /\
  (forall a, In a sched -> a = CallsListen 0 \/ a = Dials \/ a = Closes \/ exists i, a = Go i) /\ crashed s = true.
Proof.
  schedule ([CallsListen 0] ++ gos 0 6 ++ [Dials] ++ gos 1 4 ++ [Dials] ++ gos 1 3 ++ [Closes] ++ gos 1 7 ++ gos 2 8 ++ gos 3 4 ++ gos 1 5 ++ gos 3 1 ++ gos 4 5 ++ gos 1 1). split; [|vm_compute; reflexivity].
  apply (List.Forall_forall (fun a => a = CallsListen 0 \/ a = Dials \/ a = Closes \/ exists i, a = Go i)).
  repeat (constructor; [eauto 6|]). constructor.
Qed.
(** ... or leave it with two goroutines reading the new connection and a disconnect
    thread that waits for ever: no goroutine can go on, and calls of Disconnect do
    nothing. *)
Theorem C110_deaf_refuted : exists sched s log,
  always in_turn (start 1) sched /\ always prompt (start 1) sched /\ run (start 1) [] sched = (s, log) /\
  at_rest s /\ asked log = true /\ connected s = true /\ socket s = Open /\ disconnecting s = true /\
  (exists l1 l2 l3, gors s = l1 ++ Reader (RdRead Cur) :: l2 ++ Reader (RdRead Cur) :: l3) /\
  forall i s' o, act_step s (CallsDisconnect i) = Some (s', o) -> s' = s.
Proof.
  schedule ([CallsListen 0] ++ gos 0 6 ++ [Dials] ++ gos 1 4 ++ [Dials] ++ gos 1 3 ++ [Closes] ++ gos 1 7 ++ gos 2 8 ++ gos 3 4 ++ gos 1 2 ++ gos 3 3 ++ gos 4 2 ++ gos 1 7 ++ gos 3 1 ++ gos 2 1 ++ gos 3 1 ++ gos 4 2).
  split; [rests|]. repeat (split; [reflexivity|]). split; [eexists [_; _], [], _; reflexivity|].
  intros [|[|[|[|[|i]]]]] s' o H; cbn in H; try discriminate H; try (destruct i; discriminate H); injection H as <- <-; reflexivity.
Qed.
(** If the reader is quick it has a lost connection reported twice. *)
Theorem C110_callbacks_refuted : exists sched s log,
  always in_turn (start 1) sched /\ always unhurried (start 1) sched /\ run (start 1) [] sched = (s, log) /\
  at_rest s /\ established log = 1 /\ idle_calls log = 0 /\ terminated log = 2.
Proof. schedule ([CallsListen 0] ++ gos 0 6 ++ [Dials] ++ gos 1 7 ++ [Closes] ++ gos 1 6 ++ gos 2 13 ++ gos 3 6 ++ gos 2 4 ++ gos 3 1 ++ gos 4 8 ++ gos 5 5 ++ gos 2 6 ++ gos 5 2). split; [rests|]. repeat split. Qed.
Print Assumptions C110_crash_refuted.
Print Assumptions C110_deaf_refuted.
Print Assumptions C110_callbacks_refuted.

(** C111 — Disconnect, called at rest, ends listening and the connection, if there is
    one: when everything has come to rest no socket is open and no goroutine is left, and
    the terminated callback was called once.
    Missing: publishers do not connect and do not close meanwhile. *)
Theorem C111_disconnect_partial : forall sched s log after t log',
  always (fun s a => unhurried s a && in_turn s a) (start 1) sched -> run (start 1) [] sched = (s, log) -> at_rest s ->
  own_steps after -> run s log (CallsDisconnect 0 :: after) = (t, log') -> at_rest t ->
  silent t /\ log' = ETerminated :: EDisconnect (connected s) :: log.
Proof. exact disconnect_leads. Qed.
Print Assumptions C111_disconnect_partial.
Example C111_nonvacuous :
  let l := [CallsDisconnect 0] ++ gos 0 5 ++ gos 3 5 ++ gos 1 2 ++ gos 3 2 ++ gos 1 3 ++ gos 2 4 ++ gos 3 12 in
  okb orderly (start 1) (serving_sched ++ l) = true /\
  (let '(s, log) := run (start 1) [] (serving_sched ++ l) in resting s && is_silent s && evsb log [ETerminated; EDisconnect true; EEstablished; EListen]) = true.
Proof. vm_compute. repeat split. Qed.
(** If a publisher connects just then, the disconnect thread waits for the accept thread
    and the accept thread for the disconnect thread: whatever happens, short of new
    calls, nothing will ever change. *)
Theorem C111_deadlock_refuted : exists sched s log,
  always unhurried (start 1) sched /\ always prompt (start 1) sched /\ run (start 1) [] sched = (s, log) /\
  log = [EDisconnect false; EListen] /\ disconnecting s = true /\ ~ silent s /\ terminated log = 0 /\
  (forall more, no_calls more -> run s log more = (s, log)) /\
  forall i s' o, act_step s (CallsDisconnect i) = Some (s', o) -> s' = s.
Proof.
  schedule ([CallsListen 0] ++ gos 0 6 ++ gos 1 3 ++ [CallsDisconnect 0; Dials] ++ gos 0 4 ++ gos 1 2 ++ gos 0 1 ++ gos 2 7).
  split; [reflexivity|]. split; [reflexivity|]. split; [intros (_ & _ & D & _); discriminate D|]. split; [reflexivity|]. split.
  - intros more N. apply (frozen_run st_eq_dec act_step acts (fun a => match a with CallsListen _ | CallsDisconnect _ => false | _ => true end)); [exact acts_all|vm_compute; reflexivity|].
    unfold no_calls in N. rewrite List.Forall_forall in N. apply List.Forall_forall. intros a I. specialize (N a I). destruct a; try reflexivity; destruct (N i) as (N1 & N2); congruence.
  - intros [|[|[|[|i]]]] s' o H; cbn in H; try discriminate H; try (destruct i; discriminate H); injection H as <- <-; reflexivity.
Qed.
(** If the publisher closes its connection just then, the call is lost: the subscriber
    goes on listening. *)
Theorem C111_ignored_refuted : exists sched s log,
  always unhurried (start 1) sched /\ always prompt (start 1) sched /\ run (start 1) [] sched = (s, log) /\
  at_rest s /\ asked log = false /\ vacant s.
Proof. schedule ([CallsListen 0] ++ gos 0 3 ++ [Dials] ++ gos 0 3 ++ gos 1 13 ++ gos 2 2 ++ [CallsDisconnect 0; Closes] ++ gos 2 6 ++ gos 3 3 ++ gos 0 1 ++ gos 3 1 ++ gos 2 2 ++ gos 3 1 ++ gos 2 8 ++ gos 3 2). split; [rests|]. split; [reflexivity|]. apply vacant_ok. vm_compute. reflexivity. Qed.
Print Assumptions C111_deadlock_refuted.
Print Assumptions C111_ignored_refuted.

(** C112 — Listen, called at rest, makes the subscriber listen; while it listens the call
    changes nothing.  Called at other times it comes to the same, by C110_life_partial: at
    rest the subscriber is doing what the last call asked for.
    Missing: calls that follow a call of Disconnect before the goroutine it starts has
    begun to run ([in_turn]). *)
Theorem C112_listen_partial : forall sched s log after t log',
  always (fun s a => unhurried s a && in_turn s a) (start 1) sched -> run (start 1) [] sched = (s, log) -> at_rest s ->
  own_steps after -> run s log (CallsListen 0 :: after) = (t, log') -> at_rest t ->
  (if asked log then t = s else vacant t) /\ log' = EListen :: log.
Proof. exact listen_leads. Qed.
Print Assumptions C112_listen_partial.
Example C112_nonvacuous :
  let before := [CallsListen 0] ++ gos 0 6 ++ gos 1 3 ++ [CallsDisconnect 0] ++ gos 0 5 ++ gos 2 7 ++ gos 1 3 ++ gos 2 12 in
  let after := [CallsListen 0] ++ gos 0 8 ++ gos 1 3 in
  okb orderly (start 1) (before ++ after) = true /\
  (let '(s, log) := run (start 1) [] before in resting s && is_silent s && negb (asked log)) = true /\
  (let '(s, log) := run (start 1) [] (before ++ after) in resting s && is_vacant s && asked log) = true.
Proof. vm_compute. repeat split. Qed.
(** Listen right after Disconnect: it waits for the disconnection, then listens. *)
Example C112_waits_nonvacuous :
  let before := [CallsListen 0] ++ gos 0 6 ++ gos 1 3 ++ [CallsDisconnect 0] ++ gos 0 5 ++ gos 2 1 ++ [CallsListen 0] ++ gos 0 2 in
  let after := gos 2 6 ++ gos 1 3 ++ gos 2 12 ++ gos 0 5 ++ gos 1 3 in
  okb orderly (start 1) (before ++ after) = true /\
  (let '(s, log) := run (start 1) [] before in match step s 0 with None => true | _ => false end && match nth_error (gors s) 0 with Some (User (UListen (LWait (Slot 2)))) => true | _ => false end) = true /\
  (let '(s, log) := run (start 1) [] (before ++ after) in resting s && is_vacant s && evsb log [ETerminated; EListen; EDisconnect false; EListen]) = true.
Proof. vm_compute. repeat split. Qed.
Definition only_calls (sched : list act) : Prop := Forall (fun a => match a with Dials | Closes | ClosesOld => False | _ => True end) sched.
Ltac calls l := exists l; eexists; eexists; split; [repeat (constructor; [exact I|]); constructor|]; split; [vm_compute; reflexivity|].
(** Called right after Disconnect, it can crash the subscriber; no publisher is needed. *)
Theorem C112_crash_refuted : exists sched s log,
  only_calls sched /\ run (start 1) [] sched = (s, log) /\ log = [EListen; EDisconnect false; EListen] /\ crashed s = true.
Proof. calls ([CallsListen 0] ++ gos 0 6 ++ [CallsDisconnect 0] ++ gos 0 3 ++ gos 1 2 ++ gos 0 2 ++ [CallsListen 0] ++ gos 0 3 ++ gos 1 1). repeat split. Qed.
(** Or the listening socket gets lost: the port stays open although the subscriber
    stopped listening, and the disconnect thread waits for ever. *)
Theorem C112_orphan_refuted : exists sched s log,
  only_calls sched /\ run (start 1) [] sched = (s, log) /\ log = [EListen; EDisconnect false; EListen] /\
  at_rest s /\ listening s = false /\ orphan s = true /\ disconnecting s = true.
Proof. calls ([CallsListen 0] ++ gos 0 6 ++ [CallsDisconnect 0] ++ gos 0 3 ++ gos 1 2 ++ gos 0 2 ++ [CallsListen 0] ++ gos 0 2 ++ gos 1 1 ++ gos 0 1 ++ gos 2 7). split; [reflexivity|]. split; [rests|]. repeat split. Qed.
(** Or the disconnect thread waits for the new accept thread: the subscriber listens, but
    can never be disconnected again. *)
Theorem C112_deaf_refuted : exists sched s log,
  only_calls sched /\ run (start 1) [] sched = (s, log) /\ log = [EListen; EDisconnect false] /\
  at_rest s /\ listening s = true /\ listener s = LOn /\ disconnecting s = true /\
  forall i s' o, act_step s (CallsDisconnect i) = Some (s', o) -> s' = s.
Proof.
  calls ([CallsDisconnect 0] ++ gos 0 5 ++ [CallsListen 0] ++ gos 0 2 ++ gos 1 4 ++ gos 0 4 ++ gos 1 2 ++ gos 2 1 ++ gos 1 1 ++ gos 2 2). split; [reflexivity|]. split; [rests|]. repeat (split; [reflexivity|]).
  intros [|[|[|[|i]]]] s' o H; cbn in H; try discriminate H; try (destruct i; discriminate H); injection H as <- <-; reflexivity.
Qed.
Print Assumptions C112_crash_refuted.
Print Assumptions C112_orphan_refuted.
Print Assumptions C112_deaf_refuted.
