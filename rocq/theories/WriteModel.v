(** Sending commands while a connection ends: SendServerCommandWithPayload
    (/repo/sttp/transport/DataSubscriber.go:1499-1533, DS) and the start of the
    connection termination thread when a write fails (DS 728-730, 1528-1532;
    TryStart and Start of /repo/sttp/thread/Thread.go:45-73, T), on top of the
    goroutines of ShutdownModel, with its simplifications.

    Any number of goroutines send commands one after another.  What they send is left
    out; that they share one buffer is in ConcModel.  A command is written to the
    socket that the field holds at that moment, the one of the latest connection.  A
    write to a socket that the subscriber closed fails; one to a connection that the
    publisher closed may fail or not (the schedule says so); any other succeeds. *)
From Coq Require Import Arith.
From Verif Require Import Base ConcModel ShutdownModel.

(** Control points of a goroutine that sends commands *)
Inductive wpc : Type :=
| WIdle           (* between commands *)
| WWrite          (* after the test of connected (DS 1500), before Write (1528) *)
| WTry            (* the write failed; before the test of running in TryStart (T 66, DS 1531) *)
| WStart          (* before the test of running in Start (T 50) *)
| WLock           (* before mutex.Lock in Start (T 54) *)
| WSpawn.         (* before go run (T 55) *)
(** [toSend]: commands not begun yet *)
Record sender : Type := Sender { wat : wpc; toSend : nat }.

(** Observable: goroutine [k] wrote a command to connection [c]; its write to [c] failed *)
Inductive wev : Type := EWritten (k c : nat) | EFailed (k c : nat).

Record wst : Type := WState { below : sst; senders : list sender; wlog : list wev }.

(** The next step of sender [k]; [fails] is what becomes of a write to a connection that
    the publisher closed. *)
Definition send_step (s : wst) (k : nat) (fails : bool) : option wst :=
  let b := below s in
  if crashed b then None else
  match nth_error (senders s) k with
  | None => None
  | Some (Sender pc n) =>
    let at_ p := Some (WState b (set_nth (senders s) k (Sender p n)) (wlog s)) in
    let with_ b' p := Some (WState b' (set_nth (senders s) k (Sender p n)) (wlog s)) in
    match pc with
    | WIdle => match n with
               | O => None
               | S n => Some (WState b (set_nth (senders s) k (Sender (if connected b then WWrite else WIdle) n)) (wlog s))
               end
    | WWrite =>
      if has (conns b) (closed b) || (has (conns b) (gone b) && fails)
      then Some (WState b (set_nth (senders s) k (Sender WTry n)) (EFailed k (conns b) :: wlog s))
      else Some (WState b (set_nth (senders s) k (Sender WIdle n)) (EWritten k (conns b) :: wlog s))
    | WTry => at_ (if trunning b then WIdle else WStart)
    | WStart => at_ (if trunning b then WIdle else WLock)   (* TryStart recovers from the panic of Start *)
    | WLock => if theld b then None else with_ (with_term b (trunning b) true) WSpawn
    | WSpawn => with_ (spawn b (Term TmNew)) WIdle
    end
  end.

(** A schedule: a step of a goroutine of ShutdownModel or the publisher closing a
    connection, a step of a sender *)
Inductive wact : Type := WAct (a : sact) | WSend (k : nat) (fails : bool).
Definition wact_step (s : wst) (a : wact) : option wst :=
  match a with
  | WAct a => match sact_step (below s) a with Some b => Some (WState b (senders s) (wlog s)) | None => None end
  | WSend k fails => send_step s k fails
  end.
Fixpoint wrun (s : wst) (sched : list wact) : wst :=
  match sched with [] => s | a :: r => wrun (match wact_step s a with Some s' => s' | None => s end) r end.

(** A connected subscriber with senders of so many commands, and goroutines that make
    [calls] *)
Definition winit (commands : list nat) (calls : list (list uop)) : wst :=
  WState (sconnected calls) (map (Sender WIdle) commands) [].
