(** How connections ought to end. *)
From Coq Require Import Arith.
From Verif Require Import Base ConcModel ShutdownModel.

(** Goroutines of the user that only disconnect, each any number of times *)
Definition disconnecting_only (calls : list (list uop)) : Prop := Forall (Forall (eq ODisconnect)) calls.
Definition calls_of (calls : list (list uop)) : nat := list_sum (map (@length uop) calls).
(** The publisher keeps the connection open. *)
Definition publisher_stays (sched : list sact) : Prop := Forall (fun a => exists i, a = Go i) sched.

(** How often the connection-terminated callback was called *)
Definition terminations (s : sst) : nat := length (filter (fun e => match e with ETerminated => true | _ => false end) (slog s)).
Definition established (s : sst) : nat := length (filter (fun e => match e with EEstablished _ => true | _ => false end) (slog s)).
(** Nothing is left to do. *)
Definition at_rest (s : sst) : Prop := forall i, sstep s i = None.
(** Every call has returned. *)
Definition returned (s : sst) : Prop := forall pc todo, In (User pc todo) (sgors s) -> pc = UIdle /\ todo = [].
(** The steps that a schedule really takes *)
Fixpoint moves (s : sst) (sched : list sact) : nat :=
  match sched with
  | [] => 0
  | a :: r => match sact_step s a with Some s' => S (moves s' r) | None => moves s r end
  end.
(** Down: not connected, and no disconnection under way *)
Definition down (s : sst) : Prop := connected s = false /\ disconnecting s = false /\ disconnected s = true.
(** The subscriber closed connection [c] although its publisher had not. *)
Definition cut (s : sst) (c : nat) : Prop := In c (closed s) /\ ~ In c (gone s).
(** A further goroutine makes these calls. *)
Definition later_calls (s : sst) (l : list uop) : sst := with_gors s (sgors s ++ [User UIdle l]).
(** Up: connected, and neither disconnected nor about to be *)
Definition up (s : sst) : Prop := connected s = true /\ disconnecting s = false /\ disconnected s = false.
