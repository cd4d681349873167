(** How automatic reconnection ought to work. *)
From Coq Require Import Arith ZArith.
From Verif Require Import Base ReconnectModel.
#[local] Open Scope nat_scope.

(** No goroutine can take a step: only the publisher or the application can go on. *)
Definition at_rest (s : st) : Prop := forall i, step s i true = None.
(** Connected again: the flags say so, the connection is open, one goroutine reads it,
    and nothing else goes on. *)
Definition up (s : st) : Prop :=
  connected s = true /\ disconnecting s = false /\ disconnected s = false /\ socket s = Open /\ action s = false /\
  exists l1 l2, gors s = l1 ++ Reader (RdRead Cur) :: l2 /\ forall g, In g (l1 ++ l2) -> g = Free \/ g = User UIdle.
(** Disconnected for good: nothing is left that could connect again. *)
Definition down (s : st) : Prop :=
  connected s = false /\ disconnecting s = false /\ disconnected s = true /\ socket s = Closed /\ action s = false /\
  forall g, In g (gors s) -> g = Free \/ g = User UIdle.

(** How many callbacks of a kind were called *)
Definition established (log : list ev) : nat := length (filter (fun e => match e with EEstablished => true | _ => false end) log).
Definition terminated (log : list ev) : nat := length (filter (fun e => match e with ETerminated => true | _ => false end) log).

(** Scheduling.  [prompt]: a goroutine that was started to end the connection has said
    so in the flags before the reader looks at them again. *)
Definition ending (g : gor) : bool := match g with Term (TmNew | TmDisc (DTest | DSet | DUnSet)) => true | _ => false end.
Definition prompt (s : st) (a : act) : bool :=
  match a with
  | Go i => match nth_error (gors s) i with Some (Reader RdLoop) => negb (existsb ending (gors s)) | _ => true end
  | _ => true
  end.
(** [lasting]: a connection lasts until the reconnect thread that made it has ended. *)
Definition reconnecting (g : gor) : bool := match g with Recon _ => true | _ => false end.
Definition lasting (s : st) (a : act) : bool := match a with Closes => negb (existsb reconnecting (gors s)) | _ => true end.
(** Every step a schedule takes satisfies [ok]. *)
Fixpoint always (ok : st -> act -> bool) (s : st) (sched : list act) : Prop :=
  match sched with
  | [] => True
  | a :: r => match act_step s a with Some (s', _) => ok s a = true /\ always ok s' r | None => always ok s r end
  end.
(** With handleReconnect as callback connections must last, too. *)
Definition orderly (s : st) (a : act) : bool := prompt s a && (negb (handler s) || lasting s a).
(** Nobody calls Disconnect. *)
Definition no_calls (sched : list act) : Prop := Forall (fun a => forall i, a <> Calls i) sched.
(** The publisher keeps the connection and accepts. *)
Definition publisher_stays (sched : list act) : Prop := Forall (fun a => exists i, a = Go i \/ a = Calls i) sched.
Definition own_steps (sched : list act) : Prop := Forall (fun a => exists i, a = Go i) sched.
(** The publisher keeps the connection until a goroutine has set out to end it. *)
Definition late_close (s : st) (a : act) : bool := match a with Closes => disconnecting s | _ => true end.
