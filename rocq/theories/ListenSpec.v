(** How a listening subscriber ought to work. *)
From Coq Require Import Arith ZArith.
From Verif Require Import Base Sched ListenModel.
#[local] Open Scope nat_scope.

(** No goroutine can take a step: only a publisher or the application can go on. *)
Definition at_rest (s : st) : Prop := forall i, step s i = None.
Definition others_idle (l : list gor) : Prop := forall g, In g l -> g = Free \/ g = User UIdle.
(** Listening without a publisher: one goroutine accepts on the open listening socket
    and nothing else goes on. *)
Definition vacant (s : st) : Prop :=
  listening s = true /\ connected s = false /\ disconnecting s = false /\ listener s = LOn /\ orphan s = false /\
  waiting s = false /\ socket s <> Open /\ action s = false /\
  exists l1 l2, gors s = l1 ++ Accept (AAccept Cur) :: l2 /\ others_idle (l1 ++ l2).
(** Listening with a publisher: its connection is open, one goroutine reads it and one
    accepts. *)
Definition serving (s : st) : Prop :=
  listening s = true /\ connected s = true /\ disconnecting s = false /\ disconnected s = false /\ listener s = LOn /\ orphan s = false /\
  waiting s = false /\ socket s = Open /\ action s = false /\
  exists l1 l2 l3 g h, gors s = l1 ++ g :: l2 ++ h :: l3 /\ others_idle (l1 ++ l2 ++ l3) /\
    (g = Accept (AAccept Cur) /\ h = Reader (RdRead Cur) \/ g = Reader (RdRead Cur) /\ h = Accept (AAccept Cur)).
(** Not listening: no socket is open and no goroutine is left. *)
Definition silent (s : st) : Prop :=
  listening s = false /\ connected s = false /\ disconnecting s = false /\ listener s <> LOn /\ orphan s = false /\
  socket s <> Open /\ action s = false /\ others_idle (gors s).

(** How many events of a kind there were *)
Definition count (f : ev -> bool) (log : list ev) : nat := length (filter f log).
Definition established : list ev -> nat := count (fun e => match e with EEstablished => true | _ => false end).
Definition terminated : list ev -> nat := count (fun e => match e with ETerminated => true | _ => false end).
(** Disconnect called without a connection: the terminated callback is called all the same. *)
Definition idle_calls : list ev -> nat := count (fun e => match e with EDisconnect false => true | _ => false end).
(** Whether the application last asked to listen (the newest event is first) *)
Fixpoint asked (log : list ev) : bool :=
  match log with
  | [] => false
  | EListen :: _ => true
  | EDisconnect _ :: _ => false
  | _ :: r => asked r
  end.

(** Scheduling.  [prompt]: a goroutine that was started to end the connection has said
    so in the flags before the reader looks at them again. *)
Definition ending (g : gor) : bool := match g with Term (TmNew | TmDisc (DTest | DSet | DUnSet)) => true | _ => false end.
Definition prompt (s : st) (a : act) : bool :=
  match a with
  | Go i => match nth_error (gors s) i with Some (Reader RdLoop) => negb (existsb ending (gors s)) | _ => true end
  | _ => true
  end.
(** [unhurried]: a publisher that was accepted while a connection is being ended has to
    wait until it has. *)
Definition closing (g : gor) : bool := match g with Term _ | Disc _ _ => true | _ => false end.
Definition unhurried (s : st) (a : act) : bool :=
  match a with
  | Go i => match nth_error (gors s) i with Some (Accept ATest) => connected s || negb (existsb closing (gors s)) | _ => true end
  | _ => true
  end.
(** [in_turn]: the application calls Disconnect when the subscriber is at rest, and
    Listen at any time, but Listen looks for the goroutine that Disconnect started only
    when that has begun to run; no publisher connects while a call is carried out, and
    none closes its connection before the call has returned. *)
Definition resting (s : st) : bool := forallb (fun i => match step s i with None => true | _ => false end) (seq 0 (length (gors s))).
Definition calling (g : gor) : bool := match g with User UIdle => false | User _ => true | Disc false _ => true | _ => false end.
Definition in_call (g : gor) : bool := match g with User UIdle => false | User _ => true | _ => false end.
Definition unbegun (g : gor) : bool := match g with Disc _ XNew => true | _ => false end.
Definition in_turn (s : st) (a : act) : bool :=
  match a with
  | CallsDisconnect _ => resting s
  | Go i => match nth_error (gors s) i with Some (User (UListen LJoin)) => negb (existsb unbegun (gors s)) | _ => true end
  | Dials => negb (existsb calling (gors s))
  | Closes => negb (existsb in_call (gors s))
  | _ => true
  end.
Definition orderly (s : st) (a : act) : bool := prompt s a && unhurried s a && in_turn s a.
(** Nobody calls. *)
Definition no_calls (sched : list act) : Prop := Forall (fun a => forall i, a <> CallsListen i /\ a <> CallsDisconnect i) sched.
Definition own_steps (sched : list act) : Prop := Forall (fun a => exists i, a = Go i) sched.
Notation run := (Sched.run act_step).
Notation always := (Sched.always act_step).
