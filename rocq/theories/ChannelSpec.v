(** Vocabulary for the life of data channels (C105). *)
From Coq Require Import List ZArith Bool.
Import ListNotations.
From Verif Require Import Base ChannelModel.
Open Scope Z_scope.

(** How many sockets are open, how many goroutines have not returned. *)
Definition open_sockets (s : chan) : nat := length (filter s_open (socks s)).
Definition unfinished (t : thread) : bool := match t with TDone => false | _ => true end.
Definition goroutines (s : chan) : nat := length (filter unfinished (threads s)).

(** A careful program: it calls from its own goroutines, not from the callbacks of the
    data channel, and subscribes only while the subscriber says it is subscribed or no
    data channel is open. *)
Definition careful_step (s : chan) (e : event) : Prop :=
  match e with
  | ECall (CSubscribe _) by_ => by_ = None /\ (subscribed s = true \/ open_sockets s = 0%nat)
  | ECall _ by_ => by_ = None
  | _ => True
  end.
Inductive history : chan -> list event -> Prop :=
| h_nil : history NewChannel []
| h_snoc s l e s' : history s l -> cstep s e = Some s' -> history s' (l ++ [e]).
Inductive careful : chan -> list event -> Prop :=
| c_nil : careful NewChannel []
| c_snoc s l e s' : careful s l -> careful_step s e -> cstep s e = Some s' -> careful s' (l ++ [e]).

(** Whether a data channel should be open after the calls and outcomes so far: the
    last Subscribe opened one and neither Unsubscribe nor Disconnect was called since. *)
Fixpoint wanted_from (b : bool) (l : list event) : bool :=
  match l with
  | [] => b
  | EListen ok :: r => wanted_from ok r
  | ECall CUnsubscribe _ :: r | ECall CDisconnect _ :: r => wanted_from false r
  | _ :: r => wanted_from b r
  end.
Definition wanted (l : list event) : bool := wanted_from false l.

(** What goes on by itself: neither new calls nor the publisher nor the network. *)
Definition internal (e : event) : bool :=
  match e with EStep | EListen _ | EThread _ => true | _ => false end.
Definition at_rest (s : chan) : Prop := forall e, internal e = true -> cstep s e = None.
