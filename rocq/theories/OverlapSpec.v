(** What ought to become of data channels when calls overlap *)
From Coq Require Import List ZArith Bool.
Import ListNotations.
From Verif Require Import Base ChannelModel OverlapModel.

(** How many sockets are open, how many data goroutines have not returned *)
Definition sockets_open (s : ost) : nat := length (filter s_open (o_socks s)).
Definition reading (s : ost) : nat := length (filter (fun t => match t with TDone => false | _ => true end) (o_threads s)).

(** What goes on by itself: no datagram, no answer, no new connection *)
Definition by_itself (a : oact) : bool := match a with OUser _ _ | ODisc _ | OData _ => true | _ => false end.
Definition stands_still (s : ost) : Prop := forall a, by_itself a = true -> oact_step s a = None.
(** Every call has returned and every disconnect thread has ended. *)
Definition all_returned (s : ost) : Prop :=
  Forall (eq (User UIdle [])) (o_users s) /\ Forall (eq DEnd) (o_discs s) /\ o_lock s = None.

(** Goroutines that only end things *)
Definition only_ending (calls : list (list api)) : Prop := Forall (Forall (fun c => forall p, c <> CSubscribe p)) calls.
Definition only (c : api) (calls : list (list api)) : Prop := Forall (Forall (eq c)) calls.
Definition some_call (calls : list (list api)) : Prop := exists l, In l calls /\ l <> [].
(** The connection is not made anew. *)
Definition one_connection (l : list oact) : Prop := Forall (fun a => a <> OConnect) l.
