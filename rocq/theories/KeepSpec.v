(** What C146 says of histories. *)
From Coq Require Import List Arith Bool.
From Verif Require Import KeepModel.
Import ListNotations.

(** The application calls Disconnect nowhere. *)
Definition undisturbed (l : list kact) : Prop := ~ In ADisconnect l.
(** No call of Dial asks for automatic reconnection. *)
Definition plain (l : list kact) : Prop := forall ok, ~ In (ADial true ok) l.
(** How often something is seen. *)
Definition count (e : kevent -> bool) (l : list kevent) : nat := length (filter e l).
Definition is_dialled (e : kevent) : bool := match e with KDialled => true | _ => false end.
Definition is_refused (e : kevent) : bool := match e with KRefused => true | _ => false end.
Definition is_accepted (e : kevent) : bool := match e with KAccepted => true | _ => false end.
(** The last of a history was a successful Listen, or the subscriber listens since. *)
Definition listens (max : option nat) (l : list kact) : Prop := listening (fst (krun max new_state l)) = true.
