(** What ought to become of connections while Unsubscribe is called *)
From Coq Require Import Arith.
From Verif Require Import Base ConcModel ShutdownModel ShutdownSpec UnsubModel.

(** The publisher keeps the connection open. *)
Definition stays (sched : list nact) : Prop := Forall (fun a => forall c, a <> NAct (Closes c)) sched.
(** Nothing is left to do. *)
Definition nothing_left (s : nst) : Prop := forall a, (forall c, a <> NAct (Closes c)) -> nact_step s a = None.
(** Every call of Unsubscribe has returned; none is under way. *)
Definition unsubscribed (s : nst) : Prop := Forall (eq (Caller NIdle 0)) (callers s).
Definition no_unsubscribe (s : nst) : Prop := Forall (fun c => at_pc c = NIdle) (callers s).
(** No call of Disconnect is under way. *)
Definition no_disconnect (s : sst) : Prop := forall p todo, ~ In (User (UDisc p) todo) (sgors s).
(** A call of Disconnect begins only while no Unsubscribe is under way, and the other way
    round. *)
Definition begins_apart (s : nst) (a : nact) : Prop :=
  match a with
  | NAct (Go i) => forall todo, nth_error (sgors (under s)) i = Some (User UIdle todo) -> no_unsubscribe s
  | NAct (Closes _) => True
  | NCall k => forall n, nth_error (callers s) k = Some (Caller NIdle n) -> no_disconnect (under s)
  end.
Fixpoint apart (s : nst) (sched : list nact) : Prop :=
  match sched with
  | [] => True
  | a :: r => begins_apart s a /\ apart (match nact_step s a with Some s' => s' | None => s end) r
  end.
