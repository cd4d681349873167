(** Schedules of a transition system: [step s a] is the state after the action [a] and
    the event it has, or nothing when [a] cannot happen in [s]. *)
From Verif Require Import Base.

Section Sched.
Context {st act ev : Type} (step : st -> act -> option (st * option ev)).
Definition logged (o : option ev) (log : list ev) : list ev := match o with Some e => e :: log | None => log end.
(** Actions that cannot happen are skipped.  The log has the newest event first. *)
Fixpoint run (s : st) (log : list ev) (sched : list act) : st * list ev :=
  match sched with
  | [] => (s, log)
  | a :: r => match step s a with Some (s', o) => run s' (logged o log) r | None => run s log r end
  end.
(** Every action a schedule takes satisfies [ok]. *)
Fixpoint always (ok : st -> act -> bool) (s : st) (sched : list act) : Prop :=
  match sched with
  | [] => True
  | a :: r => match step s a with Some (s', _) => ok s a = true /\ always ok s' r | None => always ok s r end
  end.
End Sched.
