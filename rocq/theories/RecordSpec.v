(** Specification vocabulary for the records of measurements (C121, C122). *)
From Verif Require Import Base GuidModel MeasTextModel.

(** No lookup of the same identifier is going on when one begins, and none at all
    when a connection is set up. *)
Definition alone (s : mstate) (a : maction) : Prop :=
  match a with
  | MLookup t id => forall u r, ms_pc s u <> Missed id r
  | MConnect => forall u, ms_pc s u = Outside
  | _ => True
  end.
Fixpoint all_alone (s : mstate) (acts : list maction) : Prop :=
  match acts with
  | [] => True
  | a :: r => alone s a /\ match mstep s a with Some (s1, _) => all_alone s1 r | None => True end
  end.
