(** Connecting: what is asked (C141). *)
From Coq Require Import List.
From Verif Require Import ConcModel DialsModel.
Import ListNotations.
Open Scope list_scope.

(** No call begins while another is in progress: begins and returns take turns. *)
Fixpoint turns (t : list dev) : Prop :=
  match t with
  | [] => True
  | [Begins _] => True
  | Begins i :: Returns j _ :: r => i = j /\ turns r
  | _ => False
  end.
(** How many calls have returned nil *)
Fixpoint successes (t : list dev) : nat := match t with [] => 0 | Returns _ true :: r => S (successes r) | _ :: r => successes r end.
