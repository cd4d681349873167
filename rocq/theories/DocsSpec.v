(** Documents loaded at the same time: what is asked (C143). *)
From Coq Require Import List Bool ZArith.
From Verif Require Import ConcModel DocsModel.
Import ListNotations.
Open Scope list_scope.

(** What a document says of a field of a signal: the last row about it that has it *)
Definition says (d : list mrow) (s : Z) (f : mfield) : option Z :=
  fold_left (fun acc r => if Z.eqb (signal r) s then match values r f with Some v => Some v | None => acc end else acc) d None.
(** What documents say one after another: the last that says anything *)
Definition latest (ds : list (list mrow)) (s : Z) (f : mfield) : option Z :=
  fold_left (fun acc d => match says d s f with Some v => Some v | None => acc end) ds None.
(** Every goroutine has done its work. *)
Definition loaded (s : mstate) : Prop := forall l, In l (loading s) -> l = [].
(** No document arrives before those before it are loaded. *)
Inductive one_by_one : list mmove -> Prop :=
| one_none : one_by_one []
| one_arrives : forall ms d, one_by_one ms -> loaded (mmrun ms) -> one_by_one (ms ++ [Arrives d])
| one_assigns : forall ms i, one_by_one ms -> one_by_one (ms ++ [Assigns i]).
