(** What an application may do with the slices it gets (C127). *)
From Verif Require Import Base CompactModel PoolModel.

(** The slices the application holds: those it made and those the callback got, until
    they are given back. *)
Definition held_after (s : pstate) (held : list nat) (a : paction) (ev : list pevent) : list nat :=
  match a with
  | PPut p => filter (fun q => negb (q =? p)%nat) held
  | PNew _ => length (p_slices s) :: held
  | _ => map (fun e => match e with PDelivered _ p _ => p end) ev ++ held
  end.
(** It gives back and writes only what it holds. *)
Definition allowed (held : list nat) (a : paction) : Prop :=
  match a with PPut p | PStore p _ _ => In p held | _ => True end.
(** [steps s held acts s' held']: the actions lead from [s] to [s']. *)
Inductive steps : pstate -> list nat -> list paction -> pstate -> list nat -> Prop :=
| steps_none s held : steps s held [] s held
| steps_more s held a s1 ev acts s' held' :
    allowed held a -> pstep s a = Some (s1, ev) -> steps s1 (held_after s held a ev) acts s' held' -> steps s held (a :: acts) s' held'.
(** An action by which the application itself changes the slice [p] or gives it back. *)
Definition concerns (p : nat) (a : paction) : Prop :=
  match a with PPut q | PStore q _ _ => q = p | _ => False end.
(** The array of the slice that the pool gave. *)
Definition given (s : pstate) (got : option nat) : option (list measurement) :=
  match got with
  | None => None
  | Some i => match nth_error (p_pool s) i with
              | Some p => match nth_error (p_slices s) p with Some (a, _) => Some (array_of s a) | None => None end
              | None => None
              end
  end.
