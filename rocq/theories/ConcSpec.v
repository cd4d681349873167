(** Specification vocabulary for the goroutine models. *)
From Verif Require Import Base ConcModel.

(** *** Thread *)
Definition executing (g : tgor) : bool := match g with Runner R1 => true | _ => false end.
Definition executions_in_progress (s : tstate) : nat := length (filter executing (gors s)).
Definition started (s : tstate) : nat :=
  length (filter (fun e => match e with EStarted => true | _ => false end) (log s)).
Definition began (s : tstate) : nat :=
  length (filter (fun e => match e with EBegan => true | _ => false end) (log s)).
Definition ended (s : tstate) : nat :=
  length (filter (fun e => match e with EEnded => true | _ => false end) (log s)).
Definition tfinished (g : tgor) : bool :=
  match g with
  | Caller CIdle [] | Caller CPanicked _ | Runner R4 => true
  | _ => false
  end.
Definition all_finished (s : tstate) : Prop := forallb tfinished (gors s) = true.

(** *** Callback lock *)
(** Every goroutine has performed all its operations. *)
Definition all_done (s : lstate) : Prop := Forall (fun g => ops g = []) (lgors s).
(** Code that never acquires the lock while holding it. *)
Inductive flat : list instr -> Prop :=
| flat_nil : flat []
| flat_read r : flat r -> flat (RLock :: RUnlock :: r)
| flat_write r : flat r -> flat (Lock :: Unlock :: r).

(** *** Measurement reader *)
(** The measurements of a list of results that came from goroutine [i]. *)
Fixpoint from {A} (i : nat) (rs : list (nat * reply A)) : list A :=
  match rs with
  | [] => []
  | (_, Got j m) :: r => if Nat.eqb i j then m :: from i r else from i r
  | _ :: r => from i r
  end.
Definition is_close (a : mact) : bool := match a with Close => true | _ => false end.

(** *** Command channel *)
(** The reader never tests the disconnecting flag while Unsubscribe has it set. *)
Fixpoint undisturbed (s : ustate) (sched : list nat) : bool :=
  match sched with
  | [] => true
  | i :: rest =>
      (match i, upc_ s with
       | O, UGotHeader _ | O, UGotBody _ => negb (disconnecting s)
       | _, _ => true
       end) &&
      undisturbed (match ustep s i with Some s' => s' | None => s end) rest
  end.
