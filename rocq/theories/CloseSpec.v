(** How closing a subscriber ought to go. *)
From Coq Require Import Arith.
From Verif Require Import Base ConcModel ShutdownModel ShutdownSpec CloseModel.

(** The publisher keeps the connection open. *)
Definition keeps_open (sched : list cact) : Prop := Forall (fun a => forall c, a <> CAct (Closes c)) sched.
(** Nothing is left to do. *)
Definition all_rest (s : cst) : Prop := (forall i, cact_step s (CAct (Go i)) = None) /\ (forall k, close_step s k = None) /\ (forall k, dial_step s k = None).
(** The steps that a schedule really takes *)
Fixpoint cmoves (s : cst) (sched : list cact) : nat :=
  match sched with
  | [] => 0
  | a :: r => match cact_step s a with Some s' => S (cmoves s' r) | None => cmoves s r end
  end.
(** Call [k] of Close has returned; it has returned after waiting. *)
Definition closed_back (s : cst) (k : nat) : Prop := exists u h w, nth_error (closers s) k = Some (Closer u h (CBack w)).
Definition waited_back (s : cst) (k : nat) : Prop := exists u h, nth_error (closers s) k = Some (Closer u h (CBack true)).
(** The connection is over: the subscriber closed it, says so, and the callback was
    called. *)
Definition over (s : sst) : Prop := connected s = false /\ disconnected s = true /\ In 1%nat (closed s) /\ (1 <= terminations s)%nat.
(** A goroutine is about to connect or connecting. *)
Definition dials (g : sgor) : Prop :=
  match g with
  | User (UIdle | UDisc _) todo => In OConnect todo
  | User _ _ => True
  | _ => False
  end.
(** Call [k] of Close has begun. *)
Definition begun (s : cst) (k : nat) : Prop := exists c, nth_error (closers s) k = Some c /\ cat c <> CNew.
