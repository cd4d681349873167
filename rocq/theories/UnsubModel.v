(** Unsubscribe while a connection ends: DataSubscriber.Unsubscribe
    (/repo/sttp/transport/DataSubscriber.go:571-593, DS), which sets the flag
    [disconnecting] for a while, on top of the goroutines of ShutdownModel, with its
    simplifications.

    Any number of goroutines call Unsubscribe one after another.  There is no data
    channel (see ChannelModel), sending the command (577) is left out (see WriteModel),
    and [validated], which is cleared right after [connected] (628-629), is taken to
    equal it. *)
From Coq Require Import Arith.
From Verif Require Import Base ConcModel ShutdownModel.

(** Control points of a goroutine that calls Unsubscribe *)
Inductive npc : Type :=
| NIdle           (* between calls *)
| NSet            (* after the test of connected (572), before disconnecting.Set (579) *)
| NBack.          (* before disconnecting.UnSet (592) *)
(** [toCall]: calls not begun yet *)
Record caller : Type := Caller { at_pc : npc; toCall : nat }.

Record nst : Type := NState { under : sst; callers : list caller }.

(** The next step of caller [k] *)
Definition call_step (s : nst) (k : nat) : option nst :=
  let b := under s in
  if crashed b then None else
  match nth_error (callers s) k with
  | None => None
  | Some (Caller pc n) =>
    let go b p n := Some (NState b (set_nth (callers s) k (Caller p n))) in
    match pc with
    | NIdle => match n with O => None | S n => go b (if connected b then NSet else NIdle) n end
    | NSet => go (with_flags b (connected b) true (disconnected b)) NBack n
    | NBack => go (with_flags b (connected b) false (disconnected b)) NIdle n
    end
  end.

(** A schedule: a step of a goroutine of ShutdownModel or the publisher closing a
    connection, a step of a caller *)
Inductive nact : Type := NAct (a : sact) | NCall (k : nat).
Definition nact_step (s : nst) (a : nact) : option nst :=
  match a with
  | NAct a => match sact_step (under s) a with Some b => Some (NState b (callers s)) | None => None end
  | NCall k => call_step s k
  end.
Fixpoint nrun (s : nst) (sched : list nact) : nst :=
  match sched with [] => s | a :: r => nrun (match nact_step s a with Some s' => s' | None => s end) r end.

(** A connected subscriber with callers of Unsubscribe, so many times each, and goroutines
    that make [calls] *)
Definition ninit (times : list nat) (calls : list (list uop)) : nst :=
  NState (sconnected calls) (map (Caller NIdle) times).
