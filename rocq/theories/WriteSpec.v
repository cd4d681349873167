(** What ought to become of commands and of a connection whose commands fail *)
From Coq Require Import Arith.
From Verif Require Import Base ConcModel ShutdownModel ShutdownSpec WriteModel.

(** Nothing is left to do. *)
Definition all_done (s : wst) : Prop := forall a, (forall c, a <> WAct (Closes c)) -> wact_step s a = None.
(** Every command has been sent or given up. *)
Definition all_sent (s : wst) : Prop := Forall (eq (Sender WIdle 0)) (senders s).
(** Commands of sender [k] that were written to connection [c] *)
Definition written (s : wst) (k c : nat) : nat :=
  length (filter (fun e => match e with EWritten k' c' => Nat.eqb k k' && Nat.eqb c c' | _ => false end) (wlog s)).
(** The command to [c] failed. *)
Definition failed_on (s : wst) (c : nat) : Prop := exists k, In (EFailed k c) (wlog s).
(** Commands whose writing failed *)
Definition failures (s : wst) : nat := length (filter (fun e => match e with EFailed _ _ => true | _ => false end) (wlog s)).
(** No goroutine of the connection is left. *)
Definition all_ended (s : sst) : Prop := forall g, In g (sgors s) -> g = Reader 1 RdEnd \/ g = Term TmEnd \/ g = Disc true XEnd.
