(** Specification of the connection sequence: what the retry settings promise. *)
From Verif Require Import Base ConnectorModel.

(** Exponential back-off from the base interval, capped by the maximum. *)
Definition backoff (ri mx n : Z) : Z := Z.min mx (ri * 2 ^ n).

(** Number of dials among the events of a sequence. *)
Fixpoint dial_count (es : list event) : nat :=
  match es with
  | [] => 0%nat
  | Dial :: r => S (dial_count r)
  | Wait _ :: r => dial_count r
  end.

(** A server that refuses every one of n dials, with nobody cancelling. *)
Definition never_accepts (n : nat) : list dial := repeat (Fails false) n.

(** The reconnect goroutine and the goroutine which called Cancel have both ended. *)
Definition both_ended (s : cstate) : Prop := x s = XDone /\ exists b, w s = WDone b.

(** Waiting in the channel of a timer that was stopped before it fired. *)
Definition waits_on_stopped_timer (s : cstate) : Prop :=
  tmr s = Stopped /\ exists o, w s = WReceive o.

(** The reconnect goroutine is somewhere in waitForRetry or has just left it. *)
Definition in_wait (s : cstate) : Prop :=
  exists o, w s = WMakeTimer o \/ w s = WPublish o \/ w s = WReceive o \/ w s = WCheck o.
