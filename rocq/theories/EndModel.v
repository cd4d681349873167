(** The command channel's reading loop joined to the subscriber state:
    sttp/transport/DataSubscriber.go:801-875. *)
From stdpp Require Import gmap.
From Verif Require Import Base FrameModel CompactModel SubscriberModel.
Open Scope Z_scope.

(** The subscriber, the effects so far, and what MeasurementPool.Get will return, call
    by call. *)
Record chan : Type := mkChan { ch_sub : sub; ch_events : list event; ch_pools : nat -> option (list measurement) }.
(** DataSubscriber.go:809-853: a payload header has arrived. *)
Definition on_header (st : chan) (size : Z) : after chan :=
  let '(s, go) := readPayloadHeader (ch_sub st) size in
  if go then Continue (mkChan s (ch_events st) (ch_pools st))
  else Stop (mkChan s (ch_events st ++ [EvError; EvTerminate]) (ch_pools st)).
(** DataSubscriber.go:858-875: the packet has arrived.  Simplification: the pool is
    asked once for every packet, also for those without measurements. *)
Definition on_packet (e : env) (st : chan) (packet : bytes) : after chan :=
  match readPacket e (ch_pools st O) (ch_sub st) packet with
  | Ok (s, ev) => Continue (mkChan s (ch_events st ++ ev) (fun n => ch_pools st (S n)))
  | _ => Crash st
  end.
(** DataSubscriber.go:801-807: the goroutine that reads the connection. *)
Definition read_connection (e : env) (fuel : nat) (st : chan) (r : reader) : after chan :=
  channel_loop on_header (on_packet e) fuel st r.
