(** What it means for a packet to end inside a measurement (C26). *)
From Verif Require Import Base TsscModel.
Open Scope Z_scope.

(** The states of a decoder after any packets and calls, refused ones included. *)
Inductive used : td -> Prop :=
| used_new : used NewDecoder
| used_buffer t packet : used t -> used (SetBuffer t packet)
| used_call t r t' : used t -> TryGetMeasurement t = DOk r t' -> used t'
| used_error t t' : used t -> TryGetMeasurement t = DErr t' -> used t'.

(** The same decoder, had its packet continued with [x]. *)
Definition with_more (x : bytes) (t : td) : td :=
  mkTd (data t ++ x) (position t) (len (data t ++ x)) (prevTimestamp1 t) (prevTimestamp2 t) (prevTimeDelta1 t) (prevTimeDelta2 t)
    (prevTimeDelta3 t) (prevTimeDelta4 t) (point0 t) (lastPoint t) (points t) (bitStreamCount t) (bitStreamCache t) (SequenceNumber t).

(** Nothing of the packet is left. *)
Definition all_read (t : td) : Prop := position t = len (data t) /\ bitStreamCount t = 0.

(** The next call ends, with a result or an error, only beyond the packet. *)
Definition ends_beyond (t : td) (n : Z) : Prop :=
  (exists r t', TryGetMeasurement t = DOk r t' /\ n < position t') \/
  (exists t', TryGetMeasurement t = DErr t' /\ n < position t').
Definition cut_short (t : td) : Prop :=
  ~ all_read t /\ exists x, bytes_ok x /\ ends_beyond (with_more x t) (len (data t)).
