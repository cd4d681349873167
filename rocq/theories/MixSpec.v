(** What is expected of the data channel while the command channel is used (C113). *)
From stdpp Require Import gmap.
From Verif Require Import Base GuidModel CompactModel CompactSpec CacheModel SubscriberModel SubscriberSpec EndSpec MixModel.
Open Scope Z_scope.

(** The key a packet refers to. *)
Definition key_for (k : option (key_iv * key_iv)) (odd : bool) : option key_iv :=
  match k with Some (k0, k1) => Some (if odd then k1 else k0) | None => None end.
Definition keys_fine (k : option (key_iv * key_iv)) : Prop := match k with None => True | Some (k0, k1) => key_ok k0 /\ key_ok k1 end.
(** The caches a slot holds in the course of a schedule. *)
Definition held (h : shared) (second : bool) (ws : list store) (c : sic) : Prop :=
  c = h_cache h second \/ In (SCache second c) ws.
(** No store changes a base time of this index. *)
Definition base_kept (h : shared) (second : bool) (ws : list store) : Prop :=
  forall v, In (SBase second v) ws -> v = h_base h second.
(** What the application may expect for a sample: value and flags in any case, the
    signal that the cache [c] gives, and the time if the base time was not replaced. *)
Definition expected (h : shared) (cfg : cm_config) (ws : list store) (c : sic) (s : sample) (m : measurement) : Prop :=
  m_SignalID m = signalID_of c (s_id s) /\ m_Value m = s_value s /\ category_closure (s_flags s) (m_Flags m) /\
  (base_kept h (s_timeIndex s =? 1) ws -> received_time cfg s (m_Timestamp m)).
(** A store that concerns nothing the packet refers to. *)
Definition unrelated (h : shared) (second odd : bool) (ss : list sample) (w : store) : Prop :=
  match w with
  | SKeys k => key_for k odd = key_for (h_keys h) odd
  | SCache i _ => i <> second
  | SBase i v => v = h_base h i \/ Forall (fun s => (s_timeIndex s =? 1) <> i) ss
  end.
(** As if the packet had been handled at once, at some moment between the stores. *)
Definition serializable (e : env) (pool : option (list measurement)) (incl ms : bool) (packet : bytes) (h : shared) (sched : list turn) (o : outcome) : Prop :=
  exists before after n, stores_of sched = before ++ after /\
    mixed e pool incl ms packet (apply_all h before) Start (repeat Data n) = Finished o.
