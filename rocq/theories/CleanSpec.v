(** What of an earlier connection can show on a later one (C73), and when
    measurements are delivered (C74). *)
From Verif Require Import Base FrameModel SubscriberModel SubscriberSpec.
Open Scope Z_scope.

(** The parts of a subscriber that an earlier connection may have left: the two
    signal index caches, the base times, the queue of buffer blocks. *)
Record leftover := Leftover { l_cache0 : bool; l_cache1 : bool; l_base : bool; l_blocks : bool }.
Definition l_slot (d : leftover) (one : bool) : bool := if one then l_cache1 d else l_cache0 d.

(** A packet refers to none of them.  A data packet (0x82) names a cache by bit 4
    of its flags, the seventh byte, and uses the base times unless bit 3 says that
    it is compressed; a buffer block (0x88) names a cache from version 2 on. *)
Definition refers_to_none (v : Z) (d : leftover) (p : bytes) : Prop :=
  (code_of p = 0x82 -> l_slot d (Z.testbit (nth 6 p 0) 4) = false /\ (l_base d = false \/ Z.testbit (nth 6 p 0) 3 = true)) /\
  (code_of p = 0x88 -> l_blocks d = false /\ l_slot d ((1 <? v) && (0 <? nth 10 p 0)) = false).

Definition reports_update (ev : list event) : bool := existsb (fun x => match x with EvSubscriptionUpdated _ => true | _ => false end) ev.
Definition reports_info (ev : list event) : bool := existsb (fun x => match x with EvInfo => true | _ => false end) ev.
(** What is left over after an action with effects [ev]: a cache update (0x83) that
    is reported replaces the cache it names, a base time update (0x84) that is
    reported the base times. *)
Definition after (v : Z) (d : leftover) (a : action) (ev : list event) : leftover :=
  match packet_of a with
  | None => d
  | Some p =>
      let upd := (code_of p =? 0x83) && reports_update ev in
      let one := (1 <? v) && (0 <? nth 6 p 0) in
      Leftover (l_cache0 d && negb (upd && negb one)) (l_cache1 d && negb (upd && one))
        (l_base d && negb ((code_of p =? 0x84) && reports_info ev)) (l_blocks d)
  end.
(** Along the actions [l] from [s], no packet refers to what is left over. *)
Inductive clean (e : env) : leftover -> sub -> list action -> Prop :=
| clean_end d s : clean e d s []
| clean_step d s a l s1 ev : packet_ok a -> (forall p, packet_of a = Some p -> refers_to_none (Version s) d p) ->
    act e s a = Ok (s1, ev) -> clean e (after (Version s) d a ev) s1 l -> clean e d s (a :: l)
| clean_crash d s a l : packet_ok a -> (forall p, packet_of a = Some p -> refers_to_none (Version s) d p) ->
    act e s a = Panic -> clean e d s (a :: l).

(** The same settings, by the application. *)
Definition same_settings (s s' : sub) : Prop :=
  Version s = Version s' /\ CompressPayloadData s = CompressPayloadData s' /\ CompressMetadata s = CompressMetadata s' /\
  CompressSignalIndexCache s = CompressSignalIndexCache s' /\ SwapGuidEndianness s = SwapGuidEndianness s' /\ subscription s = subscription s'.
(** The same can be seen: both crash, or neither and the effects are the same. *)
Definition same_seen (r r' : step) : Prop :=
  match r, r' with Ok (_, ev), Ok (_, ev') => ev = ev' | Panic, Panic | Err, Err => True | _, _ => False end.
(** A response that ends the wait for the publisher's first answer. *)
Definition validates (a : action) : Prop := exists p, packet_of a = Some p /\ plausible (code_of p) (command_of p).
(** The history [l] ends within a connection, begun after [before], on which the
    publisher has answered (from version 2 on, unless nothing was ever disconnected:
    a new subscriber takes its first connection for answered). *)
Definition within_connection (v : Z) (l : list action) : Prop :=
  exists before during, l = before ++ AConnect true :: during /\ ~ In ADisconnect during /\
  (v < 2 \/ ~ In ADisconnect before \/ exists a, In a during /\ validates a).
