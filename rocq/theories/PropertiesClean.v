(** Property theorems: what of an earlier connection shows on a later one (C73), and
    when measurements are delivered (C74). *)
From stdpp Require Import gmap.
From Coq Require Import Lia ZArith.
From Verif Require Import Base BaseProofs CompactModel CompactSpec CacheModel CacheSpec FrameModel FrameSpec SubscriberModel SubscriberSpec SubscriberProofs SubscriberProofs5 SubscriberProofs8 CleanSpec CleanProofs CleanProofs2 PropertiesSubscriber.
Open Scope Z_scope.

(** ** C73: a new connection starts clean *)
(** The part that holds.  Two disconnected subscribers with the same settings, after
    any two histories, connect and then see the same packets and calls: the
    application sees the same, down to every measurement, as long as no packet refers
    to a signal index cache, base times or buffer blocks that were not sent on this
    connection.  ([q]: whether the queues of buffer blocks differ.)  So the caches,
    base times and the block queue are all that an earlier connection can influence. *)
Theorem C73_fresh_partial : forall e s s' l q, cbc_ok e -> reachable e s -> reachable e s' -> same_settings s s' ->
  connected s = false -> connected s' = false -> validated s = validated s' ->
  (q = false -> bufferBlockCache s = bufferBlockCache s') ->
  (forall s1 ev, act e s (AConnect true) = Ok (s1, ev) -> clean e (Leftover true true true q) s1 l) ->
  same_seen (run e s (AConnect true :: l)) (run e s' (AConnect true :: l)).
Proof. intros e s s' l q Bc R R' S C C' V Q. exact (fresh_alike e s s' l (reachable_good e s Bc R) (reachable_good e s' Bc R') S C C' V q Q). Qed.
Print Assumptions C73_fresh_partial.
(** The hypotheses hold of a subscriber that had a table and base times, and of one
    that had none, when the new connection sends both before data. *)
Definition ex_old : list action := [AConnect true; ex_update; APacket None (response 0x84 0 zz (be_put 4 0 ++ be_put 8 5 ++ be_put 8 6)); ADisconnect].
Definition ex_none : list action := [AConnect true; ADisconnect].
Definition ex_later : list action := [APacket None (response 0x80 6 zz []); ex_update; APacket None (response 0x84 0 zz (be_put 4 0 ++ be_put 8 0 ++ be_put 8 0));
  APacket None (response 0x82 0 zz (data_packet false 0 2 (concat (map (encode_sample ex_cfg0) ex_ss))))].
Definition state_of (r : step) : sub := match r with Ok (s, _) => s | _ => ex_new end.
Lemma ex_run l : forallb (fun a => match packet_of a with Some p => forallb byte_b p | None => true end) l = true ->
  (match run ex_env ex_new l with Ok _ => true | _ => false end) = true -> reachable ex_env (state_of (run ex_env ex_new l)).
Proof.
  intros B H. destruct (run ex_env ex_new l) as [[s ev]| |] eqn:R; try discriminate. cbn [state_of].
  exists 2, true, false, false, true, ex_set, l, ev. split; [|exact R]. apply List.Forall_forall. intros a Ha. rewrite forallb_forall in B. specialize (B a Ha). unfold packet_ok.
  destruct (packet_of a) as [p|]; [|exact Logic.I]. apply List.Forall_forall. intros x Hx. rewrite forallb_forall in B. specialize (B x Hx). unfold byte_b in B.
  apply andb_true_iff in B as (B1 & B2). unfold is_u8. lia.
Qed.
Example C73_fresh_nonvacuous :
  let s := state_of (run ex_env ex_new ex_old) in let s' := state_of (run ex_env ex_new ex_none) in
  reachable ex_env s /\ reachable ex_env s' /\ same_settings s s' /\ connected s = false /\ connected s' = false /\ validated s = validated s' /\
  baseTimes s <> baseTimes s' /\ Count (sc_sic (cache_at s 0)) <> Count (sc_sic (cache_at s' 0)) /\
  (forall s1 ev, act ex_env s (AConnect true) = Ok (s1, ev) -> clean ex_env (Leftover true true true true) s1 ex_later) /\
  map (map m_SignalID) (delivered (events (run ex_env s (AConnect true :: ex_later)))) = [[repeat 1 16; repeat 2 16]].
Proof.
  cbv zeta.
  split; [apply ex_run; vm_compute; reflexivity|]. split; [apply ex_run; vm_compute; reflexivity|].
  split; [vm_compute; repeat split|]. split; [vm_compute; reflexivity|]. split; [vm_compute; reflexivity|]. split; [vm_compute; reflexivity|].
  split; [vm_compute; discriminate|]. split; [vm_compute; discriminate|].
  split; [|vm_compute; reflexivity].
  intros s1 ev H. apply clean_b_ok. assert (K : s1 = state_of (act ex_env (state_of (run ex_env ex_new ex_old)) (AConnect true))) by (rewrite H; reflexivity).
  rewrite K. clear K H s1 ev. vm_compute. reflexivity.
Qed.

(** ** C74: when measurements are delivered *)
(** The part that holds: measurements are delivered only for a data packet, once, and
    only after a Connect that no disconnection followed and on which the publisher has
    answered (see [within_connection]).  That it also takes a subscription is false:
    C74_data_while_unsubscribed_refuted. *)
Theorem C74_connected_partial : forall e v cp cm cc sw st l s ev a s1 ev1, cbc_ok e -> Forall packet_ok l -> packet_ok a ->
  run e (NewDataSubscriber v cp cm cc sw st) l = Ok (s, ev) -> act e s a = Ok (s1, ev1) -> delivered ev1 <> [] ->
  within_connection v l /\ length (delivered ev1) = 1%nat /\ exists p, packet_of a = Some p /\ code_of p = 0x82.
Proof. intros e v cp cm cc sw st l s ev a s1 ev1 Bc F Bp R A N. exact (delivery_stands e (NewDataSubscriber v cp cm cc sw st) l s ev a s1 ev1 Bc eq_refl F Bp R A N). Qed.
Print Assumptions C74_connected_partial.
(** After a disconnection and before the next Connect nothing is delivered. *)
Theorem C74_disconnected_partial : forall e v cp cm cc sw st l s ev acts s1 ev1, cbc_ok e -> Forall packet_ok l -> Forall packet_ok acts ->
  run e (NewDataSubscriber v cp cm cc sw st) (l ++ [ADisconnect]) = Ok (s, ev) -> ~ In (AConnect true) acts ->
  run e s acts = Ok (s1, ev1) -> delivered ev1 = [].
Proof. intros e v cp cm cc sw st l s ev acts s1 ev1 Bc F Fa R N R1. exact (nothing_delivered e _ l s ev acts s1 ev1 Bc F Fa R N R1). Qed.
Print Assumptions C74_disconnected_partial.
Example C74_connected_nonvacuous :
  map (fun r => length (delivered (events r)))
    [run ex_env ex_new (ex_none ++ AConnect true :: ex_later); run ex_env ex_new (ex_none ++ ex_later); run ex_env ex_new (ex_old ++ AConnect true :: skipn 1 ex_later)]
  = [1; 0; 0]%nat.
Proof. vm_compute. reflexivity. Qed.
