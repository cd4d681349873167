(** Subscription state, counters and witnesses. *)
From stdpp Require Import gmap.
From Coq Require Import Lia ZArith.
From Verif Require Import Base BaseProofs TicksModel GuidModel FormatModel FormatProofs CompactModel CompactSpec CompactProofs CacheModel CacheSpec CacheProofs FrameModel FrameSpec FrameProofs TsscModel TsscSpec TsscCode TsscCode2 TsscRead TsscProofs TsscProofs2 TsscProofs3 SubscriberModel SubscriberSpec SubscriberProofs SubscriberProofs2 SubscriberProofs3 SubscriberProofs4 SubscriberProofs5 SubscriberProofs6 SubscriberProofs7.
Open Scope Z_scope.
Ltac Zify.zify_post_hook ::= Z.div_mod_to_equations.

Lemma reachable_good e s : cbc_ok e -> reachable e s -> good s.
Proof. intros Bc (v & cp & cm & cc & sw & st & acts & ev & F & R). eapply run_good; [exact F|exact Bc|apply new_good|exact R]. Qed.
Lemma reachable_run e s acts s' ev : reachable e s -> Forall packet_ok acts -> run e s acts = Ok (s', ev) -> reachable e s'.
Proof.
  intros (v & cp & cm & cc & sw & st & a0 & ev0 & F & R) F2 R2. exists v, cp, cm, cc, sw, st, (a0 ++ acts), (ev0 ++ ev).
  split; [apply Forall_app; auto|]. rewrite run_app, R. cbn [bind]. unfold emit. rewrite R2. reflexivity.
Qed.

Definition keeps_conn (s s' : sub) : Prop := connected s' = connected s /\ subscribed s' = subscribed s.
Lemma send_conn s c d s' ev : send s c d = Ok (s', ev) -> keeps_conn s s'.
Proof. intros H. apply send_inv in H as (wb & -> & _). split; reflexivity. Qed.
Lemma Unsubscribe_conn s s' ev : Unsubscribe s = Ok (s', ev) -> keeps_conn s s'.
Proof. unfold Unsubscribe. destruct (_ || _); intros H; [injection H as <- _; split; reflexivity|eapply send_conn, H]. Qed.
Lemma Subscribe_conn s s' ev : Subscribe s = Ok (s', ev) -> keeps_conn s s'.
Proof.
  unfold Subscribe. intros H. destruct (negb (connected s)); [injection H as <- _; split; reflexivity|]. destruct (_ && _); [injection H as <- _; split; reflexivity|].
  match type of H with bind ?x _ = _ => destruct x as [[s1 ev1]| |] eqn:X end; try discriminate.
  assert (M1 : keeps_conn s s1) by (destruct (subscribed s) eqn:B; [eapply Unsubscribe_conn, X|injection X as <- _; split; reflexivity]).
  cbn [bind] in H. cbv beta zeta iota in H.
  match type of H with bind ?x _ = _ => destruct x as [[s2 ev2]| |] eqn:Y end; try discriminate.
  cbn [bind] in H. cbv beta zeta iota in H. unfold done in H. injection H as <- _. apply send_conn in Y as (Y1 & Y2). destruct M1 as (M1 & M2).
  change (connected (set_measTotal s1 0)) with (connected s1) in Y1. change (subscribed (set_measTotal s1 0)) with (subscribed s1) in Y2.
  split; [change (connected s2 = connected s)|change (subscribed s2 = subscribed s)]; congruence.
Qed.
Lemma Subscribe_total s s' ev : Subscribe s = Ok (s', ev) -> ev <> [] -> measTotal s' = 0.
Proof.
  unfold Subscribe. intros H N. destruct (negb (connected s)); [injection H as _ <-; contradiction|]. destruct (_ && _); [injection H as _ <-; contradiction|].
  match type of H with bind ?x _ = _ => destruct x as [[s1 ev1]| |] eqn:X end; try discriminate.
  cbn [bind] in H. cbv beta zeta iota in H.
  match type of H with bind ?x _ = _ => destruct x as [[s2 ev2]| |] eqn:Y end; try discriminate.
  cbn [bind] in H. cbv beta zeta iota in H. unfold done in H. injection H as <- _. apply send_inv in Y as (wb & -> & _). reflexivity.
Qed.
Lemma establish_eq s s' ev : establishConnection s = Ok (s', ev) -> exists wb, s' = set_writeBuffer (set_connected s true) wb.
Proof.
  intros H. unfold establishConnection in H. cbv zeta in H.
  destruct (sendOperationalModes (set_connected s true)) as [[s1 ev1]| |] eqn:X; try discriminate. cbn [bind] in H. unfold done in H. injection H as <- _.
  destruct (sendOperationalModes_eq (set_connected s true)) as (d & E). rewrite E in X. apply send_inv in X as (wb & -> & _). eauto.
Qed.
Lemma connect_eq s d s' ev : connect s d = Ok (s', ev) -> connected s = false ->
  connected s' = d /\ subscribed s' = false /\ cmdBytes s' = 0 /\ dataBytes s' = 0 /\ measTotal s' = 0 /\ validated s' = validated s /\
  Version s' = Version s /\ cache0 s' = cache0 s /\ cache1 s' = cache1 s /\ baseTimes s' = baseTimes s /\ keyIVs s' = None /\
  bufferBlockCache s' = bufferBlockCache s /\ bufferBlockExpected s' = 0 /\ cacheIndex s' = cacheIndex s.
Proof.
  intros H C. unfold connect in H. rewrite C in H. cbv zeta in H. destruct d.
  - apply establish_eq in H as (wb & ->). repeat split.
  - unfold done in H. injection H as <- _. repeat split; try reflexivity. exact C.
Qed.
Lemma connect_succeeds s : good s -> exists s' ev, connect s true = Ok (s', ev) /\ (connected s = false -> exists f, ev = [EvSend f; EvEstablished]).
Proof.
  intros G. unfold connect. destruct (connected s); [eexists _, _; split; [reflexivity|discriminate]|]. cbv zeta.
  unfold establishConnection. cbv zeta. set (s0 := set_connected _ true). destruct (sendOperationalModes_eq s0) as (d & E).
  destruct (send_ok s0 sc_DefineOperationalModes (be_put 4 d)) as (wb & Lw & E2).
  - apply G.
  - unfold len. rewrite be_put_length. unfold maxPacketSize. lia.
  - rewrite E, E2. cbn [bind]. unfold done. eexists _, _. split; [reflexivity|]. intros _. change (connected s0) with true. eexists. reflexivity.
Qed.
Lemma dispatch_conn e pool s c m d s' ev : bytes_ok d -> cbc_ok e -> dispatch e pool s c m d = Ok (s', ev) -> connected s' = connected s.
Proof. intros Bd Bc H. apply dispatch_mask in H as (H & _); [|assumption..]. change (connected (mask_all s') = connected (mask_all s)). congruence. Qed.
Lemma act_conn e s a s' ev : packet_ok a -> cbc_ok e -> act e s a = Ok (s', ev) ->
  connected s' = match a with AConnect d => connected s || d | ADisconnect => false | _ => connected s end /\
  (subscribed s' = match a with AConnect d => connected s && subscribed s | ADisconnect => false
                   | APacket _ p | AUdp _ p => after_success p (subscribed s) | _ => subscribed s end \/
   (subscribed s' = subscribed s /\ exists p, packet_of a = Some p)).
Proof.
  intros Bp Bc H.
  assert (P : forall p, packet_of a = Some p -> connected s' = connected s /\ (subscribed s' = subscribed s \/ subscribed s' = after_success p (subscribed s))).
  { intros p E. unfold packet_ok in Bp. rewrite E in Bp. apply (packet_inv _ _ _ _ _ _ E) in H as [(M & _)|(C & L & pool & s1 & M & D)].
    - split; [change (connected (mask_count s') = connected (mask_count s)); congruence|].
      left. change (subscribed (mask_count s') = subscribed (mask_count s)). congruence.
    - assert (C1 : connected s1 = connected s) by (change (connected (mask_count s1) = connected (mask_count s)); congruence).
      assert (S1 : subscribed s1 = subscribed s) by (change (subscribed (mask_count s1) = subscribed (mask_count s)); congruence).
      split; [rewrite <- C1; eapply dispatch_conn; [|exact Bc|exact D]; apply bytes_ok_skipn', Bp|].
      right. apply dispatch_subscribed in D; [|apply bytes_ok_skipn', Bp|exact Bc]. rewrite D, S1. unfold after_success. reflexivity. }
  destruct a as [d|pool p|pool p| | |]; cbn [packet_of] in P.
  - cbn [act] in H. destruct (connected s) eqn:C.
    + unfold connect in H. rewrite C in H. injection H as <- _. rewrite C. auto.
    + apply connect_eq in H; [|exact C]. destruct H as (-> & -> & _). auto.
  - destruct (P p eq_refl) as (P1 & [P2|P2]); eauto.
  - destruct (P p eq_refl) as (P1 & [P2|P2]); eauto.
  - cbn [act] in H. apply Subscribe_conn in H as (H1 & H2). auto.
  - cbn [act] in H. apply Unsubscribe_conn in H as (H1 & H2). auto.
  - cbn [act] in H. unfold disconnect, done in H. injection H as <- _. auto.
Qed.
Lemma run_conn e acts : forall s s' ev, Forall packet_ok acts -> cbc_ok e -> (connected s = false -> subscribed s = false) ->
  run e s acts = Ok (s', ev) -> connected s' = false -> subscribed s' = false.
Proof.
  induction acts as [|a r IH]; intros s s' ev F Bc Q H; [cbn in H; injection H as <- _; exact Q|].
  apply run_cons in H as (s1 & ev1 & ev2 & A & R & _). apply Forall_cons_1 in F as (F1 & F2).
  apply (IH s1 s' ev2 F2 Bc); [|exact R]. intros C.
  pose proof (act_conn e s a s1 ev1 F1 Bc A) as (A1 & A2). rewrite C in A1.
  destruct A2 as [A2|(A2 & p & Ep)].
  - destruct a as [d|pool p|pool p| | |].
    + symmetry in A1. apply orb_false_iff in A1 as (A1 & _). rewrite A2, A1. reflexivity.
    + cbn [act] in A. rewrite <- A1 in A. injection A as <- _. apply Q. congruence.
    + cbn [act] in A. rewrite <- A1 in A. injection A as <- _. apply Q. congruence.
    + rewrite A2. apply Q. congruence.
    + rewrite A2. apply Q. congruence.
    + exact A2.
  - rewrite A2. apply Q. destruct a; try discriminate; congruence.
Qed.
Lemma become_true e s a s' ev : packet_ok a -> cbc_ok e -> act e s a = Ok (s', ev) -> subscribed s = false -> subscribed s' = true ->
  exists p, packet_of a = Some p /\ code_of p = 0x80 /\ command_of p = 2.
Proof.
  intros Bp Bc H S0 S1. destruct (act_conn e s a s' ev Bp Bc H) as (_ & [A|(A & _)]); [|congruence]. rewrite S0, S1 in A.
  assert (K : forall p, true = after_success p false -> code_of p = 0x80 /\ command_of p = 2).
  { intros p. unfold after_success. destruct (code_of p =? 0x80) eqn:E1; [|discriminate]. destruct (command_of p =? 2) eqn:E2; [|destruct (command_of p =? 3); discriminate]. lia. }
  destruct a as [d|pool p|pool p| | |]; try discriminate; [rewrite andb_false_r in A; discriminate| |]; exists p; split; auto.
Qed.
Lemma become_false e s a s' ev : packet_ok a -> cbc_ok e -> act e s a = Ok (s', ev) -> subscribed s = true -> subscribed s' = false ->
  a = ADisconnect \/ (connected s = false /\ exists d, a = AConnect d) \/
  exists p, packet_of a = Some p /\ code_of p = 0x80 /\ command_of p = 3.
Proof.
  intros Bp Bc H S0 S1. destruct (act_conn e s a s' ev Bp Bc H) as (_ & [A|(A & _)]); [|congruence]. rewrite S0, S1 in A.
  assert (K : forall p, false = after_success p true -> code_of p = 0x80 /\ command_of p = 3).
  { intros p. unfold after_success. destruct (code_of p =? 0x80) eqn:E1; [|discriminate]. destruct (command_of p =? 2) eqn:E2; [discriminate|].
    destruct (command_of p =? 3) eqn:E3; [|discriminate]. lia. }
  destruct a as [d|pool p|pool p| | |]; try discriminate; auto.
  - right. left. rewrite andb_true_r in A. split; [congruence|eauto].
  - right. right. exists p. auto.
  - right. right. exists p. auto.
Qed.
Lemma acknowledged e s pool m z d : connected s = true -> validated s = true -> length z = 4%nat -> m = 2 \/ m = 3 ->
  exists s', act e s (APacket pool (response 0x80 m z d)) = Ok (s', [EvStatus m d]) /\ subscribed s' = (m =? 2).
Proof.
  intros C V Lz Hm. destruct (act_response e pool s 0x80 m z d C V Lz) as (n & ->).
  change (dispatch e pool (set_cmdBytes s n) 0x80 m) with (handleSucceeded e (set_cmdBytes s n) m).
  destruct Hm as [->| ->]; eexists; split; reflexivity.
Qed.

(** ** Empty caches: [count] measurements are delivered whatever the packet holds. *)
Lemma nothing_parsed e s pool cmd z ci count body : connected s = true -> validated s = true -> length z = 4%nat -> keyIVs s = None ->
  ci = 0 \/ ci = 1 -> is_u32 count -> Count (sc_sic (cache_at s ci)) = 0 ->
  exists s', act e s (APacket pool (response 0x82 cmd z (data_packet false ci count body))) = Ok (s', [EvMeasurements (destination pool count)]).
Proof.
  intros C V Lz K Ci U N. destruct (act_response e pool s 0x82 cmd z (data_packet false ci count body) C V Lz) as (n & ->).
  change (dispatch e pool (set_cmdBytes s n) 0x82 cmd) with (handleDataPacket e pool (set_cmdBytes s n)).
  rewrite handleDataPacket_wire; [|exact Ci|exact U|exact K].
  unfold parseCompactMeasurements. cbv zeta. change (cache_at (set_cmdBytes s n) ci) with (cache_at s ci). rewrite N. cbn [Z.eqb bind]. eexists. reflexivity.
Qed.
