(** Refused connections. *)
From stdpp Require Import gmap.
From Coq Require Import Lia ZArith.
From Verif Require Import Base BaseProofs TicksModel GuidModel FormatModel FormatProofs CompactModel CompactSpec CompactProofs CacheModel CacheSpec CacheProofs FrameModel FrameSpec FrameProofs TsscModel TsscSpec TsscCode TsscCode2 TsscRead TsscProofs TsscProofs2 TsscProofs3 SubscriberModel SubscriberSpec SubscriberProofs SubscriberProofs2 SubscriberProofs3 SubscriberProofs4 SubscriberProofs5 SubscriberProofs6 SubscriberProofs7 SubscriberProofs8.
Open Scope Z_scope.

Lemma dispatch_refused e pool s c m d s' ev : bytes_ok d -> cbc_ok e -> dispatch e pool s c m d = Ok (s', ev) ->
  connectionRefused s' = (c =? 0x81) && ((m =? 0) || (m =? 6)) || connectionRefused s.
Proof.
  intros Bd Bc. unfold dispatch. intros H. change sr_Succeeded with 0x80 in H. change sr_Failed with 0x81 in H.
  destruct (c =? 0x80) eqn:C0.
  { apply handleSucceeded_mask in H as (H & _). replace (c =? 0x81) with false by lia.
    change (connectionRefused (set_subscribed s' false) = connectionRefused (set_subscribed s false)). congruence. }
  destruct (c =? 0x81) eqn:C1.
  { cbn [andb]. unfold handleFailed in H. change sc_Connect with 0 in H. change sc_DefineOperationalModes with 6 in H.
    destruct ((m =? 0) || (m =? 6)); inv H; reflexivity. }
  cbn [andb orb].
  destruct (c =? sr_DataPacket).
  { apply handleDataPacket_inv in H as [(-> & _)|(z & count & ci & body & s1 & ms & ev1 & _ & _ & P & -> & _)]; auto.
    assert (M : mask_data s1 = mask_data s) by (destruct z; [eapply parseTSSC_mask, P|apply parseCompactMeasurements_state in P; subst; reflexivity]).
    change (connectionRefused (mask_data s1) = connectionRefused (mask_data s)). congruence. }
  destruct (c =? sr_DataStartTime); [unfold handleDataStartTime in H; inv H; auto|].
  destruct (c =? sr_ProcessingComplete); [inv H; auto|].
  destruct (c =? sr_UpdateSignalIndexCache).
  { apply handleUpdateSignalIndexCache_mask in H. change (connectionRefused (mask_cache s') = connectionRefused (mask_cache s)). congruence. }
  destruct (c =? sr_UpdateBaseTimes).
  { apply handleUpdateBaseTimes_mask in H as (H & _). change (connectionRefused (mask_times s') = connectionRefused (mask_times s)). congruence. }
  destruct (c =? sr_UpdateCipherKeys).
  { apply handleUpdateCipherKeys_mask in H as (H & _). change (connectionRefused (set_keyIVs s' None) = connectionRefused (set_keyIVs s None)). congruence. }
  destruct (c =? sr_ConfigurationChanged); [inv H; auto|].
  destruct (c =? sr_BufferBlock).
  { apply handleBufferBlock_mask in H as (H & _). change (connectionRefused (mask_blocks s') = connectionRefused (mask_blocks s)). congruence. }
  destruct (c =? sr_Notify).
  { apply handleNotification_mask in H as (H & _). change (connectionRefused (mask_send s') = connectionRefused (mask_send s)). congruence. }
  destruct (c =? sr_NoOP); inv H; auto.
Qed.
Lemma send_ref s c d s' ev : send s c d = Ok (s', ev) -> connectionRefused s' = connectionRefused s /\ validated s' = validated s /\ connected s' = connected s.
Proof. intros H. apply send_inv in H as (wb & -> & _). auto. Qed.
Lemma Unsubscribe_ref s s' ev : Unsubscribe s = Ok (s', ev) -> connectionRefused s' = connectionRefused s /\ validated s' = validated s /\ connected s' = connected s.
Proof. unfold Unsubscribe. destruct (_ || _); intros H; [injection H as <- _; auto|eapply send_ref, H]. Qed.
Lemma Subscribe_ref s s' ev : Subscribe s = Ok (s', ev) -> connectionRefused s' = connectionRefused s /\ validated s' = validated s /\ connected s' = connected s.
Proof.
  unfold Subscribe. intros H. destruct (negb (connected s)); [injection H as <- _; auto|]. destruct (_ && _); [injection H as <- _; auto|].
  match type of H with bind ?x _ = _ => destruct x as [[s1 ev1]| |] eqn:X end; try discriminate.
  assert (M1 : connectionRefused s1 = connectionRefused s /\ validated s1 = validated s /\ connected s1 = connected s)
    by (destruct (subscribed s) eqn:B; [eapply Unsubscribe_ref, X|injection X as <- _; auto]).
  cbn [bind] in H. cbv beta zeta iota in H.
  match type of H with bind ?x _ = _ => destruct x as [[s2 ev2]| |] eqn:Y end; try discriminate.
  cbn [bind] in H. cbv beta zeta iota in H. unfold done in H. injection H as <- _. apply send_ref in Y.
  destruct M1 as (M1 & M2 & M3), Y as (Y1 & Y2 & Y3). cbn in *. repeat split; congruence.
Qed.
Lemma establish_ref s s' ev : establishConnection s = Ok (s', ev) -> connectionRefused s' = connectionRefused s.
Proof. intros H. apply establish_eq in H as (wb & ->). reflexivity. Qed.
Lemma connect_ref s d s' ev : connect s d = Ok (s', ev) -> connected s = false -> connectionRefused s' = false.
Proof.
  intros H C. unfold connect in H. rewrite C in H. cbv zeta in H. destruct d.
  - apply establish_ref in H. exact H.
  - unfold done in H. injection H as <- _. reflexivity.
Qed.

(** One action of a session. *)
Lemma act_refused e s a s' ev : packet_ok a -> cbc_ok e -> in_session a = true -> act e s a = Ok (s', ev) ->
  (connectionRefused s' = refuses a || connectionRefused s \/ connectionRefused s' = connectionRefused s) /\
  (connected s = true -> validated s = true -> connectionRefused s' = refuses a || connectionRefused s) /\
  connected s' = connected s /\ (validated s = true -> validated s' = true).
Proof.
  intros Bp Bc K H.
  assert (P : forall p, packet_of a = Some p -> refuses a = (code_of p =? 0x81) && ((command_of p =? 0) || (command_of p =? 6))).
  { intros p E. destruct a; try discriminate; cbn [packet_of] in E; injection E as ->; reflexivity. }
  assert (W : forall pool p s0, packet_of a = Some p -> connected s0 = connected s -> connectionRefused s0 = connectionRefused s ->
     validated s0 = validated s -> processServerResponse e pool s0 p = Ok (s', ev) ->
     (connectionRefused s' = refuses a || connectionRefused s \/ connectionRefused s' = connectionRefused s) /\
     (validated s = true -> connectionRefused s' = refuses a || connectionRefused s) /\ connected s' = connected s /\ (validated s = true -> validated s' = true)).
  { intros pool p s0 E Q1 Q2 Q3 D. rewrite (P p E). unfold packet_ok in Bp. rewrite E in Bp.
    apply process_inv in D as (L & [(V & -> & ->)|(s1 & V & D)]); rewrite validate_spec in V.
    - destruct (validated s0) eqn:Z0; [discriminate|]. repeat split; auto; congruence.
    - assert (B : bytes_ok (skipn 6 p)) by (apply bytes_ok_skipn', Bp).
      pose proof (dispatch_refused _ _ _ _ _ _ _ _ B Bc D) as R.
      pose proof (dispatch_mask _ _ _ _ _ _ _ _ B Bc D) as (M & Mv).
      assert (S1 : connectionRefused s1 = connectionRefused s /\ connected s1 = connected s /\ (validated s = true -> validated s1 = true)).
      { destruct (validated s0) eqn:Z0; [injection V as <-; rewrite Q1, Q2; repeat split; congruence|].
        destruct (_ && _); [discriminate|]. injection V as <-. repeat split; assumption. }
      destruct S1 as (S1 & S2 & S3). rewrite S1 in R. split; [left; exact R|]. split; [intros _; exact R|]. split.
      + rewrite <- S2. change (connected (mask_all s') = connected (mask_all s1)). congruence.
      + intros X. rewrite Mv. auto. }
  destruct a as [d|pool p|pool p| | |]; try discriminate; cbn [act] in H.
  - destruct (connected s) eqn:C; [|injection H as <- _; repeat split; auto; congruence].
    unfold receive in H. destruct (readPayloadHeader s (len p)) as [s0 go] eqn:R. unfold readPayloadHeader in R. cbv zeta in R.
    destruct (negb (validated (set_cmdBytes s _))) eqn:N; change (validated (set_cmdBytes s _)) with (validated s) in N.
    + apply negb_true_iff in N. destruct (2 <=? _).
      * injection R as <- <-. destruct (len p <=? _); [|inv H; repeat split; auto; congruence].
        unfold readPacket in H. match type of H with processServerResponse _ _ ?x _ = _ => destruct (W pool p x eq_refl C eq_refl eq_refl H) as (W1 & W2 & W3 & W4) end. repeat split; auto.
      * injection R as <- <-. unfold readPacket in H. 
        pose proof (process_inv _ _ _ _ _ _ H) as (L & [(V & _)|(s1 & V & D)]); rewrite validate_spec in V; cbn in V; [discriminate|]. injection V as <-.
        unfold packet_ok in Bp. cbn [packet_of] in Bp. assert (B : bytes_ok (skipn 6 p)) by (apply bytes_ok_skipn', Bp).
        pose proof (dispatch_refused _ _ _ _ _ _ _ _ B Bc D) as R. pose proof (dispatch_mask _ _ _ _ _ _ _ _ B Bc D) as (M & Mv).
        rewrite (P p eq_refl). repeat split; [left; exact R|intros; exact R| |congruence].
        rewrite <- C. change (connected s) with (connected (mask_all s)). change (connected s') with (connected (mask_all s')). rewrite M. reflexivity.
    + injection R as <- <-. unfold readPacket in H. match type of H with processServerResponse _ _ ?x _ = _ => destruct (W pool p x eq_refl C eq_refl eq_refl H) as (W1 & W2 & W3 & W4) end. repeat split; auto.
  - destruct (connected s) eqn:C; [|injection H as <- _; repeat split; auto; congruence].
    unfold receiveUdp in H. match type of H with processServerResponse _ _ ?x _ = _ => destruct (W pool p x eq_refl C eq_refl eq_refl H) as (W1 & W2 & W3 & W4) end. repeat split; auto.
  - apply Subscribe_ref in H as (H1 & H2 & H3). cbn [refuses packet_of]. repeat split; auto; congruence.
  - apply Unsubscribe_ref in H as (H1 & H2 & H3). cbn [refuses packet_of]. repeat split; auto; congruence.
Qed.
Lemma run_refuses e acts : forall s s' ev, Forall packet_ok acts -> cbc_ok e -> forallb in_session acts = true -> run e s acts = Ok (s', ev) ->
  (connectionRefused s' = true -> existsb refuses acts || connectionRefused s = true) /\
  (connected s = true -> validated s = true -> connectionRefused s' = existsb refuses acts || connectionRefused s).
Proof.
  induction acts as [|a r IH]; intros s s' ev F Bc K H.
  - cbn in H. injection H as <- _. split; auto.
  - apply run_cons in H as (s1 & ev1 & ev2 & A & R & _). apply Forall_cons_1 in F as (F1 & F2). cbn [forallb] in K. apply andb_true_iff in K as (K1 & K2).
    destruct (act_refused e s a s1 ev1 F1 Bc K1 A) as (A1 & A2 & A3 & A4). destruct (IH s1 s' ev2 F2 Bc K2 R) as (I1 & I2). cbn [existsb]. split.
    + intros X. apply I1 in X. destruct A1 as [A1|A1]; rewrite A1 in X; destruct (existsb refuses r), (refuses a), (connectionRefused s); auto.
    + intros C V. rewrite I2 by (try congruence; auto). rewrite A2 by assumption. destruct (existsb refuses r), (refuses a); auto.
Qed.
Lemma failed_response e s pool cmd z d : connected s = true -> validated s = true -> length z = 4%nat ->
  exists s', act e s (APacket pool (response 0x81 cmd z d)) = Ok (s', if ((cmd =? 0) || (cmd =? 6)) && (len d =? 0) then [] else [EvError]) /\
    connectionRefused s' = (cmd =? 0) || (cmd =? 6) || connectionRefused s.
Proof.
  intros C V Lz. destruct (act_response e pool s 0x81 cmd z d C V Lz) as (n & ->).
  change (dispatch e pool (set_cmdBytes s n) 0x81 cmd d) with (handleFailed (set_cmdBytes s n) cmd d). unfold handleFailed.
  change sc_Connect with 0. change sc_DefineOperationalModes with 6. pose proof (Zle_0_nat (length d)). unfold len.
  destruct ((cmd =? 0) || (cmd =? 6)).
  - eexists. split; [unfold done; destruct (0 <? Z.of_nat (length d)) eqn:X; [replace (Z.of_nat (length d) =? 0) with false by lia|replace (Z.of_nat (length d) =? 0) with true by lia]; reflexivity|reflexivity].
  - eexists. split; reflexivity.
Qed.
