(** What a subscriber does when nothing is given: nil for the configuration of Dial, nil
    for the settings of Subscribe (C133).  The statements name the bytes that are sent and
    the times that are waited, not the default values. *)
From Coq Require Import String Lia ZArith.
From stdpp Require Import gmap.
From Verif Require ConnectorModel ConnectorSpec ConnectorProofs.
From Verif Require Import Base BaseProofs FormatModel FrameModel FrameSpec SubscriberModel SubscriberSpec SubscriberProofs SubscriberProofs4 SubscriberProofs5 SubscriberProofs6 SubscriberProofs7 SubscriberProofs8 SubscriberProofs9.
From Verif Require Import SessionModel SessionSpec SessionProofs SessionProofs2 SessionProofs3 SessionProofs4 SessionProofs7 PropertiesSubscriber PropertiesSession.
Open Scope list_scope.
Open Scope Z_scope.

(** The first Dial with nil: the operational modes of version 2 in UTF-8 with compressed
    metadata, cache and (when the subscription is not sent by UDP) payload; then a request
    for all metadata. *)
Theorem C133_dial : forall E st0 acts s ev a dials s' ev', history E st0 acts s ev -> (forall x, In x acts -> config_of x = None /\ x <> SDisconnect) ->
  (forall st, asked acts st0 st -> s_UdpDataChannel st = false) ->
  Dial s a None dials = Ok (s', ev') -> returned ev' = [true] ->
  frames ev' = [[0; 0; 0; 5; 6; 224; 0; 2; 98]; [0; 0; 0; 1; 1]].
Proof.
  intros E st0 acts s ev a dials s' ev' H N U D R. destruct (C86_first_dial _ _ _ _ _ _ _ _ _ _ H N D R) as (st & A & F & _). rewrite F. unfold startup. rewrite (U st A). vm_compute. reflexivity.
Qed.
Print Assumptions C133_dial.
Theorem C133_dial_udp : forall E st0 acts s ev a dials s' ev', history E st0 acts s ev -> (forall x, In x acts -> config_of x = None /\ x <> SDisconnect) ->
  (forall st, asked acts st0 st -> s_UdpDataChannel st = true) ->
  Dial s a None dials = Ok (s', ev') -> returned ev' = [true] ->
  frames ev' = [[0; 0; 0; 5; 6; 192; 0; 2; 34]; [0; 0; 0; 1; 1]].
Proof.
  intros E st0 acts s ev a dials s' ev' H N U D R. destruct (C86_first_dial _ _ _ _ _ _ _ _ _ _ H N D R) as (st & A & F & _). rewrite F. unfold startup. rewrite (U st A). vm_compute. reflexivity.
Qed.
Print Assumptions C133_dial_udp.

(** The text of a subscription request without settings, for a filter expression. *)
Definition default_text (source version updated filter : bytes) : bytes :=
  str "throttled=false;publishInterval=1.000000;includeTime=true;enableTimeReasonabilityCheck=false;lagTime=10.000000;leadTime=5.000000;useLocalClockAsRealTime=false;processingInterval=-1;useMillisecondResolution=false;requestNaNValueFilterfalse;assemblyInfo={source="
  ++ source ++ str ";version=" ++ version ++ str ";updatedOn=" ++ updated ++ str "}" ++
  match filter with [] => [] | _ => str ";filterExpression={" ++ filter ++ str "}" end.
(** Subscribe with nil, on a connection whose modes the publisher has accepted. *)
Theorem C133_subscribe : forall E st0 acts s ev filter s' ev', history E st0 acts s ev -> session_Subscribe s filter None = Ok (s', ev') ->
  connected (sn_ds s) = true -> (Version (sn_ds s) < 2 \/ validated (sn_ds s) = true) ->
  let text := default_text (s_STTPSourceInfo st0) (s_STTPVersionInfo st0) (s_STTPUpdatedOnInfo st0) filter in
  exists before, frames ev' = before ++ [frame 2 (2 :: be_put 4 (len text) ++ text)] /\ (before = [] \/ before = [[0; 0; 0; 1; 3]]).
Proof.
  intros E st0 acts s ev filter s' ev' H K C V text. destruct (C89_sent_partial _ _ _ _ _ _ _ _ _ H K C V) as (st & A & F).
  assert (T : parameterString st = text).
  { destruct A as (A1 & A2 & A3 & _ & A5 & A6 & A7 & A8 & A9 & A10 & A11 & A12 & A13 & A14 & A15 & A16 & A17 & A18 & A19 & A20). specialize (A5 ltac:(cbn; lia)).
    unfold parameterString. rewrite A1, A2, A3, A5, A6, A7, A8, A9, A10, A11, A12, A13, A14, A15, A16, A17, A18, A19, A20. unfold text, default_text.
    destruct filter as [|b f].
    - cbn. rewrite !app_nil_r. reflexivity.
    - assert (L : 0 <? len (b :: f) = true) by (unfold len; cbn [length]; lia). rewrite L. cbn. rewrite !app_nil_r. reflexivity. }
  rewrite F. unfold subscribe_request. rewrite T. eexists. split; [reflexivity|]. destruct (_ && _); [right|left]; reflexivity.
Qed.
Print Assumptions C133_subscribe.

(** The first Dial with nil never gives up: while every attempt is refused it has not
    returned, and it waits a second, then twice as long each time, at most half a minute. *)
Lemma flat_map_seq {A} (f : nat -> list A) k : flat_map f (seq 1 k) = flat_map (fun n => f (S n)) (seq 0 k).
Proof. rewrite <- seq_shift. induction (seq 0 k) as [|n l IH]; [reflexivity|]. cbn. rewrite IH. reflexivity. Qed.
Lemma default_loop k : forall a, 0 <= a -> a + Z.of_nat k < 2 ^ 31 ->
  ConnectorModel.connect_loop (ConnectorModel.Settings (-1) 1000 30000) true a (repeat (ConnectorModel.Fails false) k) =
  (flat_map (fun n => [ConnectorModel.Dial; ConnectorModel.Wait (Z.min 30000 (1000 * 2 ^ (a + 1 + Z.of_nat n)))]) (seq 0 k), ConnectorModel.Running, i32 (a + Z.of_nat k + 1)).
Proof.
  induction k as [|k IH]; intros a A B.
  - cbn [repeat ConnectorModel.connect_loop ConnectorModel.maxRetries]. cbn [seq flat_map]. change (-1 =? -1) with true. cbn [negb andb]. rewrite Z.add_0_r. reflexivity.
  - cbn [repeat ConnectorModel.connect_loop ConnectorModel.maxRetries]. change (-1 =? -1) with true. cbn [negb andb ConnectorModel.retryInterval]. change (0 <? 1000) with true. cbv iota.
    assert (Q : i32 (a + 1) = a + 1) by (apply ConnectorProofs.i32_small; lia). rewrite Q, IH by lia.
    rewrite ConnectorProofs.delay_backoff by (cbn; lia). cbn [seq flat_map]. rewrite flat_map_seq.
    f_equal; [|f_equal; lia]. f_equal. cbn [app]. f_equal. f_equal; [unfold ConnectorSpec.backoff; cbn; rewrite Z.add_0_r; reflexivity|].
    apply flat_map_ext. intros n. rewrite Nat2Z.inj_succ. replace (a + 1 + 1 + Z.of_nat n) with (a + 1 + Z.succ (Z.of_nat n)) by lia. reflexivity.
Qed.
Lemma map_seen target (f : nat -> Z) l : map (seen target) (flat_map (fun n => [ConnectorModel.Dial; ConnectorModel.Wait (f n)]) l) = flat_map (fun n => [UDialing target; UWaiting (f n)]) l.
Proof. induction l as [|n l IH]; [reflexivity|]. cbn. rewrite IH. reflexivity. Qed.
Lemma waits_of target (f : nat -> Z) l : waits (flat_map (fun n => [UDialing target; UWaiting (f n)]) l) = map f l.
Proof. induction l as [|n l IH]; [reflexivity|]. cbn. unfold waits in IH. rewrite IH. reflexivity. Qed.
Lemma returned_of target (f : nat -> Z) l : returned (flat_map (fun n => [UDialing target; UWaiting (f n)]) l) = [].
Proof. induction l as [|n l IH]; [reflexivity|]. cbn. unfold returned in IH. exact IH. Qed.
Definition untried (s : session) : Prop := fresh s /\ sn_cancel s = false.
Lemma untried_step E a s : before_connection a -> untried s -> sok untried (fun _ => True) (sact_step E s a).
Proof.
  intros A (J & Cn) s' ev H. split; [|apply all_true]. split; [exact (proj1 (fresh_step E a s A J s' ev H))|].
  destruct A as (A & B). destruct J as (J1 & J2 & J3 & J4 & J5). destruct (connecting a) eqn:K.
  - destruct a; try discriminate; try congruence; cbn [sact_step] in H.
    + unfold Lost in H. rewrite J1 in H. injection H as <- _. exact Cn.
    + unfold Reconnect in H. rewrite J4 in H. injection H as <- _. exact Cn.
  - apply (keeps_step E a s K) in H as (H & _). apply ctl_eq in H as (_ & _ & H & _). congruence.
Qed.
Lemma history_untried E st0 acts s ev : history E st0 acts s ev -> (forall a, In a acts -> before_connection a) -> untried s.
Proof.
  intros (_ & _ & H) N. refine (proj1 (srun_sok E before_connection untried (fun _ => True) (fun a s => untried_step E a s) acts _ _ _ s ev H)); [rewrite List.Forall_forall; exact N|repeat split].
Qed.
Lemma dial_default E st0 acts s ev a host port dials : history E st0 acts s ev -> (forall x, In x acts -> config_of x = None /\ x <> SDisconnect) -> address_of a host port ->
  Dial s a None dials = session_connect (configure s None) host port dials /\ sn_config (configure s None) = NewConfig /\ sn_cancel (configure s None) = false /\ sn_listening (configure s None) = false.
Proof.
  intros H N A. destruct (history_untried _ _ _ _ _ H N) as ((J1 & _ & J3 & _) & Cn). destruct H as (_ & _ & H). assert (Cf : sn_config s = NewConfig) by (apply (config_kept E acts (NewSubscriber st0) s ev); [intros x IN; apply N, IN|exact H]).
  apply parse_address_spec in A. unfold Dial. rewrite J1, J3, A. cbn [orb]. split; [reflexivity|]. split; [exact Cf|]. split; [exact Cn|exact J3].
Qed.
Theorem C133_retries : forall E st0 acts s ev a host port k, history E st0 acts s ev -> (forall x, In x acts -> config_of x = None /\ x <> SDisconnect) ->
  address_of a host port -> Z.of_nat k < 2 ^ 31 ->
  exists s' ev', Dial s a None (repeat (ConnectorModel.Fails false) k) = Ok (s', ev') /\ returned ev' = [] /\
    waits ev' = map (fun n => Z.min 30000 (1000 * 2 ^ Z.of_nat n)) (seq 0 k).
Proof.
  intros E st0 acts s ev a host port k H N A B. destruct (dial_default _ _ _ _ _ _ _ _ (repeat (ConnectorModel.Fails false) k) H N A) as (D & Cf & Cn & _). rewrite D. set (s1 := configure s None) in *. clearbody s1.
  unfold session_connect. rewrite Cf. cbn [sn_cancel with_connector]. rewrite Cn. cbn [c_AutoReconnect NewConfig c_MaxRetries c_RetryInterval c_MaxRetryInterval]. cbv zeta.
  match goal with |- context [ConnectorModel.Connect ?c ?a0 ?l] => assert (Q : exists m, ConnectorModel.Connect c a0 l = (flat_map (fun n => [ConnectorModel.Dial; ConnectorModel.Wait (Z.min 30000 (1000 * 2 ^ Z.of_nat n))]) (seq 0 k), ConnectorModel.Running, m)) end.
  { unfold ConnectorModel.Connect. destruct k as [|k]; [eexists; reflexivity|]. cbn [repeat ConnectorModel.connect_loop ConnectorModel.maxRetries]. change (-1 =? -1) with true. cbn [negb andb ConnectorModel.retryInterval]. change (0 <? 1000) with true. cbv iota.
    rewrite default_loop by lia. eexists. f_equal. f_equal. cbn [seq flat_map]. rewrite flat_map_seq. change (ConnectorModel.waitForRetry_delay (ConnectorModel.Settings (-1) 1000 30000) 0) with (Z.min 30000 (1000 * 2 ^ Z.of_nat 0)). cbn [app]. f_equal. f_equal.
    apply flat_map_ext. intros n. rewrite Nat2Z.inj_succ. replace (0 + 1 + Z.of_nat n) with (Z.succ (Z.of_nat n)) by lia. reflexivity. }
  destruct Q as (m & Q). rewrite Q. cbn. eexists _, _. split; [reflexivity|]. rewrite app_nil_r, map_seen, waits_of, returned_of. split; reflexivity.
Qed.
Print Assumptions C133_retries.

Definition connected_by_default (s1 : session) : Prop :=
  sn_cancel s1 = false /\ sn_attempt s1 = 0 /\ sn_auto s1 = true /\ sn_conn s1 = ConnectorModel.Settings (-1) 1000 30000 /\ sn_listening s1 = false /\ connected (sn_ds s1) = true.
Lemma default_reconnect r k : Z.of_nat k < 2 ^ 31 - 1 -> ConnectorModel.reconnect (ConnectorModel.Settings (-1) 1000 30000) r false 0 (repeat (ConnectorModel.Fails false) k) =
  (ConnectorModel.Wait 1000 :: flat_map (fun n => [ConnectorModel.Dial; ConnectorModel.Wait (Z.min 30000 (1000 * 2 ^ (0 + 1 + Z.of_nat n)))]) (seq 0 k), ConnectorModel.Running, i32 (0 + Z.of_nat k + 1)).
Proof. intros B. unfold ConnectorModel.reconnect. destruct r; rewrite default_loop by lia; reflexivity. Qed.
Lemma reconnects_by_default s1 s2 ev2 k : connected_by_default s1 -> Z.of_nat k < 2 ^ 31 - 1 -> Lost s1 = Ok (s2, ev2) ->
  exists s' ev', Reconnect s2 false (repeat (ConnectorModel.Fails false) k) = Ok (s', ev') /\
    waits ev' = map (fun n => Z.min 30000 (1000 * 2 ^ Z.of_nat n)) (seq 0 (S k)) /\ ~ In UStatus ev' /\ ~ In UError ev'.
Proof.
  intros T1 B L.
  destruct T1 as (U1 & U2 & U3 & U4 & U5 & U6). unfold Lost in L. rewrite U6 in L. cbn [negb] in L. apply andthen_inv in L as (s4 & e4 & e5 & L & L2 & _). injection L2 as <- _.
  apply lift_inv in L as (d & e & L & -> & _). unfold disconnect, done in L. injection L as <- _.
  unfold Reconnect. cbn [sn_reconnecting with_reconnecting with_ds sn_auto sn_cancel with_pending sn_ds sn_listening sn_conn sn_attempt]. rewrite U1, U2, U3, U4, U5. cbn [andb negb orb].
  match goal with |- context [connected ?d] => change (connected d) with false end. cbn [orb].
  rewrite (default_reconnect _ k B). cbn [map]. rewrite map_seen. eexists _, _. split; [reflexivity|]. rewrite app_nil_r. cbn [seen]. split; [|split].
  - match goal with |- waits (?x :: ?l) = ?r => change (1000 :: waits l = r) end.
    rewrite waits_of. cbn [seq map]. rewrite <- seq_shift, map_map. f_equal. apply map_ext. intros n. rewrite Nat2Z.inj_succ. replace (0 + 1 + Z.of_nat n) with (Z.succ (Z.of_nat n)) by lia. reflexivity.
  - intros [IN|IN]; [discriminate|]. apply in_flat_map in IN as (n & _ & [IN|[IN|[]]]); discriminate.
  - intros [IN|IN]; [discriminate|]. apply in_flat_map in IN as (n & _ & [IN|[IN|[]]]); discriminate.
Qed.
Lemma connects_by_default s0 host port s1 ev1 : good (sn_ds s0) -> sn_config s0 = NewConfig -> sn_cancel s0 = false -> sn_listening s0 = false ->
  session_connect s0 host port [ConnectorModel.Accepts] = Ok (s1, ev1) -> connected_by_default s1.
Proof.
  intros G Cf Cn Cl D. unfold session_connect in D. rewrite Cf in D. cbv zeta in D. set (s2 := with_connector s0 _ _) in D.
  assert (T0 : good (sn_ds s2) /\ sn_cancel s2 = false /\ sn_listening s2 = false /\ sn_conn s2 = ConnectorModel.Settings (-1) 1000 30000) by (split; [exact G|]; split; [exact Cn|]; split; [exact Cl|reflexivity]). clearbody s2.
  destruct T0 as (G2 & Cn2 & Cl2 & Cs2). rewrite Cn2 in D. assert (Q : c_AutoReconnect NewConfig = true) by reflexivity. rewrite Q in D. clear Q. set (s4 := with_auto s2 true) in D.
  assert (T0 : good (sn_ds s4) /\ sn_cancel s4 = false /\ sn_listening s4 = false /\ sn_conn s4 = ConnectorModel.Settings (-1) 1000 30000 /\ sn_auto s4 = true) by (split; [exact G2|]; split; [exact Cn2|]; split; [exact Cl2|]; split; [exact Cs2|reflexivity]). clearbody s4.
  destruct T0 as (G4 & Cn4 & Cl4 & Cs4 & Ca4).
  assert (Q : ConnectorModel.Connect (ConnectorModel.Settings (c_MaxRetries NewConfig) (c_RetryInterval NewConfig) (c_MaxRetryInterval NewConfig)) (sn_attempt s4) [ConnectorModel.Accepts] = ([ConnectorModel.Dial], ConnectorModel.Success, 0)) by reflexivity. rewrite Q in D. clear Q.
  destruct (after_dials_ctl s4 [ConnectorModel.Dial]) as (X1 & X2 & X3 & X4 & X5 & X6). pose proof (good_after s4 [ConnectorModel.Dial] G4) as G5. 
  assert (X7 : sn_conn (after_dials s4 [ConnectorModel.Dial]) = sn_conn s4) by reflexivity.
  revert D X1 X2 X3 X7 G5. generalize (after_dials s4 [ConnectorModel.Dial]). intros s5 D X1 X2 X3 X7 G5.
  set (s3 := with_attempt s5 0) in D.
  assert (T : sn_cancel s3 = false /\ sn_attempt s3 = 0 /\ sn_auto s3 = true /\ sn_conn s3 = ConnectorModel.Settings (-1) 1000 30000 /\ sn_listening s3 = false) by (split; [exact (eq_trans X2 Cn4)|]; split; [reflexivity|]; split; [exact (eq_trans X3 Ca4)|]; split; [exact (eq_trans X7 Cs4)|exact (eq_trans X1 Cl4)]).
  assert (Gd : good (sn_ds s3)) by exact G5. clearbody s3. clear - D T Gd.
  apply andthen_inv in D as (s4 & e4 & e5 & D0 & D & _). injection D0 as <- _. apply andthen_inv in D as (s5 & e6 & e7 & D & D1 & _). injection D1 as <- _.
  assert (C5 : connected (sn_ds s5) = true) by (refine (established_connected _ _ _ _ D); exact Gd).
  apply andthen_inv in D as (s6 & e8 & e9 & D & D2 & _). apply (keeps_established s3) in D as (D & _). apply (keeps_handleConnect s6) in D2 as (D2 & _).
  apply ctl_eq in D as (_ & X1 & X2 & X3 & X4 & _ & X5 & _). apply ctl_eq in D2 as (_ & Y1 & Y2 & Y3 & Y4 & _ & Y5 & _). unfold connected_by_default. rewrite Y1, Y2, Y3, Y4, Y5, X1, X2, X3, X4, X5. tauto.
Qed.
(** A connection made by the first Dial with nil is made again when it is lost, without
    limit and with the same waits. *)
Theorem C133_reconnects : forall E st0 acts s ev a host port s1 ev1 s2 ev2 k, history E st0 acts s ev -> (forall x, In x acts -> config_of x = None /\ x <> SDisconnect) ->
  address_of a host port -> Z.of_nat k < 2 ^ 31 - 1 ->
  Dial s a None [ConnectorModel.Accepts] = Ok (s1, ev1) -> Lost s1 = Ok (s2, ev2) ->
  exists s' ev', Reconnect s2 false (repeat (ConnectorModel.Fails false) k) = Ok (s', ev') /\
    waits ev' = map (fun n => Z.min 30000 (1000 * 2 ^ Z.of_nat n)) (seq 0 (S k)) /\ ~ In UStatus ev' /\ ~ In UError ev'.
Proof.
  intros E st0 acts s ev a host port s1 ev1 s2 ev2 k H N A B D L. destruct (dial_default _ _ _ _ _ _ _ _ [ConnectorModel.Accepts] H N A) as (Q & Cf & Cn & Cl). rewrite Q in D.
  assert (T1 : connected_by_default s1) by (refine (connects_by_default _ _ _ _ _ _ Cf Cn Cl D); exact (i_good _ _ _ (proj1 (history_inv _ _ _ _ _ H)))).
  exact (reconnects_by_default s1 s2 ev2 k T1 B L).
Qed.
Print Assumptions C133_reconnects.

Example C133_nonvacuous : exists s ev, history ex_senv ex_set [SSubscribe (str "F") None] s ev /\
  (exists s' ev', Dial s (str "a:1") None [ConnectorModel.Fails false; ConnectorModel.Fails false; ConnectorModel.Accepts] = Ok (s', ev') /\ returned ev' = [true] /\ waits ev' = [1000; 2000] /\ frames ev' = [[0; 0; 0; 5; 6; 224; 0; 2; 98]; [0; 0; 0; 1; 1]]).
Proof.
  destruct (run_to [SSubscribe (str "F") None] (fun s _ => match Dial s (str "a:1") None [ConnectorModel.Fails false; ConnectorModel.Fails false; ConnectorModel.Accepts] with Ok (s', ev') => returned ev' = [true] /\ waits ev' = [1000; 2000] /\ frames ev' = [[0; 0; 0; 5; 6; 224; 0; 2; 98]; [0; 0; 0; 1; 1]] | _ => False end)) as (s & ev & H & K); [repeat constructor|vm_compute; repeat split|].
  exists s, ev. split; [exact H|]. destruct (Dial _ _ _ _) as [[s' ev']| |]; try contradiction. exists s', ev'. split; [reflexivity|exact K].
Qed.
