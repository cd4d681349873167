From Coq Require Import String Lia ZArith.
From stdpp Require Import gmap.
From Verif Require ConnectorModel.
From Verif Require Import Base BaseProofs GuidModel FormatModel FormatSpec FormatProofs StrModel CalModel ExprModel TableModel XmlModel XmlSpec XmlProofs2.
From Verif Require Import CompactModel CacheModel FrameModel FrameSpec FrameProofs SubscriberModel SubscriberSpec SubscriberProofs SubscriberProofs4 SubscriberProofs5 SubscriberProofs6 SubscriberProofs7 SubscriberProofs8 SubscriberProofs9.
From Verif Require Import SessionModel SessionSpec SessionProofs SessionProofs2 SessionProofs3 SessionProofs4 SessionProofs5.
From Verif Require Import TicksModel TicksSpec TicksProofs TicksProofs2 SessionProofs6.
Open Scope list_scope.
Open Scope Z_scope.

(** ** What is known of the signals on a new connection *)
Definition unknown (s : session) : Prop := measurementRegistry (sn_ds s) = ∅ /\ sn_details s = ∅.
Definition kept (k : sstep) : Prop := forall s' ev, k = Ok (s', ev) -> good (sn_ds s') /\ unknown s'.
Lemma kept_says ev s : good (sn_ds s) -> unknown s -> kept (says ev s). Proof. intros G U s' e [= <- <-]. auto. Qed.
Lemma kept_quiet s : good (sn_ds s) -> unknown s -> kept (quiet s). Proof. intros G U s' e [= <- <-]. auto. Qed.
Lemma kept_andthen k f : kept k -> (forall s, good (sn_ds s) -> unknown s -> kept (f s)) -> kept (andthen k f).
Proof. intros K F s' ev H. apply andthen_inv in H as (s1 & e1 & e2 & H1 & H2 & _). destruct (K _ _ H1) as (G & U). exact (F s1 G U _ _ H2). Qed.
Lemma kept_lift s k : unknown s -> (forall d e, k = Ok (d, e) -> good d /\ measurementRegistry d = measurementRegistry (sn_ds s)) -> kept (lift s k).
Proof.
  intros (U1 & U2) K s' ev H. apply lift_inv in H as (d & e & Q & -> & _). destruct (K _ _ Q) as (G & R). split; [exact G|]. split; [exact (eq_trans R U1)|exact U2].
Qed.
Lemma kept_handleConnect s : good (sn_ds s) -> unknown s -> kept (handleConnect s).
Proof.
  intros G U. apply kept_andthen; [apply kept_says; assumption|]. intros s1 G1 U1. destruct (c_AutoRequestMetadata _).
  - apply kept_lift; [exact U1|]. intros d e H. pose proof (send_good _ _ _ _ _ G1 H) as (G' & _). split; [exact G'|]. apply send_len in H as (wb & _ & -> & _); [|apply G1]. reflexivity.
  - destruct (c_AutoSubscribe _); [|apply kept_quiet; assumption]. apply kept_lift; [exact U1|]. intros d e H. apply Subscribe_exact in H as (H1 & _ & _ & _ & _ & H2 & _); [|exact G1]. auto.
Qed.
Lemma kept_established s : good (sn_ds s) -> unknown s -> kept (established s).
Proof.
  intros G U. apply kept_andthen.
  - apply kept_lift; [exact U|]. intros d e H. apply establish_exact in H as (H1 & _ & _ & _ & _ & H2 & _); [|exact G]. auto.
  - intros s1 G1 U1. destruct (sn_handler s1); [apply kept_handleConnect|apply kept_quiet]; assumption.
Qed.
Lemma unknown_dials s evs : existsb is_dial evs = true -> unknown (after_dials s evs).
Proof. intros D. unfold after_dials. rewrite D. split; reflexivity. Qed.
Definition unconnected (k : sstep) : Prop := forall s' ev, k = Ok (s', ev) -> connected (sn_ds s') = false.
Lemma unconnected_andthen k f : unconnected k -> (forall s1, connected (sn_ds s1) = false -> unconnected (f s1)) -> unconnected (andthen k f).
Proof. intros K F s' ev H. apply andthen_inv in H as (s1 & e1 & e2 & H1 & H2 & _). exact (F s1 (K _ _ H1) _ _ H2). Qed.
Lemma unconnected_says ev s : connected (sn_ds s) = false -> unconnected (says ev s). Proof. intros C s' e [= <- <-]. exact C. Qed.
Lemma unconnected_lift s k : connected (sn_ds s) = false -> (forall d e, k = Ok (d, e) -> connected d = connected (sn_ds s)) -> unconnected (lift s k).
Proof. intros C K s' ev H. apply lift_inv in H as (d & e & Q & -> & _). cbn. rewrite (K _ _ Q). exact C. Qed.
Definition fresh (k : sstep) : Prop := forall s' ev, k = Ok (s', ev) -> connected (sn_ds s') = true -> unknown s'.
Lemma fresh_kept k : kept k -> fresh k. Proof. intros K s' ev H _. exact (proj2 (K _ _ H)). Qed.
Lemma fresh_unconnected k : unconnected k -> fresh k. Proof. intros K s' ev H C. rewrite (K _ _ H) in C. discriminate. Qed.
Lemma Disconnect_unconnected s : unconnected (Disconnect s).
Proof. unfold Disconnect. intros s' ev H. apply lift_inv in H as (d & e & Q & -> & _). unfold disconnect, done in Q. injection Q as <- _. reflexivity. Qed.
Lemma fresh_connect s host port dials : good (sn_ds s) -> connected (sn_ds s) = false -> fresh (session_connect s host port dials).
Proof.
  intros G C. unfold session_connect. cbv zeta. set (conn := ConnectorModel.Settings _ _ _). set (s1 := with_connector s conn _). assert (G1 : good (sn_ds s1)) by exact G. assert (C1 : connected (sn_ds s1) = false) by exact C. clearbody s1.
  destruct (sn_cancel s1); [apply fresh_unconnected, unconnected_says, C1|].
  set (s2 := if c_AutoReconnect _ then _ else _). assert (G2 : good (sn_ds s2)) by (unfold s2; destruct (c_AutoReconnect _); exact G1). assert (C2 : connected (sn_ds s2) = false) by (unfold s2; destruct (c_AutoReconnect _); exact C1). clearbody s2.
  destruct (ConnectorModel.Connect _ _ _) as [[evs st] a] eqn:L. set (s3 := with_attempt (after_dials s2 evs) a).
  assert (C3 : connected (sn_ds s3) = false) by (change (connected (sn_ds (after_dials s2 evs)) = false); unfold after_dials; destruct (existsb _ _); exact C2).
  assert (G3 : good (sn_ds s3)) by exact (good_after s2 evs G2).
  destruct st.
  - assert (U : unknown s3) by (change (unknown (after_dials s2 evs)); apply unknown_dials; exact (success_dials _ _ _ _ _ _ L)). clearbody s3.
    apply fresh_kept, kept_andthen; [apply kept_says; assumption|]. intros s4 G4 U4. apply kept_andthen; [apply kept_andthen; [apply kept_established; assumption|intros; apply kept_handleConnect; assumption]|].
    intros; apply kept_says; assumption.
  - apply fresh_unconnected, unconnected_andthen; [apply unconnected_says, C3|]. intros; apply unconnected_says; assumption.
  - apply fresh_unconnected, unconnected_andthen; [apply unconnected_says, C3|]. intros s4 C4. apply unconnected_andthen; [apply Disconnect_unconnected|]. intros; apply unconnected_says; assumption.
  - apply fresh_unconnected, unconnected_andthen; [apply unconnected_says, C3|]. intros s4 C4. exact (unconnected_says [] s4 C4).
Qed.
Lemma fresh_step E s a : good (sn_ds s) -> connected (sn_ds s) = false -> fresh (sact_step E s a).
Proof.
  intros G C. destruct a as [ad c dials|ad c ok| | |cn dials|pool p|pool p|filter u| | | |i]; cbn [sact_step].
  - unfold Dial. destruct (_ || _); [apply fresh_unconnected, unconnected_says, C|]. destruct (parse_address ad) as [[host port]|]; [|apply fresh_unconnected, unconnected_says, C].
    apply fresh_connect; destruct c; [exact G|exact G|exact C|exact C].
  - unfold Listen. destruct (_ || _); [apply fresh_unconnected, unconnected_says, C|]. destruct (parse_address ad) as [[host port]|]; [|apply fresh_unconnected, unconnected_says, C].
    apply fresh_unconnected, unconnected_says. destruct ok, c; exact C.
  - unfold Accept. destruct (negb _); [exact (fresh_unconnected _ (unconnected_says [] s C))|]. rewrite C. apply fresh_kept, kept_established; [exact G|split; reflexivity].
  - unfold Lost. rewrite C. exact (fresh_unconnected _ (unconnected_says [] s C)).
  - unfold Reconnect. destruct (_ || _ || _); [exact (fresh_unconnected _ (unconnected_says [] s C))|].
    destruct (ConnectorModel.reconnect _ _ _ _ _) as [[evs st] n] eqn:L. set (s3 := with_reconnecting _ _).
    assert (C3 : connected (sn_ds s3) = false) by (change (connected (sn_ds (after_dials s evs)) = false); unfold after_dials; destruct (existsb _ _); exact C).
    assert (G3 : good (sn_ds s3)) by exact (good_after s evs G). destruct st.
    + assert (D : existsb is_dial evs = true).
      { unfold ConnectorModel.reconnect in L. destruct (_ && _); [discriminate|]. destruct cn; [discriminate|]. destruct (ConnectorModel.connect_loop _ _ _ _) as [[es' st'] m'] eqn:M. injection L as <- -> <-. exact (success_dials _ _ _ _ _ _ M). }
      assert (U : unknown s3) by (change (unknown (after_dials s evs)); apply unknown_dials, D). clearbody s3.
      apply fresh_kept, kept_andthen; [apply kept_says; assumption|]. intros s4 G4 U4. apply kept_andthen; [apply kept_established; assumption|]. intros; apply kept_handleConnect; assumption.
    + apply fresh_unconnected, unconnected_andthen; [apply unconnected_says, C3|]. intros s4 C4. destruct evs; [apply unconnected_says, C4|].
      apply unconnected_andthen; [apply Disconnect_unconnected|]. intros; apply unconnected_says; assumption.
    + apply fresh_unconnected, unconnected_andthen; [apply unconnected_says, C3|]. intros s4 C4. apply Disconnect_unconnected.
    + apply fresh_unconnected, unconnected_andthen; [apply unconnected_says, C3|]. intros s4 C4. exact (unconnected_says [] s4 C4).
  - rewrite C. exact (fresh_unconnected _ (unconnected_says [] s C)).
  - rewrite C. exact (fresh_unconnected _ (unconnected_says [] s C)).
  - unfold session_Subscribe. cbv zeta. cbn [sn_ds with_ds]. change (connected (set_subscription (sn_ds s) _)) with (connected (sn_ds s)). rewrite C. apply fresh_unconnected. intros s' ev [= <- <-]. exact C.
  - apply fresh_unconnected, unconnected_lift; [exact C|]. intros d e H. exact (proj1 (proj2 (low_Unsubscribe _ G _ _ H))).
  - apply fresh_unconnected, unconnected_lift; [exact C|]. intros d e H. exact (proj1 (proj2 (low_send _ _ _ G _ _ H))).
  - apply fresh_unconnected, Disconnect_unconnected.
  - destruct (nth_error _ _) as [k|]; [|exact (fresh_unconnected _ (unconnected_says [] s C))].
    set (s1 := with_pending _ _). assert (G1 : good (sn_ds s1)) by exact G. assert (C1 : connected (sn_ds s1) = false) by exact C. clearbody s1.
    apply fresh_unconnected. destruct k as [m| |m]; cbn [run_task].
    + unfold handleMetadataReceived. match goal with |- context [bind ?x _] => destruct x as [[parsed ds]| |] end; [|intros s' ev H; discriminate..]. cbn [bind].
      intros s' ev H. apply andthen_inv in H as (s2 & e1 & e2 & H1 & H2 & _). apply andthen_inv in H1 as (s3 & e3 & e4 & H1 & H3 & _).
      apply summary_steps in H3 as (-> & _). assert (K : good (sn_ds s3) /\ connected (sn_ds s3) = false).
      { destruct parsed; [|injection H1 as <- _; auto]. apply load_steps in H1 as (_ & _ & _ & _ & (reg & ->) & _). split; [exact G1|exact C1]. }
      destruct K as (G3 & C3). revert s' e2 H2. apply unconnected_andthen; [apply unconnected_says, C3|]. intros s4 C4. cbv beta.
      destruct (_ && _); [|exact (unconnected_says [] s4 C4)]. apply unconnected_lift; [exact C4|]. intros d e H. unfold Subscribe in H. rewrite C4 in H. cbn [negb] in H. unfold done in H. injection H as <- _. reflexivity.
    + apply unconnected_andthen; [apply unconnected_says, C1|]. intros s4 C4. cbv beta. destruct (c_AutoRequestMetadata _); [|exact (unconnected_says [] s4 C4)].
      apply unconnected_lift; [exact C4|]. intros d e H. unfold send in H.
      match type of H with bind ?x _ = _ => destruct x as [[wb out]| |] end; try discriminate. cbn [bind] in H. injection H as <- _. reflexivity.
    + intros s' ev [= <- _]. exact C1.
Qed.
Lemma fresh_known E st0 acts s ev a s' ev' : history E st0 acts s ev -> sact_step E s a = Ok (s', ev') -> connected (sn_ds s) = false -> connected (sn_ds s') = true ->
  forall g, MetadataOf s' g = (([], 0), no_detail).
Proof.
  intros H K C C' g. pose proof (proj1 (history_inv _ _ _ _ _ H)) as I. destruct (fresh_step E s a (i_good _ _ _ I) C _ _ K C') as (U1 & U2).
  unfold MetadataOf. rewrite U1, U2, !lookup_empty. reflexivity.
Qed.
Lemma start_time_seen E st0 acts s ev pool cmd z t x : history E st0 acts s ev -> connected (sn_ds s) = true -> validated (sn_ds s) = true -> length z = 4%nat ->
  0 <= t < 2 ^ 64 -> epoch_ticks <= t mod 2 ^ 62 -> (t mod 2 ^ 62 - epoch_ticks) * 100 < 2 ^ 63 ->
  exists s', sact_step E s (SPacket pool (response 0x86 cmd z (be_put 8 t ++ x))) = Ok (s', [UStartTime ((t mod 2 ^ 62 - epoch_ticks) * 100)]).
Proof.
  intros _ C V Lz U L1 L2. destruct (start_time_ok (se_env E) pool (sn_ds s) cmd z t x C V Lz U) as (d & K).
  cbn [sact_step]. rewrite C. cbn [act] in K. rewrite C in K. rewrite K. unfold lift. cbn [bind flat_map user_event app].
  rewrite (proj1 (proj2 (ticks_round_trip t U L1 L2))). eexists. reflexivity.
Qed.
