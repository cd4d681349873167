(** The frames of a connection's start, the handling of received metadata, and the
    subscription settings in force. *)
From Coq Require Import String Lia ZArith.
From stdpp Require Import gmap.
From Verif Require ConnectorModel.
From Verif Require Import Base BaseProofs GuidModel FormatModel FormatSpec FormatProofs CalModel ExprModel TableModel XmlModel XmlSpec.
From Verif Require Import CompactModel CacheModel FrameModel FrameSpec FrameProofs SubscriberModel SubscriberSpec SubscriberProofs SubscriberProofs4 SubscriberProofs5 SubscriberProofs8 SubscriberProofs9.
From Verif Require Import SessionModel SessionSpec SessionProofs SessionProofs2 SessionProofs3.
Open Scope list_scope.
Open Scope Z_scope.

(** ** The start of a connection *)

Definition may (s : session) : bool := (Version (sn_ds s) <? 2) || validated (sn_ds s).
Lemma connects_app a b : connects (a ++ b) = (connects a + connects b)%nat.
Proof. unfold connects. rewrite List.filter_app, app_length. reflexivity. Qed.
Lemma connects_user ev : connects (flat_map user_event ev) = 0%nat.
Proof. induction ev as [|e ev IH]; [reflexivity|]. cbn [flat_map]. rewrite connects_app, IH. destruct e; reflexivity. Qed.
Lemma returned_app a b : returned (a ++ b) = returned a ++ returned b. Proof. apply flat_map_app. Qed.
Lemma returned_calm ev : Forall calm ev -> returned ev = [].
Proof. induction 1 as [|e ev H _ IH]; [reflexivity|]. destruct e; try contradiction; exact IH. Qed.
Lemma send_frames s c d s' ev : good s -> connected s = true -> send s c d = Ok (s', ev) -> good s' /\ connected s' = true /\ sent ev = [frame c d].
Proof.
  intros G C H. pose proof (send_good _ _ _ _ _ G H) as (G' & _). apply send_len in H as (wb & _ & -> & ->); [|apply G]. split; [exact G'|]. rewrite C. split; [exact C|reflexivity].
Qed.
Lemma RequestMetadata_frames s s' ev : good (sn_ds s) -> connected (sn_ds s) = true -> RequestMetadata s = Ok (s', ev) ->
  good (sn_ds s') /\ connected (sn_ds s') = true /\ frames ev = [metadata_request (c_MetadataFilters (sn_config s))] /\ connects ev = 0%nat.
Proof.
  intros G C H. apply lift_inv in H as (d & ev1 & K & -> & ->). rewrite frames_user, connects_user. pose proof (metadata_frame _ _ _ K G C) as L.
  apply send_frames in K as (G' & C' & ->); [|exact G|exact C]. split; [exact G'|]. split; [exact C'|]. split; [|reflexivity]. f_equal. apply metadata_request_eq. lia.
Qed.
Lemma Subscribe_frames s s' ev : good (sn_ds s) -> connected (sn_ds s) = true -> lift s (Subscribe (sn_ds s)) = Ok (s', ev) ->
  good (sn_ds s') /\ connected (sn_ds s') = true /\ connects ev = 0%nat /\
  frames ev = if may s then (if subscribed (sn_ds s) && validated (sn_ds s) then [frame 3 []] else []) ++ [subscribe_request (subscription (sn_ds s))] else [].
Proof.
  intros G C H. apply lift_inv in H as (d & ev1 & K & -> & ->). rewrite frames_user, connects_user. apply Subscribe_exact in K as (G' & _ & C' & _ & _ & _ & ->); [|exact G].
  split; [exact G'|]. split; [cbn; congruence|]. split; [reflexivity|]. rewrite sent_map. unfold may_subscribe, may. rewrite C. reflexivity.
Qed.
Lemma handleConnect_frames s s' ev : good (sn_ds s) -> connected (sn_ds s) = true -> subscribed (sn_ds s) = false -> handleConnect s = Ok (s', ev) ->
  frames ev = (if c_AutoRequestMetadata (sn_config s) then [metadata_request (c_MetadataFilters (sn_config s))]
               else if c_AutoSubscribe (sn_config s) && may s then [subscribe_request (subscription (sn_ds s))] else []) /\ connects ev = 1%nat.
Proof.
  intros G C B H. apply andthen_inv in H as (s1 & ev1 & ev2 & H1 & H2 & ->). unfold says in H1. injection H1 as <- <-. rewrite frames_app, connects_app. cbn [frames flat_map app connects List.filter length].
  change (length [UConnected]) with 1%nat.
  destruct (c_AutoRequestMetadata (sn_config s)).
  - apply RequestMetadata_frames in H2 as (_ & _ & -> & ->); [|exact G|exact C]. split; reflexivity.
  - destruct (c_AutoSubscribe (sn_config s)); [|unfold quiet in H2; injection H2 as <- <-; split; reflexivity].
    apply Subscribe_frames in H2 as (_ & _ & -> & ->); [|exact G|exact C]. rewrite B. split; reflexivity.
Qed.
(** [sub_fields] agrees with the configuration: then the frames are [startup]. *)
Lemma startup_eq s : sub_fields (sn_ds s) = config_fields (sn_config s) ->
  modes_frame (sn_ds s) = modes_request (sn_config s) (s_UdpDataChannel (subscription (sn_ds s))) /\ Version (sn_ds s) = c_Version (sn_config s).
Proof. unfold sub_fields, config_fields, modes_frame, modes_request. intros [= -> -> -> -> _]. split; reflexivity. Qed.
Lemma established_frames s s' ev : good (sn_ds s) -> subscribed (sn_ds s) = false -> established s = Ok (s', ev) ->
  sub_fields (sn_ds s) = config_fields (sn_config s) ->
  if sn_handler s then frames ev = startup (sn_config s) (subscription (sn_ds s)) (may s) /\ connects ev = 1%nat
  else frames ev = [modes_request (sn_config s) (s_UdpDataChannel (subscription (sn_ds s)))] /\ connects ev = 0%nat /\
       good (sn_ds s') /\ connected (sn_ds s') = true /\ subscribed (sn_ds s') = false /\ subscription (sn_ds s') = subscription (sn_ds s) /\ may s' = may s /\ sn_config s' = sn_config s.
Proof.
  intros G B H F. destruct (startup_eq s F) as (M & V). apply andthen_inv in H as (s1 & ev1 & ev2 & H1 & H2 & ->). apply lift_inv in H1 as (d & ev3 & K & -> & ->).
  apply establish_exact in K as (G' & X & C' & W & S & _ & _ & ->); [|exact G]. apply fixed_fields in X as (X1 & X2).
  rewrite frames_app, connects_app. cbn [flat_map user_event app frames connects List.filter length]. rewrite M. cbn [sn_handler with_pending with_ds] in H2.
  assert (V' : Version d = Version (sn_ds s)) by (unfold sub_fields in X1; congruence).
  destruct (sn_handler s) eqn:E.
  - apply handleConnect_frames in H2 as (H2 & ->); [|exact G'|exact C'|cbn; congruence]. rewrite H2. unfold startup, may. cbn. rewrite X2, V', W. split; reflexivity.
  - unfold quiet in H2. injection H2 as <- <-. cbn. unfold may. cbn. rewrite V', W, X2. split; [reflexivity|]. split; [reflexivity|]. split; [exact G'|]. split; [exact C'|]. split; [congruence|]. repeat split.
Qed.
Lemma both_frames s s' ev : good (sn_ds s) -> subscribed (sn_ds s) = false -> sub_fields (sn_ds s) = config_fields (sn_config s) -> sn_handler s = false ->
  andthen (established s) handleConnect = Ok (s', ev) ->
  frames ev = startup (sn_config s) (subscription (sn_ds s)) (may s) /\ connects ev = 1%nat /\ Forall calm ev.
Proof.
  intros G B F Hn H. pose proof (keeps_andthen s _ _ (keeps_established s) keeps_handleConnect s' ev H) as (_ & Q). apply andthen_inv in H as (s1 & ev1 & ev2 & H1 & H2 & ->).
  apply established_frames in H1; [|exact G|exact B|exact F]. rewrite Hn in H1. destruct H1 as (H1 & N1 & G1 & C1 & B1 & S1 & M1 & K1).
  apply handleConnect_frames in H2 as (H2 & N2); [|assumption..]. rewrite frames_app, connects_app, H1, H2, N1, N2, S1, M1, K1. split; [|split; [reflexivity|exact Q]]. reflexivity.
Qed.
(** ... and if Listen has registered the handler too, the metadata request goes out twice. *)

(** ** Calls of Dial and what they send *)

Lemma success_dials c : forall dials auto n es m, ConnectorModel.connect_loop c auto n dials = (es, ConnectorModel.Success, m) -> existsb is_dial es = true.
Proof.
  induction dials as [|d dials IH]; intros auto n es m H; cbn [ConnectorModel.connect_loop] in H; destruct (_ && _); try discriminate.
  destruct d as [|cn]; [injection H as <- <-; reflexivity|]. destruct (0 <? _).
  - destruct cn; [discriminate|]. destruct (ConnectorModel.connect_loop _ _ _ dials) as [[es' st] m'] eqn:L. injection H as <- -> <-. reflexivity.
  - destruct (ConnectorModel.connect_loop _ _ _ dials) as [[es' st] m'] eqn:L. injection H as <- -> <-. reflexivity.
Qed.
Lemma after_dials_ds s evs : existsb is_dial evs = true -> subscribed (sn_ds (after_dials s evs)) = false /\ fixed (sn_ds (after_dials s evs)) = fixed (sn_ds s) /\
  validated (sn_ds (after_dials s evs)) = validated (sn_ds s) /\ writeBuffer (sn_ds (after_dials s evs)) = writeBuffer (sn_ds s) /\ connected (sn_ds (after_dials s evs)) = connected (sn_ds s).
Proof. unfold after_dials. intros ->. repeat split. Qed.
Lemma seen_frames t evs : frames (map (seen t) evs) = [] /\ connects (map (seen t) evs) = 0%nat /\ returned (map (seen t) evs) = [].
Proof. induction evs as [|[] evs (IH1 & IH2 & IH3)]; [repeat split|..]; repeat split; assumption. Qed.
Lemma good_after s evs : good (sn_ds s) -> good (sn_ds (after_dials s evs)).
Proof. intros G. unfold after_dials. destruct (existsb _ _); [|exact G]. exact G. Qed.
Lemma Dial_startup s a c dials s' ev : good (sn_ds s) -> sn_handler s = false -> Dial s a c dials = Ok (s', ev) -> returned ev = [true] ->
  let cfg := match c with Some c => c | None => sn_config s end in
  frames ev = startup cfg (subscription (sn_ds s)) ((c_Version cfg <? 2) || validated (sn_ds s)) /\ connects ev = 1%nat.
Proof.
  intros G Hn H R cfg. unfold Dial in H. destruct (_ || _); [injection H as <- <-; discriminate|]. destruct (parse_address a) as [[host port]|]; [|injection H as <- <-; discriminate].
  assert (K : good (sn_ds (configure s c)) /\ sub_fields (sn_ds (configure s c)) = config_fields (sn_config (configure s c)) /\ sn_config (configure s c) = cfg /\
              subscription (sn_ds (configure s c)) = subscription (sn_ds s) /\ validated (sn_ds (configure s c)) = validated (sn_ds s) /\ sn_handler (configure s c) = false) by (destruct c; repeat (split; [first [exact G|reflexivity]|]); exact Hn).
  destruct K as (G1 & F1 & C1 & S1 & V1 & H1). revert H G1 F1 C1 S1 V1 H1. generalize (configure s c) as s1. intros s1 H G1 F1 C1 S1 V1 H1. unfold session_connect in H. cbv zeta in H.
  cbn [sn_cancel with_connector] in H. destruct (sn_cancel s1); [injection H as <- <-; discriminate|].
  match type of H with context [ConnectorModel.Connect _ (sn_attempt ?x)] => set (s2 := x) in H end.
  assert (K : good (sn_ds s2) /\ sub_fields (sn_ds s2) = config_fields (sn_config s2) /\ sn_config s2 = cfg /\ subscription (sn_ds s2) = subscription (sn_ds s) /\ validated (sn_ds s2) = validated (sn_ds s) /\ sn_handler s2 = false)
    by (unfold s2; destruct (c_AutoReconnect _); cbn; auto 8).
  clearbody s2. destruct K as (G2 & F2 & C2 & S2 & V2 & H2).
  destruct (ConnectorModel.Connect _ _ _) as [[evs st] n] eqn:L. apply andthen_inv in H as (s3 & ev1 & ev2 & X & H & ->). unfold says in X. injection X as <- <-. cbn [app] in H.
  match goal with |- context [map (seen ?t) evs] => destruct (seen_frames t evs) as (Q1 & Q2 & Q3) end. rewrite frames_app, connects_app, Q1, Q2. rewrite returned_app, Q3 in R. cbn [app] in R |- *.
  destruct st.
  - apply andthen_inv in H as (s4 & ev3 & ev4 & X & Y & ->). unfold says in Y. injection Y as <- <-.
    destruct (after_dials_ds s2 evs (success_dials _ _ _ _ _ _ L)) as (A1 & A2 & A3 & _ & _). destruct (after_dials_ctl s2 evs) as (_ & _ & _ & A4 & _ & A5 & _). apply fixed_fields in A2 as (A2 & A6).
    apply both_frames in X as (X1 & X2 & _).
    + rewrite frames_app, connects_app, X1, X2. cbn [frames flat_map app]. rewrite app_nil_r. unfold may. cbn. rewrite A5, A6, A3, V2, S2, C2. split; [|reflexivity]. f_equal. f_equal. f_equal.
      unfold sub_fields in A2. unfold sub_fields, config_fields in F2. rewrite C2 in F2. congruence.
    + apply good_after, G2.
    + exact A1.
    + cbn. rewrite A2, A5. exact F2.
    + cbn. rewrite A4. exact H2.
  - injection H as <- <-. discriminate.
  - apply andthen_inv in H as (s4 & ev3 & ev4 & X & Y & ->). unfold says in Y. injection Y as <- <-. apply ctl_Disconnect in X as (_ & _ & _ & _ & ->). discriminate.
  - unfold quiet in H. injection H as <- <-. discriminate.
Qed.
Lemma Reconnect_startup s cn dials s' ev : good (sn_ds s) -> sub_fields (sn_ds s) = config_fields (sn_config s) -> sn_handler s = false -> Reconnect s cn dials = Ok (s', ev) -> (0 < connects ev)%nat ->
  frames ev = startup (sn_config s) (subscription (sn_ds s)) (may s) /\ connects ev = 1%nat.
Proof.
  intros G F Hn H R. unfold Reconnect in H. destruct (_ || _ || _); [injection H as <- <-; cbn in R; lia|].
  destruct (ConnectorModel.reconnect _ _ _ _ _) as [[evs st] n] eqn:L. apply andthen_inv in H as (s3 & ev1 & ev2 & X & H & ->). unfold says in X. injection X as <- <-.
  match goal with |- context [map (seen ?t) evs] => destruct (seen_frames t evs) as (Q1 & Q2 & Q3) end. rewrite frames_app, connects_app, Q1, Q2. rewrite connects_app, Q2 in R. cbn [app Nat.add] in R |- *.
  destruct st.
  - assert (D : existsb is_dial evs = true).
    { unfold ConnectorModel.reconnect in L. destruct (_ && _); [discriminate|]. destruct cn; [discriminate|]. destruct (ConnectorModel.connect_loop _ _ _ _) as [[es' st'] m'] eqn:M. injection L as <- -> <-. exact (success_dials _ _ _ _ _ _ M). }
    destruct (after_dials_ds s evs D) as (A1 & A2 & A3 & _ & _). destruct (after_dials_ctl s evs) as (_ & _ & _ & A4 & _ & A5 & _). apply fixed_fields in A2 as (A2 & A6).
    apply both_frames in H as (X1 & X2 & _).
    + rewrite X1, X2. split; [|reflexivity]. unfold may. cbn. rewrite A5, A6, A3. f_equal. f_equal. f_equal. unfold sub_fields in A2. congruence.
    + apply good_after, G.
    + exact A1.
    + cbn. rewrite A2, A5. exact F.
    + cbn. rewrite A4. exact Hn.
  - destruct evs; [injection H as <- <-; cbn in R; lia|]. apply andthen_inv in H as (s4 & ev3 & ev4 & X & Y & ->). unfold says in Y. injection Y as <- <-. apply ctl_Disconnect in X as (_ & _ & _ & _ & ->). cbn in R. lia.
  - apply ctl_Disconnect in H as (_ & _ & _ & _ & ->). cbn in R. lia.
  - unfold quiet in H. injection H as <- <-. cbn in R. lia.
Qed.
Lemma setup_good s : good (sn_ds s) -> good (sn_ds (setup s)).
Proof. intros G. exact G. Qed.
Lemma setup_may s : may (setup s) = may s. Proof. reflexivity. Qed.
Lemma setup_fields s : sub_fields (sn_ds (setup s)) = sub_fields (sn_ds s). Proof. reflexivity. Qed.
Lemma setup_others s : subscription (sn_ds (setup s)) = subscription (sn_ds s) /\ subscribed (sn_ds (setup s)) = false /\ sn_config (setup s) = sn_config s /\ sn_handler (setup s) = sn_handler s.
Proof. repeat split. Qed.
Lemma Accept_eq s : sn_listening s = true -> connected (sn_ds s) = false -> Accept s = established (setup s).
Proof. intros L C. unfold Accept. rewrite L, C. reflexivity. Qed.
Lemma Accept_startup s s' ev : good (sn_ds s) -> sub_fields (sn_ds s) = config_fields (sn_config s) -> sn_handler s = true -> sn_listening s = true -> connected (sn_ds s) = false -> Accept s = Ok (s', ev) ->
  frames ev = startup (sn_config s) (subscription (sn_ds s)) (may s) /\ connects ev = 1%nat.
Proof.
  intros G F Hn L C H. rewrite (Accept_eq s L C) in H. pose proof (setup_good s G) as G1. rewrite <- (setup_fields s) in F. rewrite <- (setup_may s).
  destruct (setup_others s) as (E1 & E2 & E3 & E4). rewrite <- E1, <- E3. rewrite <- E3 in F. rewrite <- E4 in Hn. clear E1 E3 E4 L C G. revert H G1 F Hn E2. generalize (setup s). clear s. intros s H G F Hn E2.
  apply established_frames in H; [|assumption..]. rewrite Hn in H. exact H.
Qed.

(** The handler is registered by Listen only; a listening subscriber has it. *)
Definition listens_ok (s : session) : Prop := sn_listening s = true -> sn_handler s = true.
Lemma listens_ctl s1 s2 : ctl s1 = ctl s2 -> listens_ok s2 -> listens_ok s1.
Proof. intros H. apply ctl_eq in H as (_ & A & _ & _ & _ & B & _). unfold listens_ok. rewrite A, B. auto. Qed.
Definition handler_is (b : bool) (s : session) : Prop := sn_handler s = b.
Lemma handler_ctl b s1 s2 : ctl s1 = ctl s2 -> handler_is b s2 -> handler_is b s1.
Proof. intros H. apply ctl_eq in H as (_ & A & _ & _ & _ & B & _). unfold handler_is. rewrite B. auto. Qed.
Lemma ctl_Dial_like (I : session -> Prop) : (forall s1 s2, sn_listening s1 = sn_listening s2 -> sn_handler s1 = sn_handler s2 -> I s2 -> I s1) ->
  (forall s s', I s -> sn_listening s' = false -> sn_handler s' = sn_handler s -> I s') ->
  forall E a s, (forall x c ok, a <> SListen x c ok) -> I s -> sok I (fun _ => True) (sact_step E s a).
Proof.
  intros W W0 E a s N J.
  assert (KI : forall s0 k, I s0 -> keeps s0 k -> sok I (fun _ => True) k).
  { intros s0 k J0 K s' ev H. destruct (K s' ev H) as (C & _). apply ctl_eq in C as (_ & C1 & _ & _ & _ & C2 & _). split; [exact (W s' s0 C1 C2 J0)|apply all_true]. }
  assert (KD : forall s0, I s0 -> sok I (fun _ => True) (Disconnect s0)).
  { intros s0 J0 s' ev H. apply ctl_Disconnect in H as (C & _ & _ & L & _). apply ctl_eq in C as (_ & _ & _ & _ & _ & C2 & _). split; [exact (W0 s0 s' J0 L C2)|apply all_true]. }
  destruct (connecting a) eqn:CA; [|apply (KI s _ J), keeps_step, CA].
  destruct a as [a c d|a c ok| | |cn d| | | | | | | ]; try discriminate; cbn [sact_step].
  - unfold Dial. destruct (_ || _); [apply sok_says; [exact J|apply all_true]|]. destruct (parse_address a) as [[host port]|]; [|apply sok_says; [exact J|apply all_true]].
    destruct (configure_ctl s c) as (C1 & _ & _ & _ & C2 & _). assert (J1 : I (configure s c)) by exact (W _ _ C1 C2 J). revert J1. generalize (configure s c) as s1. clear - W KI KD. intros s1 J1. unfold session_connect. cbv zeta.
    cbn [sn_cancel with_connector]. destruct (sn_cancel s1); [apply sok_says; [revert J1; apply W; reflexivity|apply all_true]|].
    match goal with |- context [ConnectorModel.Connect _ (sn_attempt ?x)] => set (s2 := x) end.
    assert (J2 : I s2) by (revert J1; unfold s2; destruct (c_AutoReconnect _); apply W; reflexivity). clearbody s2. destruct (ConnectorModel.Connect _ _ _) as [[evs st] n].
    apply (sok_andthen I); [apply sok_says; [|apply all_true]|].
    { destruct (after_dials_ctl s2 evs) as (A1 & _ & _ & A2 & _). revert J2. apply W; assumption. }
    intros s3 J3. destruct st.
    + apply (sok_andthen I); [apply (sok_andthen I); [apply (KI s3 _ J3), keeps_established|intros s4 J4; apply (KI s4 _ J4), keeps_handleConnect]|]. intros s4 J4. apply sok_says; [exact J4|apply all_true].
    + apply sok_says; [exact J3|apply all_true].
    + apply (sok_andthen I); [apply KD, J3|]. intros s4 J4. apply sok_says; [exact J4|apply all_true].
    + apply sok_quiet, J3.
  - exfalso. exact (N a c ok eq_refl).
  - unfold Lost. destruct (negb _); [apply sok_quiet, J|]. apply (sok_andthen I); [apply (KI s _ J), keeps_lift|]. intros s1 J1. apply sok_quiet. revert J1. apply W; reflexivity.
  - unfold Reconnect. destruct (_ || _ || _); [apply sok_quiet, J|]. destruct (ConnectorModel.reconnect _ _ _ _ _) as [[evs st] n].
    apply (sok_andthen I); [apply sok_says; [|apply all_true]|].
    { destruct (after_dials_ctl s evs) as (A1 & _ & _ & A2 & _). revert J. apply W; assumption. }
    intros s3 J3. destruct st.
    + apply (sok_andthen I); [apply (KI s3 _ J3), keeps_established|intros s4 J4; apply (KI s4 _ J4), keeps_handleConnect].
    + destruct evs; [apply sok_says; [exact J3|apply all_true]|]. apply (sok_andthen I); [apply KD, J3|]. intros s4 J4. apply sok_says; [exact J4|apply all_true].
    + apply KD, J3.
    + apply sok_quiet, J3.
  - apply KD, J.
Qed.
Lemma handler_false_step E a s : (forall x c ok, a <> SListen x c ok) -> handler_is false s -> sok (handler_is false) (fun _ => True) (sact_step E s a).
Proof. apply ctl_Dial_like; unfold handler_is; congruence. Qed.
Lemma listens_step E a s : listens_ok s -> sok listens_ok (fun _ => True) (sact_step E s a).
Proof.
  intros J. assert (D : (forall x c ok, a <> SListen x c ok) \/ exists x c ok, a = SListen x c ok) by (destruct a as [| | | | | | | | | | |]; try (left; intros; discriminate); right; eauto).
  destruct D as [D|(x & c & ok & ->)].
  - revert D J. apply (ctl_Dial_like listens_ok); unfold listens_ok; [intros s1 s2 A B; rewrite A, B; auto|]. intros s0 s' _ L. rewrite L. discriminate.
  - cbn [sact_step]. unfold Listen. destruct (_ || _); [apply sok_says; [exact J|apply all_true]|]. destruct (parse_address x) as [[host port]|]; [|apply sok_says; [exact J|apply all_true]].
    apply sok_says; [|apply all_true]. destruct ok; intros _; reflexivity.
Qed.
Lemma history_handler E st0 acts s ev : history E st0 acts s ev -> (forall x c ok, ~ In (SListen x c ok) acts) -> sn_handler s = false.
Proof.
  intros (_ & _ & H) N. refine (proj1 (srun_sok E (fun a => forall x c ok, a <> SListen x c ok) (handler_is false) (fun _ => True) (fun a s => handler_false_step E a s) acts _ _ _ s ev H)); [|reflexivity].
  rewrite List.Forall_forall. intros a A x c ok ->. exact (N x c ok A).
Qed.
Lemma history_listens E st0 acts s ev : history E st0 acts s ev -> listens_ok s.
Proof.
  intros (_ & _ & H). refine (proj1 (srun_sok E (fun _ => True) listens_ok (fun _ => True) (fun a s _ => listens_step E a s) acts _ (all_true acts) _ s ev H)). discriminate.
Qed.

(** ** Before the first connection *)

Definition fresh (s : session) : Prop := connected (sn_ds s) = false /\ validated (sn_ds s) = true /\ sn_listening s = false /\ sn_reconnecting s = false /\ sn_pending s = [].
Definition before_connection (a : sact) : Prop := config_of a = None /\ a <> SDisconnect.
Lemma fresh_step E a s : before_connection a -> fresh s -> sok fresh (fun _ => True) (sact_step E s a).
Proof.
  intros (A & B) J. pose proof J as (J1 & J2 & J3 & J4 & J5). destruct a as [ | | | |cn d|pool p|pool p|f u| | | |i]; try discriminate; try congruence; cbn [sact_step].
  - unfold Accept. rewrite J3. apply sok_quiet, J.
  - unfold Lost. rewrite J1. apply sok_quiet, J.
  - unfold Reconnect. rewrite J4. apply sok_quiet, J.
  - rewrite J1. apply sok_quiet, J.
  - rewrite J1. apply sok_quiet, J.
  - unfold session_Subscribe. cbv zeta. cbn [sn_ds with_ds]. change (connected (set_subscription (sn_ds s) _)) with (connected (sn_ds s)). rewrite J1. apply sok_quiet. exact J.
  - unfold Unsubscribe. rewrite J1. intros s' ev H. cbn in H. injection H as <- <-. split; [unfold fresh; cbn; rewrite app_nil_r; exact J|apply all_true].
  - unfold RequestMetadata, send. rewrite J1. intros s' ev H. cbn in H. injection H as <- <-. split; [unfold fresh; cbn; rewrite app_nil_r; exact J|apply all_true].
  - rewrite J5. destruct i; apply sok_quiet, J.
Qed.
Lemma history_fresh E st0 acts s ev : history E st0 acts s ev -> (forall a, In a acts -> before_connection a) -> fresh s.
Proof.
  intros (_ & _ & H) N. refine (proj1 (srun_sok E before_connection fresh (fun _ => True) (fun a s => fresh_step E a s) acts _ _ _ s ev H)); [rewrite List.Forall_forall; exact N|repeat split].
Qed.
