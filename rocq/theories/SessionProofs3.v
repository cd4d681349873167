(** Which parts of a session each action may change; sessions after Disconnect; sessions
    that never reconnect; what a connection sequence that gave up leaves. *)
From Coq Require Import String Lia ZArith.
From stdpp Require Import gmap.
From Verif Require ConnectorModel.
From Verif Require Import Base BaseProofs GuidModel FormatModel FormatSpec FormatProofs CalModel ExprModel TableModel XmlModel XmlSpec.
From Verif Require Import CompactModel CacheModel FrameModel FrameSpec FrameProofs SubscriberModel SubscriberSpec SubscriberProofs SubscriberProofs4 SubscriberProofs5 SubscriberProofs8 SubscriberProofs9.
From Verif Require Import SessionModel SessionSpec SessionProofs SessionProofs2.
Open Scope list_scope.
Open Scope Z_scope.

(** ** Everything but the DataSubscriber, the metadata and the pending callbacks *)

Definition ctl (s : session) :=
  (sn_config s, sn_listening s, sn_cancel s, sn_attempt s, sn_auto s, sn_handler s, sn_conn s, sn_target s, sn_reconnecting s).
Definition calm (e : uevent) : Prop := match e with UDialing _ | UReturn _ | UWaiting _ => False | _ => True end.
Definition keeps (s : session) (k : sstep) : Prop := sok (fun s' => ctl s' = ctl s) calm k.

Lemma calm_user ev : Forall calm (flat_map user_event ev).
Proof. induction ev as [|e ev IH]; [constructor|]. cbn [flat_map]. apply Forall_app. split; [destruct e; repeat constructor|exact IH]. Qed.
Lemma keeps_lift s k : keeps s (lift s k).
Proof. apply sok_lift. intros d ev _. split; [reflexivity|apply calm_user]. Qed.
Lemma keeps_quiet s : keeps s (quiet s). Proof. apply sok_quiet. reflexivity. Qed.
Lemma keeps_says s ev : Forall calm ev -> keeps s (says ev s). Proof. intros H. apply sok_says; [reflexivity|exact H]. Qed.
Lemma keeps_andthen s k f : keeps s k -> (forall s', keeps s' (f s')) -> keeps s (andthen k f).
Proof.
  intros H1 H2. apply (sok_andthen (fun s' => ctl s' = ctl s)); [exact H1|]. intros s' C s2 ev K. destruct (H2 s' s2 ev K) as (A & B). split; [congruence|exact B].
Qed.
Lemma keeps_RequestMetadata s : keeps s (RequestMetadata s). Proof. apply keeps_lift. Qed.
Lemma keeps_handleConnect s : keeps s (handleConnect s).
Proof.
  apply keeps_andthen; [apply keeps_says; repeat constructor|]. intros s'. destruct (c_AutoRequestMetadata _); [apply keeps_lift|]. destruct (c_AutoSubscribe _); [apply keeps_lift|apply keeps_quiet].
Qed.
Lemma keeps_established s : keeps s (established s).
Proof. apply keeps_andthen; [apply keeps_lift|]. intros s'. destruct (sn_handler s'); [apply keeps_handleConnect|apply keeps_quiet]. Qed.
Lemma keeps_loadMeasurementMetadata E s ds : keeps s (loadMeasurementMetadata E s ds).
Proof.
  unfold loadMeasurementMetadata. destruct (DataSetTable _ _ _); [|apply keeps_says; repeat constructor]. destruct (-1 <? _); [|apply keeps_says; repeat constructor].
  intros s' ev H. destruct (load_measurements _ _ _ _) as [[]| |]; try discriminate. cbn [bind] in H. unfold quiet in H. injection H as <- <-. split; [reflexivity|constructor].
Qed.
Lemma keeps_showMetadataSummary E s ds : keeps s (showMetadataSummary E s ds).
Proof. intros s' ev H. unfold showMetadataSummary in H. match type of H with bind ?x _ = _ => destruct x as [x0| |] end; try discriminate. cbn [bind] in H. revert H. apply keeps_says; repeat constructor. Qed.
Lemma keeps_handleMetadata E s d : keeps s (handleMetadataReceived E s d).
Proof.
  intros s' ev H. unfold handleMetadataReceived in H. match type of H with bind ?x _ = _ => destruct x as [[parsed ds]| |] end; try discriminate. cbn [bind] in H. revert H.
  apply keeps_andthen.
  - apply keeps_andthen; [destruct parsed; [apply keeps_loadMeasurementMetadata|apply keeps_says; repeat constructor]|]. intros s1. apply keeps_showMetadataSummary.
  - intros s1. apply keeps_andthen; [apply keeps_says; repeat constructor|]. intros s2. destruct (_ && _); [apply keeps_lift|apply keeps_quiet].
Qed.
Lemma keeps_task E s k : keeps s (run_task E s k).
Proof.
  destruct k as [d| |m]; cbn [run_task]; [apply keeps_handleMetadata| |apply keeps_says; repeat constructor].
  apply keeps_andthen; [apply keeps_says; repeat constructor|]. intros s1. destruct (c_AutoRequestMetadata _); [apply keeps_lift|apply keeps_quiet].
Qed.
(** The actions that concern the connection itself. *)
Definition connecting (a : sact) : bool := match a with SDial _ _ _ | SListen _ _ _ | SLost | SReconnect _ _ | SDisconnect => true | _ => false end.
Lemma keeps_step E a s : connecting a = false -> keeps s (sact_step E s a).
Proof.
  destruct a as [ | | | | |pool p|pool p|f u| | | |i]; try discriminate; intros _; cbn [sact_step].
  - unfold Accept. destruct (negb _); [apply keeps_quiet|]. destruct (connected _); [apply keeps_says; repeat constructor|].
    intros s' ev H. exact (keeps_established (setup s) s' ev H).
  - destruct (connected _); [apply keeps_lift|apply keeps_quiet].
  - destruct (connected _); [apply keeps_lift|apply keeps_quiet].
  - unfold session_Subscribe. cbv zeta. set (s1 := with_ds s _). intros s' ev H. assert (K : keeps s1 (if connected (sn_ds s1) then lift s1 (Subscribe (sn_ds s1)) else quiet s1)) by (destruct (connected _); [apply keeps_lift|apply keeps_quiet]).
    exact (K s' ev H).
  - apply keeps_lift.
  - apply keeps_lift.
  - destruct (nth_error _ _) as [k|]; [|apply keeps_quiet]. intros s' ev H. set (s1 := with_pending s _) in H. exact (keeps_task E s1 k s' ev H).
Qed.
(** An invariant that depends on these parts only. *)
Lemma keeps_sok (I : session -> Prop) s k : (forall s1 s2, ctl s1 = ctl s2 -> I s2 -> I s1) -> I s -> keeps s k -> sok I calm k.
Proof. intros H1 H2 H3 s' ev K. destruct (H3 s' ev K) as (A & B). split; [exact (H1 _ _ A H2)|exact B]. Qed.
Lemma ctl_eq s1 s2 : ctl s1 = ctl s2 -> sn_config s1 = sn_config s2 /\ sn_listening s1 = sn_listening s2 /\ sn_cancel s1 = sn_cancel s2 /\ sn_attempt s1 = sn_attempt s2 /\
  sn_auto s1 = sn_auto s2 /\ sn_handler s1 = sn_handler s2 /\ sn_conn s1 = sn_conn s2 /\ sn_target s1 = sn_target s2 /\ sn_reconnecting s1 = sn_reconnecting s2.
Proof. unfold ctl. intros [= -> -> -> -> -> -> -> -> ->]. repeat split. Qed.
Lemma sok_weaken (I : session -> Prop) (Q Q' : uevent -> Prop) k : (forall e, Q e -> Q' e) -> sok I Q k -> sok I Q' k.
Proof. intros H1 H2 s ev K. destruct (H2 s ev K) as (A & B). split; [exact A|]. eapply List.Forall_impl; [|exact B]. exact H1. Qed.

(** ** After Disconnect *)

Definition ended (s : session) : Prop := sn_cancel s = true /\ sn_reconnecting s = false.
Definition no_dial (e : uevent) : Prop := match e with UDialing _ | UWaiting _ => False | _ => True end.
Lemma calm_no_dial e : calm e -> no_dial e. Proof. destruct e; cbn; auto. Qed.
Lemma ended_ctl s1 s2 : ctl s1 = ctl s2 -> ended s2 -> ended s1.
Proof. intros H. apply ctl_eq in H as (_ & _ & A & _ & _ & _ & _ & _ & B). unfold ended. rewrite A, B. auto. Qed.
Lemma ctl_Disconnect s s' ev : Disconnect s = Ok (s', ev) -> ctl s' = ctl (with_reconnecting (with_cancel (with_listening s false) true) false) /\ ended s' /\
  connected (sn_ds s') = false /\ sn_listening s' = false /\ ev = [ULow EvTerminated].
Proof.
  intros H. apply lift_inv in H as (d & ev1 & K & -> & ->). unfold disconnect, done in K. injection K as <- <-. repeat split.
Qed.
Lemma configure_ctl s c : sn_listening (configure s c) = sn_listening s /\ sn_cancel (configure s c) = sn_cancel s /\ sn_attempt (configure s c) = sn_attempt s /\
  sn_auto (configure s c) = sn_auto s /\ sn_handler (configure s c) = sn_handler s /\ sn_reconnecting (configure s c) = sn_reconnecting s /\
  connected (sn_ds (configure s c)) = connected (sn_ds s) /\ sn_config (configure s c) = match c with Some c => c | None => sn_config s end.
Proof. destruct c; repeat split. Qed.
Lemma Dial_cancelled s a c dials s' ev : sn_cancel s = true -> Dial s a c dials = Ok (s', ev) ->
  ev = [UReturn false] /\ sn_cancel s' = true /\ sn_reconnecting s' = sn_reconnecting s /\ connected (sn_ds s') = connected (sn_ds s).
Proof.
  intros C H. unfold Dial in H. destruct (_ || _); [injection H as <- <-; auto|]. destruct (parse_address a) as [[host port]|]; [|injection H as <- <-; auto].
  destruct (configure_ctl s c) as (_ & C2 & _ & _ & _ & C6 & C7 & _). unfold session_connect in H. cbv zeta in H. cbn [sn_cancel with_connector] in H. rewrite C2, C in H. unfold says in H. injection H as <- <-.
  repeat split; [rewrite <- C; exact C2|exact C6|exact C7].
Qed.
Lemma ended_step E a s : ended s -> sok ended no_dial (sact_step E s a).
Proof.
  intros J. pose proof J as (C & R). destruct (connecting a) eqn:A; [|apply (sok_weaken _ calm _ _ calm_no_dial), (keeps_sok _ s); [exact ended_ctl|exact J|apply keeps_step, A]].
  destruct a as [a c d|a c ok| | |cn d| | | | | | | ]; try discriminate; cbn [sact_step]; intros s' ev H.
  - apply Dial_cancelled in H as (-> & H1 & H2 & _); [|exact C]. split; [split; congruence|repeat constructor].
  - unfold Listen in H. destruct (_ || _); [injection H as <- <-; split; [exact J|repeat constructor]|]. destruct (parse_address a) as [[host port]|]; [|injection H as <- <-; split; [exact J|repeat constructor]].
    unfold says in H. injection H as <- <-. split; [|repeat constructor]. destruct (configure_ctl s c) as (_ & C2 & _ & _ & _ & C6 & _). unfold ended. destruct ok; (split; [exact (eq_trans C2 C)|exact (eq_trans C6 R)]).
  - unfold Lost in H. destruct (negb _); [injection H as <- <-; split; [exact J|repeat constructor]|]. apply andthen_inv in H as (s1 & ev1 & ev2 & H1 & H2 & ->).
    unfold quiet in H2. injection H2 as <- <-. apply keeps_lift in H1 as (K & B). apply ctl_eq in K as (_ & _ & K1 & _ & _ & _ & _ & _ & K2).
    split; [unfold ended; cbn; rewrite K1, C; split; [reflexivity|apply andb_false_r]|]. rewrite app_nil_r. eapply List.Forall_impl; [|exact B]. exact calm_no_dial.
  - unfold Reconnect in H. rewrite R in H. cbn [negb orb] in H. injection H as <- <-. split; [exact J|repeat constructor].
  - apply ctl_Disconnect in H as (_ & J' & _ & _ & ->). split; [exact J'|repeat constructor].
Qed.
Lemma no_dial_dialled ev : Forall no_dial ev -> dialled ev = [].
Proof. induction 1 as [|e ev H _ IH]; [reflexivity|]. destruct e; try contradiction; exact IH. Qed.
Lemma after_disconnect E l1 l2 s s' ev : srun E s (l1 ++ SDisconnect :: l2) = Ok (s', ev) ->
  exists ev1 ev2, ev = ev1 ++ ev2 /\ (exists s1, srun E s l1 = Ok (s1, ev1)) /\ dialled ev2 = [] /\ ended s'.
Proof.
  intros H. apply srun_app in H as (s1 & ev1 & ev2 & H1 & H2 & ->). exists ev1, ev2. split; [reflexivity|]. split; [eauto|].
  apply srun_cons in H2 as (s2 & e1 & e2 & D & H2 & ->). cbn [sact_step] in D. apply ctl_Disconnect in D as (_ & J & _ & _ & ->).
  assert (F : Forall (fun _ : sact => True) l2) by (clear; induction l2; constructor; auto).
  destruct (srun_sok E (fun _ => True) ended no_dial (fun a s _ => ended_step E a s) l2 s2 F J s' e2 H2) as (J' & N).
  split; [|exact J']. rewrite dialled_app. cbn. apply no_dial_dialled, N.
Qed.

(** ** Sessions that never reconnect *)

Definition never_auto (s : session) : Prop := sn_auto s = false /\ sn_reconnecting s = false.
Lemma never_auto_ctl s1 s2 : ctl s1 = ctl s2 -> never_auto s2 -> never_auto s1.
Proof. intros H. apply ctl_eq in H as (_ & _ & _ & _ & A & _ & _ & _ & B). unfold never_auto. rewrite A, B. auto. Qed.
Definition some_config (P : config -> Prop) (a : sact) : Prop := forall c, config_of a = Some c -> exists c', c = Some c' /\ P c'.
Lemma after_dials_ctl s evs : sn_listening (after_dials s evs) = sn_listening s /\ sn_cancel (after_dials s evs) = sn_cancel s /\ sn_auto (after_dials s evs) = sn_auto s /\
  sn_handler (after_dials s evs) = sn_handler s /\ sn_reconnecting (after_dials s evs) = sn_reconnecting s /\ sn_config (after_dials s evs) = sn_config s /\ sn_target (after_dials s evs) = sn_target s.
Proof. unfold after_dials. destruct (existsb _ _); repeat split. Qed.
Lemma never_auto_Disconnect s : never_auto s -> sok never_auto (fun _ => True) (Disconnect s).
Proof.
  intros (A & R) s' ev H. apply ctl_Disconnect in H as (C & _ & _ & _ & ->). apply ctl_eq in C as (_ & _ & _ & _ & C1 & _ & _ & _ & C2). split; [unfold never_auto; rewrite C1, C2; auto|repeat constructor].
Qed.
Lemma keeps_never s k : keeps s k -> never_auto s -> sok never_auto (fun _ => True) k.
Proof. intros K J. apply (sok_weaken _ calm); [auto|]. apply (keeps_sok _ s); [exact never_auto_ctl|exact J|exact K]. Qed.
Lemma all_true {A} (l : list A) : Forall (fun _ => True) l. Proof. induction l; constructor; auto. Qed.
Lemma never_auto_connect s host port dials : never_auto s -> c_AutoReconnect (sn_config s) = false -> sok never_auto (fun _ => True) (session_connect s host port dials).
Proof.
  intros J A. unfold session_connect. cbv zeta. set (s1 := with_connector s _ _). assert (J1 : never_auto s1) by exact J. clearbody s1. rewrite A.
  destruct (sn_cancel s1); [apply sok_says; [exact J1|apply all_true]|]. destruct (ConnectorModel.Connect _ _ _) as [[evs st] a].
  apply (sok_andthen never_auto).
  - apply sok_says; [|apply all_true]. destruct (after_dials_ctl s1 evs) as (_ & _ & B1 & _ & B2 & _). exact (conj (eq_trans B1 (proj1 J1)) (eq_trans B2 (proj2 J1))).
  - intros s2 J2. destruct st.
    + apply (sok_andthen never_auto); [apply (sok_andthen never_auto); [apply (keeps_never s2), J2; apply keeps_established|intros s3 J3; apply (keeps_never s3), J3; apply keeps_handleConnect]|]. intros s3 J3. apply sok_says; [exact J3|apply all_true].
    + apply sok_says; [exact J2|apply all_true].
    + apply (sok_andthen never_auto); [apply never_auto_Disconnect, J2|]. intros s3 J3. apply sok_says; [exact J3|apply all_true].
    + apply sok_quiet, J2.
Qed.
Lemma never_auto_step E a s : some_config (fun c => c_AutoReconnect c = false) a -> never_auto s -> sok never_auto (fun _ => True) (sact_step E s a).
Proof.
  intros P J. pose proof J as (A & R). destruct (connecting a) eqn:CA; [|apply (keeps_never s), J; apply keeps_step, CA].
  destruct a as [a c d|a c ok| | |cn d| | | | | | | ]; try discriminate; cbn [sact_step].
  - unfold Dial. destruct (_ || _); [apply sok_says; [exact J|apply all_true]|]. destruct (parse_address a) as [[host port]|]; [|apply sok_says; [exact J|apply all_true]].
    destruct (P c eq_refl) as (c' & -> & F). apply never_auto_connect; [exact J|exact F].
  - unfold Listen. destruct (_ || _); [apply sok_says; [exact J|apply all_true]|]. destruct (parse_address a) as [[host port]|]; [|apply sok_says; [exact J|apply all_true]].
    apply sok_says; [|apply all_true]. destruct (configure_ctl s c) as (_ & _ & _ & C4 & _ & C6 & _). destruct ok; exact (conj (eq_trans C4 A) (eq_trans C6 R)).
  - unfold Lost. destruct (negb _); [apply sok_quiet, J|]. intros s' ev H. apply andthen_inv in H as (s1 & ev1 & ev2 & H1 & H2 & ->). unfold quiet in H2. injection H2 as <- <-.
    split; [|apply all_true]. apply keeps_lift in H1 as (K & _). apply ctl_eq in K as (_ & _ & _ & _ & K1 & _ & _ & _ & _). unfold never_auto. cbn. rewrite K1, A. split; reflexivity.
  - unfold Reconnect. rewrite R. apply sok_quiet, J.
  - apply never_auto_Disconnect, J.
Qed.

(** ** Connection sequences that gave up *)

Lemma gave_up c : forall dials auto n es m, ConnectorModel.connect_loop c auto n dials = (es, ConnectorModel.Failed, m) ->
  ConnectorModel.maxRetries c <> -1 /\ ConnectorModel.maxRetries c <= m.
Proof.
  assert (K : forall n, negb (ConnectorModel.maxRetries c =? -1) && (ConnectorModel.maxRetries c <=? n) = true -> ConnectorModel.maxRetries c <> -1 /\ ConnectorModel.maxRetries c <= n) by (intros; lia).
  induction dials as [|d dials IH]; intros auto n es m H; cbn [ConnectorModel.connect_loop] in H.
  - destruct (_ && _) eqn:B; [|discriminate]. injection H as <- <-. apply K, B.
  - destruct (_ && _) eqn:B; [injection H as <- <-; apply K, B|]. destruct d as [|cn]; [discriminate|]. destruct (0 <? _).
    + destruct cn; [discriminate|]. destruct (ConnectorModel.connect_loop _ _ _ dials) as [[es' st] m'] eqn:L. injection H as <- -> <-. exact (IH _ _ _ _ L).
    + destruct (ConnectorModel.connect_loop _ _ _ dials) as [[es' st] m'] eqn:L. injection H as <- -> <-. exact (IH _ _ _ _ L).
Qed.
Lemma gives_up_at_once c auto n dials : ConnectorModel.maxRetries c <> -1 -> ConnectorModel.maxRetries c <= n -> ConnectorModel.connect_loop c auto n dials = ([], ConnectorModel.Failed, n).
Proof. intros H1 H2. destruct dials; cbn [ConnectorModel.connect_loop]; replace (_ && _) with true by lia; reflexivity. Qed.
