(** What every history of the simplified subscriber keeps: where the dials go, which
    configuration is in force and why each frame was sent. *)
From Coq Require Import String Lia ZArith.
From stdpp Require Import gmap.
From Verif Require ConnectorModel.
From Verif Require Import Base BaseProofs GuidModel FormatModel FormatSpec FormatProofs CalModel ExprModel TableModel XmlModel XmlSpec.
From Verif Require Import CompactModel CacheModel FrameModel FrameSpec FrameProofs SubscriberModel SubscriberSpec SubscriberProofs SubscriberProofs4 SubscriberProofs5 SubscriberProofs8 SubscriberProofs9.
From Verif Require Import SessionModel SessionSpec SessionProofs.
Open Scope list_scope.
Open Scope Z_scope.

(** ** DataSubscriber *)

Lemma command_frame c d : command_byte (frame c d) = c.
Proof.
  unfold command_byte, frame. rewrite app_nth2; [|rewrite be_put_length; lia]. rewrite be_put_length. reflexivity.
Qed.
Definition low (s : sub) (P : bytes -> Prop) (k : step) : Prop := forall s' ev, k = Ok (s', ev) ->
  good s' /\ connected s' = connected s /\ fixed s' = fixed s /\ Forall P (sent ev) /\ (connected s = false -> sent ev = []).

Lemma low_send s c d : good s -> low s (eq (frame c d)) (send s c d).
Proof.
  intros G s' ev H. pose proof (send_good _ _ _ _ _ G H) as (G' & _). apply send_len in H as (wb & _ & -> & ->); [|apply G].
  split; [exact G'|]. split; [reflexivity|]. split; [reflexivity|]. destruct (connected s); cbn; (split; [|intros; try discriminate; reflexivity]); repeat constructor.
Qed.
Lemma low_Unsubscribe s : good s -> low s (eq (frame 3 [])) (Unsubscribe s).
Proof.
  intros G. unfold Unsubscribe. destruct (_ || _); [|apply low_send, G]. intros s' ev H. injection H as <- <-. repeat split; try apply G; constructor.
Qed.
Lemma be_put_u32 x : be_put 4 (u32 x) = be_put 4 x.
Proof.
  unfold u32. transitivity (be_put 4 (be_val (be_put 4 x))); [rewrite be_val_put; reflexivity|].
  exact (eq_trans (f_equal (fun n => be_put n (be_val (be_put 4 x))) (eq_sym (be_put_length 4 x))) (be_put_val (be_put 4 x) (be_put_ok 4 x))).
Qed.
Lemma subscribe_request_eq st : subscribe_request st = frame 2 (subscribe_payload st).
Proof. unfold subscribe_request, subscribe_payload. rewrite be_put_u32. reflexivity. Qed.
Definition may_subscribe (s : sub) : bool := connected s && ((Version s <? 2) || validated s).
Lemma Subscribe_exact s s' ev : good s -> Subscribe s = Ok (s', ev) ->
  good s' /\ fixed s' = fixed s /\ connected s' = connected s /\ validated s' = validated s /\ subscribed s' = subscribed s /\ measurementRegistry s' = measurementRegistry s /\
  ev = map EvSend (if may_subscribe s then (if subscribed s && validated s then [frame 3 []] else []) ++ [subscribe_request (subscription s)] else []).
Proof.
  intros G H. pose proof (proj1 (Subscribe_good _ _ _ G H)) as G'. split; [exact G'|]. unfold Subscribe in H. unfold may_subscribe.
  destruct (connected s) eqn:C; cbn [negb] in H; [|injection H as <- <-; repeat split; exact C]. cbn [andb].
  destruct ((2 <=? Version s) && negb (validated s)) eqn:V.
  { injection H as <- <-. replace ((Version s <? 2) || validated s) with false by (destruct (validated s); cbn in V |- *; lia). repeat split; exact C. }
  replace ((Version s <? 2) || validated s) with true by (destruct (validated s); cbn in V |- *; lia).
  match type of H with bind ?x _ = _ => destruct x as [[s1 ev1]| |] eqn:X end; try discriminate.
  assert (K : good s1 /\ s1 = set_writeBuffer s (writeBuffer s1) /\ ev1 = map EvSend (if subscribed s && validated s then [frame 3 []] else [])).
  { destruct (subscribed s); cbn [andb].
    - split; [exact (proj1 (Unsubscribe_good _ _ _ G X))|]. unfold Unsubscribe in X. rewrite C in X. cbn [negb orb] in X. destruct (validated s); cbn [negb] in X.
      + apply send_len in X as (wb & _ & -> & ->); [|apply G]. rewrite C. split; reflexivity.
      + injection X as <- <-. split; [destruct s; reflexivity|reflexivity].
    - injection X as <- <-. split; [exact G|]. split; [destruct s; reflexivity|reflexivity]. }
  destruct K as (G1 & E1 & ->). cbn [bind] in H. cbv beta zeta iota in H.
  match type of H with bind ?x _ = _ => destruct x as [[s2 ev2]| |] eqn:Y end; try discriminate.
  cbn [bind] in H. cbv beta zeta iota in H. unfold done in H. injection H as <- <-.
  apply send_len in Y as (wb & _ & -> & ->); [|rewrite E1; exact (proj1 G1)].
  replace (connected (set_measTotal s1 0)) with true by (rewrite E1; symmetry; exact C).
  split; [rewrite E1; reflexivity|]. split; [rewrite E1; exact C|]. split; [rewrite E1; reflexivity|]. split; [rewrite E1; reflexivity|].
  split; [rewrite E1; reflexivity|]. rewrite map_app. f_equal. rewrite subscribe_request_eq. cbn. rewrite E1. reflexivity.
Qed.
Lemma sent_map l : sent (map EvSend l) = l. Proof. induction l as [|a l IH]; cbn; [reflexivity|]. f_equal. exact IH. Qed.
Lemma low_Subscribe s : good s -> low s (fun f => f = frame 3 [] \/ f = subscribe_request (subscription s)) (Subscribe s).
Proof.
  intros G s' ev H. apply Subscribe_exact in H as (H1 & H2 & H3 & _ & _ & _ & ->); [|exact G]. rewrite sent_map.
  split; [exact H1|]. split; [exact H3|]. split; [exact H2|]. split.
  - destruct (may_subscribe s); [|constructor]. destruct (_ && _); cbn [app]; rewrite ?Forall_cons, ?Forall_nil; auto 6.
  - unfold may_subscribe. intros ->. reflexivity.
Qed.
Definition confirms (f : bytes) : Prop := In (command_byte f) [7; 8; 10].
Lemma low_packet e a s p : packet_of a = Some p -> packet_ok a -> cbc_ok e -> good s -> low s confirms (act e s a).
Proof.
  intros E Bp Bc G s' ev H. pose proof (act_good _ _ _ _ _ Bp Bc G H) as (G' & _). pose proof (act_fixed _ _ _ _ _ Bp Bc H) as F.
  pose proof (act_conn _ _ _ _ _ Bp Bc H) as (C & _). split; [exact G'|]. split; [destruct a; try discriminate; exact C|]. split; [exact F|].
  apply (packet_inv _ _ _ _ _ _ E) in H as [(_ & [-> | ->])|(C' & _ & pool & s1 & M & D)]; [split; [constructor|reflexivity]..|].
  split; [|congruence].
  assert (G1 : good s1) by (apply (good_mask s); [|exact G]; change (mask_wb (mask_count s1) = mask_wb (mask_count s)); congruence).
  assert (C1 : connected s1 = true) by (change (connected (mask_count s1) = true); rewrite M; exact C').
  apply dispatch_sent in D; [|exact G1|exact C1]. rewrite D. unfold confirmation, confirms.
  destruct (_ =? 131); [destruct (_ && _); [apply Forall_cons; [rewrite command_frame; cbn; auto|constructor]|constructor]|].
  destruct (_ =? 136); [apply Forall_cons; [rewrite command_frame; cbn; auto|constructor]|].
  destruct (_ =? 137); [apply Forall_cons; [rewrite command_frame; cbn; auto|constructor]|constructor].
Qed.
Definition modes_frame (s : sub) : bytes :=
  frame 6 (be_put 4 (operationalModes (Version s) oe_UTF8 (CompressPayloadData s) (s_UdpDataChannel (subscription s)) (CompressMetadata s) (CompressSignalIndexCache s))).
Lemma establish_exact s s' ev : good s -> establishConnection s = Ok (s', ev) ->
  good s' /\ fixed s' = fixed s /\ connected s' = true /\ validated s' = validated s /\ subscribed s' = subscribed s /\ measurementRegistry s' = measurementRegistry s /\
  connectionRefused s' = connectionRefused s /\ ev = [EvSend (modes_frame s); EvEstablished].
Proof.
  intros G H. pose proof (proj1 (establish_good _ _ _ G H)) as G'. split; [exact G'|]. unfold establishConnection, sendOperationalModes in H. cbv zeta in H.
  match type of H with bind ?x _ = _ => destruct x as [[s1 ev1]| |] eqn:X end; try discriminate. cbn [bind] in H. unfold done in H. injection H as <- <-.
  apply send_len in X as (wb & _ & -> & ->); [|exact (proj1 G)]. repeat split.
Qed.

(** ** Steps of the session *)

Definition sok (I : session -> Prop) (Q : uevent -> Prop) (k : sstep) : Prop := forall s ev, k = Ok (s, ev) -> I s /\ Forall Q ev.
Lemma sok_says (I : session -> Prop) Q ev s : I s -> Forall Q ev -> sok I Q (says ev s).
Proof. intros H1 H2 s' ev' [= <- <-]. auto. Qed.
Lemma sok_quiet (I : session -> Prop) Q s : I s -> sok I Q (quiet s).
Proof. intros H s' ev' [= <- <-]. auto. Qed.
Lemma andthen_inv k f s' ev' : andthen k f = Ok (s', ev') -> exists s1 ev1 ev2, k = Ok (s1, ev1) /\ f s1 = Ok (s', ev2) /\ ev' = ev1 ++ ev2.
Proof.
  unfold andthen. intros H. destruct k as [[s1 ev1]| |]; try discriminate. cbn [bind] in H. destruct (f s1) as [[s2 ev2]| |] eqn:F; try discriminate. cbn [bind] in H. injection H as <- <-. eauto 10.
Qed.
Lemma sok_andthen (I : session -> Prop) Q (J : session -> Prop) k f : sok I Q k -> (forall s, I s -> sok J Q (f s)) -> sok J Q (andthen k f).
Proof.
  intros H1 H2 s ev H. apply andthen_inv in H as (s1 & ev1 & ev2 & K & F & ->). destruct (H1 _ _ K) as (I1 & Q1). destruct (H2 _ I1 _ _ F) as (I2 & Q2).
  split; [exact I2|]. apply Forall_app. auto.
Qed.
Lemma sok_lift (I : session -> Prop) Q s k :
  (forall d ev, k = Ok (d, ev) -> I (with_pending (with_ds s d) (sn_pending s ++ flat_map task_of ev)) /\ Forall Q (flat_map user_event ev)) -> sok I Q (lift s k).
Proof.
  intros H s' ev' K. unfold lift in K. destruct k as [[d ev]| |]; try discriminate. cbn [bind] in K. injection K as <- <-. apply H. reflexivity.
Qed.
Lemma lift_inv s k s' ev' : lift s k = Ok (s', ev') -> exists d ev, k = Ok (d, ev) /\
  s' = with_pending (with_ds s d) (sn_pending s ++ flat_map task_of ev) /\ ev' = flat_map user_event ev.
Proof. unfold lift. destruct k as [[d ev]| |]; try discriminate. cbn [bind]. intros [= <- <-]. eauto. Qed.
Lemma frames_user ev : frames (flat_map user_event ev) = sent ev.
Proof.
  induction ev as [|e ev IH]; [reflexivity|]. cbn [flat_map]. unfold frames in *. rewrite flat_map_app, IH. unfold sent. cbn [flat_map]. f_equal. destruct e; reflexivity.
Qed.
(** Lower events are never dials. *)
Definition on_frames (P : bytes -> Prop) (D : bytes -> Prop) (e : uevent) : Prop :=
  match e with ULow (EvSend f) => P f | UDialing t => D t | _ => True end.
Lemma user_events P D ev : Forall P (sent ev) -> Forall (on_frames P D) (flat_map user_event ev).
Proof.
  induction ev as [|e ev IH]; intros H; [constructor|]. cbn [flat_map]. apply Forall_app. split.
  - destruct e; cbn [user_event]; repeat constructor. cbn in H. inversion H; subst. assumption.
  - apply IH. destruct e; cbn [sent flat_map app] in H; try exact H. inversion H; subst. assumption.
Qed.
Lemma frames_app a b : frames (a ++ b) = frames a ++ frames b. Proof. apply flat_map_app. Qed.
Lemma dialled_app a b : dialled (a ++ b) = dialled a ++ dialled b. Proof. apply flat_map_app. Qed.
Lemma frames_on P D ev : Forall (on_frames P D) ev -> Forall P (frames ev).
Proof. induction 1 as [|e ev H _ IH]; [constructor|]. destruct e as [[]| | | | | | | | | |]; cbn [frames flat_map app]; try exact IH. constructor; [exact H|exact IH]. Qed.
Lemma dialled_on P D ev : Forall (on_frames P D) ev -> Forall D (dialled ev).
Proof. induction 1 as [|e ev H _ IH]; [constructor|]. destruct e; cbn [dialled flat_map app]; try exact IH. constructor; [exact H|exact IH]. Qed.

Lemma srun_cons E s a l s' ev : srun E s (a :: l) = Ok (s', ev) ->
  exists s1 ev1 ev2, sact_step E s a = Ok (s1, ev1) /\ srun E s1 l = Ok (s', ev2) /\ ev = ev1 ++ ev2.
Proof. apply andthen_inv. Qed.
Lemma srun_app E l1 : forall s l2 s' ev, srun E s (l1 ++ l2) = Ok (s', ev) <->
  exists s1 ev1 ev2, srun E s l1 = Ok (s1, ev1) /\ srun E s1 l2 = Ok (s', ev2) /\ ev = ev1 ++ ev2.
Proof.
  induction l1 as [|a l1 IH]; intros s l2 s' ev; cbn [app].
  - split; [intros H; exists s, [], ev; repeat split; exact H|]. intros (s1 & ev1 & ev2 & H1 & H2 & ->). cbn in H1. injection H1 as <- <-. exact H2.
  - split.
    + intros H. apply srun_cons in H as (s0 & e0 & e1 & H0 & H & ->). apply IH in H as (s1 & ev1 & ev2 & H1 & H2 & ->).
      exists s1, (e0 ++ ev1), ev2. split; [cbn [srun]; unfold andthen; rewrite H0; cbn [bind]; rewrite H1; reflexivity|]. split; [exact H2|apply app_assoc].
    + intros (s1 & ev1 & ev2 & H1 & H2 & ->). apply srun_cons in H1 as (s0 & e0 & e1 & H0 & H & ->).
      assert (K : srun E s0 (l1 ++ l2) = Ok (s', e1 ++ ev2)) by (apply IH; eauto 10). cbn [srun]. unfold andthen. rewrite H0. cbn [bind]. rewrite K. cbn [bind]. rewrite app_assoc. reflexivity.
Qed.
Lemma srun_sok E (A : sact -> Prop) (I : session -> Prop) Q : (forall a s, A a -> I s -> sok I Q (sact_step E s a)) ->
  forall l s, Forall A l -> I s -> sok I Q (srun E s l).
Proof.
  intros H. induction l as [|a l IH]; intros s F Is; [apply sok_quiet, Is|]. inversion F; subst. cbn [srun]. apply (sok_andthen I); [apply H; assumption|]. intros s' Is'. apply IH; assumption.
Qed.

(** ** The invariant of a history *)

Definition in_use (s : session) : Prop := connected (sn_ds s) = true \/ sn_reconnecting s = true \/ sn_listening s = true.
Definition config_fields (c : config) := (c_Version c, (c_CompressPayloadData c, c_CompressMetadata c, c_CompressSignalIndexCache c, negb (c_RfcGuidEncoding c))).
Definition sub_fields (d : sub) := (Version d, (CompressPayloadData d, CompressMetadata d, CompressSignalIndexCache d, SwapGuidEndianness d)).
Lemma fixed_fields d d' : fixed d' = fixed d -> sub_fields d' = sub_fields d /\ subscription d' = subscription d.
Proof. unfold fixed, sub_fields. intros [= -> -> -> -> -> ->]. auto. Qed.

Section history.
Context (E : senv) (acts : list sact) (st0 : settings).
Definition dial_target (t : bytes) : Prop := exists a c d host port, In (SDial a c d) acts /\ address_of a host port /\ target_of host port t.
(** The config in force is the default one or was brought; once in use, it was brought. *)
Record inv (s : session) : Prop := Inv {
  i_good : good (sn_ds s);
  i_config : sn_config s = NewConfig \/ brought acts (sn_config s);
  i_used : in_use s -> brought acts (sn_config s) /\ sub_fields (sn_ds s) = config_fields (sn_config s);
  i_target : sn_reconnecting s = true \/ sn_auto s = true -> dial_target (sn_target s);
  i_asked : asked acts st0 (subscription (sn_ds s)) }.
(** Why a frame was sent. *)
Definition reason (f : bytes) : Prop :=
  confirms f \/ f = frame 3 [] \/
  (exists c st, brought acts c /\ asked acts st0 st /\ f = modes_request c (s_UdpDataChannel st)) \/
  (exists c, brought acts c /\ f = metadata_request (c_MetadataFilters c) /\ (c_AutoRequestMetadata c = true \/ In SRequestMetadata acts)) \/
  (exists c st, brought acts c /\ asked acts st0 st /\ f = subscribe_request st /\ (c_AutoSubscribe c = true \/ exists filter u, In (SSubscribe filter u) acts)).
Definition fine : uevent -> Prop := on_frames reason dial_target.

Lemma inv_ds s d : inv s -> good d -> connected d = connected (sn_ds s) -> fixed d = fixed (sn_ds s) -> inv (with_ds s d).
Proof.
  intros [I1 I2 I3 I4 I5] G C F. apply fixed_fields in F as (F1 & F2). constructor; cbn; auto.
  - unfold in_use. cbn. rewrite C. intros U. rewrite F1. apply I3. exact U.
  - rewrite F2. exact I5.
Qed.
Lemma inv_pending s l : inv s -> inv (with_pending s l). Proof. intros [I1 I2 I3 I4 I5]. constructor; auto. Qed.
Lemma inv_details s l : inv s -> inv (with_details s l). Proof. intros [I1 I2 I3 I4 I5]. constructor; auto. Qed.
Lemma inv_lift s k P : inv s -> low (sn_ds s) P k -> (connected (sn_ds s) = true -> forall f, P f -> reason f) -> sok inv fine (lift s k).
Proof.
  intros I L R. apply sok_lift. intros d ev H. destruct (L _ _ H) as (L1 & L2 & L3 & L4 & L5). split; [apply inv_pending, inv_ds; assumption|].
  apply user_events. destruct (connected (sn_ds s)) eqn:C; [|rewrite L5 by reflexivity; constructor]. eapply List.Forall_impl; [|exact L4]. intros f. apply R. reflexivity.
Qed.
Lemma inv_connected s : inv s -> connected (sn_ds s) = true -> brought acts (sn_config s).
Proof. intros I C. apply I. left. exact C. Qed.

Lemma metadata_frame s c ev : send s sc_MetadataRefresh (metadata_payload c) = Ok ev -> good s -> connected s = true -> len c <= 32759.
Proof.
  intros H G C. destruct (Z_le_gt_dec (len c) 32759) as [L|L]; [exact L|exfalso]. unfold send in H. rewrite C in H. rewrite Send_panic in H; [discriminate|exact (proj1 G)|].
  unfold metadata_payload. destruct c; [unfold len in L; cbn in L; lia|]. unfold len in *. rewrite app_length, be_put_length. unfold maxPacketSize. lia.
Qed.
Lemma metadata_request_eq c : len c < 2 ^ 32 -> frame 1 (metadata_payload c) = metadata_request c.
Proof.
  intros L. unfold metadata_request, metadata_payload. destruct c; [reflexivity|]. f_equal. f_equal. f_equal. apply Z.mod_small. unfold len in *. lia.
Qed.
Lemma inv_RequestMetadata s : inv s -> (connected (sn_ds s) = true -> c_AutoRequestMetadata (sn_config s) = true \/ In SRequestMetadata acts) -> sok inv fine (RequestMetadata s).
Proof.
  intros I R s' ev H. unfold RequestMetadata in H. pose proof H as H0. apply lift_inv in H0 as (d & ev1 & K & _).
  revert H. refine (inv_lift s _ _ I (low_send _ _ _ (i_good _ I)) _ s' ev). intros C f <-. right; right; right; left.
  exists (sn_config s). split; [apply inv_connected; assumption|]. split; [|exact (R C)].
  apply metadata_request_eq. pose proof (metadata_frame _ _ _ K (i_good _ I) C). lia.
Qed.
Lemma inv_Subscribe s : inv s -> (connected (sn_ds s) = true -> c_AutoSubscribe (sn_config s) = true \/ exists filter u, In (SSubscribe filter u) acts) -> sok inv fine (lift s (Subscribe (sn_ds s))).
Proof.
  intros I R. refine (inv_lift s _ _ I (low_Subscribe _ (i_good _ I)) _). intros C f [->| ->]; [right; left; reflexivity|]. right; right; right; right.
  exists (sn_config s), (subscription (sn_ds s)). split; [apply inv_connected; assumption|]. split; [apply I|]. split; [reflexivity|]. exact (R C).
Qed.
Lemma inv_handleConnect s : inv s -> sok inv fine (handleConnect s).
Proof.
  intros I. apply (sok_andthen inv); [apply sok_says; [exact I|repeat constructor]|]. clear s I. intros s I.
  destruct (c_AutoRequestMetadata (sn_config s)) eqn:M; [apply inv_RequestMetadata; auto|]. destruct (c_AutoSubscribe (sn_config s)) eqn:A; [apply inv_Subscribe; auto|apply sok_quiet, I].
Qed.
Lemma inv_setup s : inv s -> connected (sn_ds s) = false -> inv (setup s) /\ connected (sn_ds (setup s)) = false.
Proof.
  intros I C. split; [|exact C]. apply inv_details, inv_ds; [exact I|apply I|reflexivity|reflexivity].
Qed.
(** The configuration of a session that is being connected. *)
Definition ready_to (s : session) : Prop := inv s /\ brought acts (sn_config s) /\ sub_fields (sn_ds s) = config_fields (sn_config s).
Lemma inv_established s : ready_to s -> sok inv fine (established s).
Proof.
  intros (I & B & F). apply (sok_andthen inv).
  - apply sok_lift. intros d ev H. apply establish_exact in H as (H1 & H2 & H3 & _ & _ & _ & _ & ->); [|apply I]. apply fixed_fields in H2 as (F1 & F2). split.
    + apply inv_pending. destruct I as [I1 I2 I3 I4 I5]. constructor; cbn; auto; [|rewrite F2; exact I5]. intros _. rewrite F1. auto.
    + cbn [flat_map user_event app]. apply Forall_cons; [|constructor]. cbn. right; right; left. exists (sn_config s), (subscription (sn_ds s)).
      split; [exact B|]. split; [apply I|]. unfold modes_frame, modes_request. unfold sub_fields, config_fields in F. injection F as -> -> -> -> _. reflexivity.
  - clear s I B F. intros s I. destruct (sn_handler s); [apply inv_handleConnect, I|apply sok_quiet, I].
Qed.
Lemma inv_refused s b : inv s -> inv (with_ds s (set_connectionRefused (sn_ds s) b)).
Proof.
  intros I. apply (inv_ds s); [exact I|apply (good_mask (sn_ds s)); [reflexivity|exact (i_good _ I)]|reflexivity|reflexivity].
Qed.
Lemma ready_after s evs : ready_to s -> connected (sn_ds s) = false -> ready_to (after_dials s evs) /\ connected (sn_ds (after_dials s evs)) = false.
Proof.
  intros (I & B & F) C. unfold after_dials. destruct (existsb is_dial evs); [|exact (conj (conj I (conj B F)) C)]. destruct (inv_setup s I C) as (I' & C'). split; [|exact C].
  split; [|split; [exact B|exact F]]. cbv zeta. exact (inv_refused (setup s) false I').
Qed.
Lemma inv_attempt s n : inv s -> inv (with_attempt s n). Proof. intros [I1 I2 I3 I4 I5]. constructor; auto. Qed.
Lemma inv_auto s n : inv s -> dial_target (sn_target s) -> inv (with_auto s n). Proof. intros [I1 I2 I3 I4 I5]. constructor; auto. Qed.
Lemma inv_handler s n : inv s -> inv (with_handler s n). Proof. intros [I1 I2 I3 I4 I5]. constructor; auto. Qed.
Lemma inv_cancel s n : inv s -> inv (with_cancel s n). Proof. intros [I1 I2 I3 I4 I5]. constructor; auto. Qed.
Lemma inv_not_reconnecting s : inv s -> inv (with_reconnecting s false).
Proof. intros [I1 I2 I3 I4 I5]. constructor; auto; cbn; [intros [H|[H|H]]; [apply I3; left; exact H|discriminate|apply I3; right; right; exact H]|]. intros [H|H]; [discriminate|auto]. Qed.
Lemma inv_not_listening s : inv s -> inv (with_listening s false).
Proof. intros [I1 I2 I3 I4 I5]. constructor; auto; cbn. intros [H|[H|H]]; [apply I3; left; exact H|apply I3; right; left; exact H|discriminate]. Qed.
Lemma inv_Disconnect s : inv s -> sok inv fine (Disconnect s).
Proof.
  intros I. apply sok_lift. intros d ev H. unfold disconnect, done in H. injection H as <- <-. split; [|repeat constructor].
  apply inv_pending. assert (J : inv (with_reconnecting (with_cancel (with_listening s false) true) false)) by (apply inv_not_reconnecting, inv_cancel, inv_not_listening, I).
  destruct J as [I1 I2 I3 I4 I5]. constructor; auto. unfold in_use. cbn. intros [H|[H|H]]; discriminate.
Qed.
Lemma seen_fine t evs : dial_target t -> Forall fine (map (seen t) evs).
Proof. intros T. induction evs as [|[] evs IH]; [constructor|..]; (apply Forall_cons; [|exact IH]); [exact T|exact Logic.I]. Qed.

(** Dial, and what it does with an accepted address *)
Lemma not_in_use s : connected (sn_ds s) || sn_listening s = false -> connected (sn_ds s) = false /\ sn_listening s = false.
Proof. apply orb_false_iff. Qed.
Lemma ready_configure s c : inv s -> (exists a, In a acts /\ config_of a = Some c) -> ready_to (configure s c).
Proof.
  intros [I1 I2 I3 I4 I5] (a & A & C).
  assert (B : brought acts (sn_config (configure s c))).
  { unfold configure. destruct c as [c|]; cbn; [left; eauto|]. destruct I2 as [->|I2]; [right; eauto|exact I2]. }
  assert (F : sub_fields (sn_ds (configure s c)) = config_fields (sn_config (configure s c))) by (destruct c; reflexivity).
  split; [|auto]. constructor.
  - destruct c; exact I1.
  - right. exact B.
  - auto.
  - destruct c; exact I4.
  - destruct c; exact I5.
Qed.
Lemma inv_connect s host port dials : ready_to s -> connected (sn_ds s) = false -> (forall t, target_of host port t -> dial_target t) -> 0 <= port < 2 ^ 63 ->
  sok inv fine (session_connect s host port dials).
Proof.
  intros R C T P. unfold session_connect. cbv zeta. set (target := host ++ [58] ++ FormatInt port).
  assert (Tt : dial_target target) by (apply T; exists (FormatInt port); split; [apply FormatInt_port, P|reflexivity]).
  set (s1 := with_connector s _ target).
  assert (R1 : ready_to s1). { destruct R as (I & B & F). split; [|split; [exact B|exact F]]. destruct I as [I1 I2 I3 I4 I5]. constructor; auto. }
  assert (C1 : connected (sn_ds s1) = false) by exact C. assert (T1 : dial_target (sn_target s1)) by exact Tt. clearbody s1. clear R C. destruct (sn_cancel s1).
  - apply sok_says; [apply R1|repeat constructor].
  - set (s2 := if c_AutoReconnect _ then _ else _).
    assert (R2 : ready_to s2) by (unfold s2; destruct (c_AutoReconnect _); [|exact R1]; destruct R1 as (I & B & F); split; [apply inv_auto; [exact I|exact T1]|split; [exact B|exact F]]).
    assert (C2 : connected (sn_ds s2) = false) by (unfold s2; destruct (c_AutoReconnect _); exact C1). clearbody s2. clear R1 C1 T1 s1.
    destruct (ConnectorModel.Connect _ _ _) as [[evs st] a]. destruct (ready_after s2 evs R2 C2) as (R3 & C3).
    apply (sok_andthen ready_to).
    + apply sok_says; [|apply seen_fine, Tt]. destruct R3 as (I & B & F). split; [apply inv_attempt, I|split; [exact B|exact F]].
    + clear s2 R2 C2 R3 C3. intros s9 R. destruct st.
      * apply (sok_andthen inv); [apply (sok_andthen inv); [apply inv_established, R|intros; apply inv_handleConnect; assumption]|]. intros s' I. apply sok_says; [exact I|repeat constructor].
      * apply sok_says; [apply R|repeat constructor].
      * apply (sok_andthen inv); [apply inv_Disconnect, R|]. intros s' I. apply sok_says; [exact I|repeat constructor].
      * apply sok_quiet, R.
Qed.
Lemma inv_Dial s a c dials : In (SDial a c dials) acts -> inv s -> sok inv fine (Dial s a c dials).
Proof.
  intros A I. unfold Dial. destruct (_ || _) eqn:U; [apply sok_says; [exact I|repeat constructor]|]. apply not_in_use in U as (C & L).
  destruct (parse_address a) as [[host port]|] eqn:P; [|apply sok_says; [exact I|repeat constructor]]. apply parse_address_spec in P.
  apply inv_connect.
  - apply ready_configure; [exact I|]. eexists. split; [exact A|reflexivity].
  - destruct c; exact C.
  - intros t T. exists a, c, dials, host, port. auto.
  - destruct P as (text & _ & (d & _ & _ & _ & _ & R)). lia.
Qed.
Lemma inv_Listen s a c ok : In (SListen a c ok) acts -> inv s -> sok inv fine (Listen s a c ok).
Proof.
  intros A I. unfold Listen. destruct (_ || _) eqn:U; [apply sok_says; [exact I|repeat constructor]|]. apply not_in_use in U as (C & L).
  destruct (parse_address a) as [[host port]|] eqn:P; [|apply sok_says; [exact I|repeat constructor]].
  assert (R : ready_to (configure s c)) by (apply ready_configure; [exact I|]; eexists; split; [exact A|reflexivity]).
  destruct R as (I' & B & F). apply sok_says; [|repeat constructor]. destruct ok; [|apply inv_handler, I'].
  destruct I' as [I1 I2 I3 I4 I5]. constructor; auto.
Qed.
Lemma inv_Accept s : inv s -> sok inv fine (Accept s).
Proof.
  intros I. unfold Accept. destruct (sn_listening s) eqn:L; cbn [negb]; [|apply sok_quiet, I]. destruct (connected (sn_ds s)) eqn:C; [apply sok_says; [exact I|repeat constructor]|].
  apply inv_established. destruct (i_used s I) as (B & F); [right; right; exact L|]. split; [apply inv_setup; assumption|]. split; [exact B|exact F].
Qed.
Lemma inv_Lost s : inv s -> sok inv fine (Lost s).
Proof.
  intros I. unfold Lost. destruct (connected (sn_ds s)) eqn:C; cbn [negb]; [|apply sok_quiet, I].
  destruct (i_used s I) as (B & F); [left; exact C|]. intros s' ev H. apply andthen_inv in H as (s1 & ev1 & ev2 & H1 & H2 & ->).
  apply lift_inv in H1 as (d & ev3 & K & -> & ->). unfold disconnect, done in K. injection K as <- <-. unfold quiet in H2. injection H2 as <- <-.
  split; [|repeat constructor]. destruct I as [I1 I2 I3 I4 I5]. constructor; cbn; auto. intros [Q|Q]; [|auto]. apply andb_true_iff in Q as (Q1 & Q2). auto.
Qed.
Lemma inv_Reconnect s cancelled dials : inv s -> sok inv fine (Reconnect s cancelled dials).
Proof.
  intros I. unfold Reconnect. destruct (sn_reconnecting s) eqn:R; cbn [negb orb]; [|apply sok_quiet, I]. destruct (_ || _) eqn:U; [apply sok_quiet, I|]. apply not_in_use in U as (C & L).
  destruct (i_used s I) as (B & F); [right; left; exact R|]. pose proof (i_target s I (or_introl R)) as T.
  destruct (ConnectorModel.reconnect _ _ _ _ _) as [[evs st] a]. destruct (ready_after s evs (conj I (conj B F)) C) as ((I3 & B3 & F3) & C3).
  apply (sok_andthen ready_to).
  - apply sok_says; [|apply seen_fine; unfold after_dials; destruct (existsb _ _); exact T]. split; [apply inv_not_reconnecting, inv_attempt, I3|split; [exact B3|exact F3]].
  - clear - E. intros s R. destruct st.
    + apply (sok_andthen inv); [apply inv_established, R|intros; apply inv_handleConnect; assumption].
    + destruct evs; [apply sok_says; [apply R|repeat constructor]|]. apply (sok_andthen inv); [apply inv_Disconnect, R|]. intros s' I. apply sok_says; [exact I|repeat constructor].
    + apply inv_Disconnect, R.
    + apply sok_quiet, R.
Qed.
Lemma inv_loadMeasurementMetadata s ds : inv s -> sok inv fine (loadMeasurementMetadata E s ds).
Proof.
  intros I. unfold loadMeasurementMetadata. destruct (DataSetTable _ _ _) as [t|]; [|apply sok_says; [exact I|repeat constructor]].
  destruct (-1 <? _); [|apply sok_says; [exact I|repeat constructor]]. intros s' ev H.
  destruct (load_measurements _ _ _ _) as [[reg details]| |]; try discriminate. cbn [bind] in H. revert H. apply sok_quiet. apply inv_details, inv_ds; [exact I|apply I|reflexivity|reflexivity].
Qed.
Lemma inv_showMetadataSummary s ds : inv s -> sok inv fine (showMetadataSummary E s ds).
Proof.
  intros I s' ev H. unfold showMetadataSummary in H. match type of H with bind ?x _ = _ => destruct x as [x0| |] end; try discriminate. cbn [bind] in H. revert H. apply sok_says; [exact I|repeat constructor].
Qed.
Lemma inv_handleMetadata s d : inv s -> sok inv fine (handleMetadataReceived E s d).
Proof.
  intros I s' ev H. unfold handleMetadataReceived in H. match type of H with bind ?x _ = _ => destruct x as [[parsed ds]| |] end; try discriminate. cbn [bind] in H. revert H.
  apply (sok_andthen inv).
  - apply (sok_andthen inv); [destruct parsed; [apply inv_loadMeasurementMetadata, I|apply sok_says; [exact I|repeat constructor]]|]. intros. apply inv_showMetadataSummary. assumption.
  - clear - E. intros s I. apply (sok_andthen inv); [apply sok_says; [exact I|repeat constructor]|]. clear - E. intros s I.
    destruct (c_AutoRequestMetadata (sn_config s)) eqn:M; cbn [andb]; [|apply sok_quiet, I]. destruct (c_AutoSubscribe (sn_config s)) eqn:A; [apply inv_Subscribe; auto|apply sok_quiet, I].
Qed.
Lemma inv_task s k : inv s -> sok inv fine (run_task E s k).
Proof.
  intros I. destruct k as [d| |m]; cbn [run_task].
  - apply inv_handleMetadata, I.
  - apply (sok_andthen inv); [apply sok_says; [exact I|repeat constructor]|]. clear - E. intros s I. destruct (c_AutoRequestMetadata (sn_config s)) eqn:M; [apply inv_RequestMetadata; auto|apply sok_quiet, I].
  - apply sok_says; [exact I|repeat constructor].
Qed.
Lemma carries_of st1 filter u : s_STTPSourceInfo st1 = s_STTPSourceInfo st0 -> s_STTPVersionInfo st1 = s_STTPVersionInfo st0 -> s_STTPUpdatedOnInfo st1 = s_STTPUpdatedOnInfo st0 ->
  carries st0 filter u (subscription_of st1 filter u).
Proof.
  intros H1 H2 H3. unfold carries, subscription_of. cbn. rewrite H1, H2, H3. repeat split; try reflexivity.
  - intros. lia.
  - intros. destruct (0 <? u_UdpPort u) eqn:Q; [reflexivity|lia].
  - intros. lia.
Qed.
Lemma asked_info st : asked acts st0 st -> s_STTPSourceInfo st = s_STTPSourceInfo st0 /\ s_STTPVersionInfo st = s_STTPVersionInfo st0 /\ s_STTPUpdatedOnInfo st = s_STTPUpdatedOnInfo st0.
Proof. intros [->|(f & u & _ & H)]; [auto|]. unfold carries in H. tauto. Qed.
Lemma inv_session_Subscribe s filter u : In (SSubscribe filter u) acts -> inv s -> sok inv fine (session_Subscribe s filter u).
Proof.
  intros A I. unfold session_Subscribe. set (u' := match u with Some u => u | None => NewSettings end). set (s1 := with_ds s _).
  assert (I1 : inv s1).
  { pose proof (asked_info _ (i_asked s I)) as (A1 & A2 & A3). destruct I as [I1 I2 I3 I4 I5]. constructor; auto. right. exists filter, u. split; [exact A|]. change (settings_given u) with u'. apply carries_of; assumption. }
  clearbody s1. destruct (connected (sn_ds s1)) eqn:C; [|apply sok_quiet, I1]. apply inv_Subscribe; [exact I1|]. intros _. right. eauto.
Qed.
Lemma inv_step a s : cbc_ok (se_env E) -> In a acts /\ spacket_ok a -> inv s -> sok inv fine (sact_step E s a).
Proof.
  intros Bc (A & Bp) I. destruct a as [a c d|a c ok| | |cn d|pool p|pool p|f u| | | |i]; cbn [sact_step].
  - apply inv_Dial; assumption.
  - apply inv_Listen; assumption.
  - apply inv_Accept, I.
  - apply inv_Lost, I.
  - apply inv_Reconnect, I.
  - destruct (connected (sn_ds s)) eqn:C; [|apply sok_quiet, I]. apply (inv_lift s _ confirms I); [|intros _ f Q; left; exact Q].
    pose proof (low_packet (se_env E) (APacket pool p) (sn_ds s) p eq_refl Bp Bc (i_good s I)) as Q. cbn [act] in Q. rewrite C in Q. exact Q.
  - destruct (connected (sn_ds s)) eqn:C; [|apply sok_quiet, I]. apply (inv_lift s _ confirms I); [|intros _ f Q; left; exact Q].
    pose proof (low_packet (se_env E) (AUdp pool p) (sn_ds s) p eq_refl Bp Bc (i_good s I)) as Q. cbn [act] in Q. rewrite C in Q. exact Q.
  - apply inv_session_Subscribe; assumption.
  - apply (inv_lift s _ _ I (low_Unsubscribe _ (i_good s I))). intros _ f <-. right; left; reflexivity.
  - apply inv_RequestMetadata; [exact I|]. auto.
  - apply inv_Disconnect, I.
  - destruct (nth_error _ _) as [k|]; [|apply sok_quiet, I]. apply inv_task, inv_pending, I.
Qed.
End history.

Lemma history_inv E st0 acts s ev : history E st0 acts s ev -> inv acts st0 s /\ Forall (fine acts st0) ev.
Proof.
  intros (Bc & Bp & H). revert H.
  apply (srun_sok E (fun a => In a acts /\ spacket_ok a)); [intros a s'; apply inv_step, Bc|rewrite List.Forall_forall in *; auto|].
  constructor.
  - apply new_good.
  - left. reflexivity.
  - intros [H|[H|H]]; discriminate.
  - intros [H|H]; discriminate.
  - left. reflexivity.
Qed.
