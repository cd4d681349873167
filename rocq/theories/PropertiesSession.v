(** The simplified subscriber API (C85 - C90).  [E] stands for the behaviour of other
    packages; [st0] are the subscription settings a new subscriber begins with. *)
From Coq Require Import String Lia ZArith.
From stdpp Require Import gmap.
From Verif Require ConnectorModel.
From Verif Require Import TicksModel TicksSpec SessionProofs8.
From Verif Require Import Base BaseProofs GuidModel FormatModel FormatSpec FormatProofs StrModel CalModel ExprModel TableModel XmlModel XmlSpec.
From Verif Require Import CompactModel CacheModel FrameModel FrameSpec SubscriberModel SubscriberSpec SubscriberProofs SubscriberProofs4 SubscriberProofs5 SubscriberProofs6 SubscriberProofs7 SubscriberProofs8 SubscriberProofs9.
From Verif Require Import SessionModel SessionSpec SessionProofs SessionProofs2 SessionProofs3 SessionProofs4 SessionProofs5 SessionProofs6 SessionProofs7.
From Verif Require Import PropertiesSubscriber PropertiesTable PropertiesXml.
Open Scope list_scope.
Open Scope Z_scope.

(** Neither connected nor listening. *)
Definition idle (s : session) : Prop := connected (sn_ds s) = false /\ sn_listening s = false.
(** For the examples: a document with one table of measurements, metadata is not compressed. *)
Definition ex_tables : list table_def :=
  [TableDef (lit "MeasurementDetail") [(lit "SignalID", DGuid, []); (lit "ID", DString, []); (lit "PointTag", DString, []); (lit "Description", DString, [])]].
Definition ex_records : list record_def :=
  [(lit "MeasurementDetail", [(lit "SignalID", lit "{00000000-0000-0000-0000-000000000007}"); (lit "ID", lit "PPA:12"); (lit "PointTag", lit "first"); (lit "Description", lit "d")]);
   (lit "MeasurementDetail", [(lit "SignalID", lit "00000000-0000-0000-0000-000000000007"); (lit "ID", lit "no key"); (lit "PointTag", lit "second")])].
Definition ex_senv : senv := mkSenv ex_env example_xlib (fun b => match b with [] => None | _ => Some (document (lit "xs") (lit "Set") ex_tables ex_records) end) 3.
Lemma ex_scbc : cbc_ok (se_env ex_senv). Proof. exact ex_cbc. Qed.
Definition ex_config : config := Config (-1) 1000 30000 true true true true true true [] 2 true.
Definition ex_quick : config := Config (-1) 1000 30000 true false true true false true [] 2 true.
Lemma run_to acts (P : session -> list uevent -> Prop) : Forall spacket_ok acts -> match srun ex_senv (NewSubscriber ex_set) acts with Ok (s, ev) => P s ev | _ => False end ->
  exists s ev, history ex_senv ex_set acts s ev /\ P s ev.
Proof. intros B H. destruct (srun _ _ _) as [[s ev]| |] eqn:R; try contradiction. exists s, ev. split; [|exact H]. split; [exact ex_scbc|]. split; [exact B|exact R]. Qed.
Ltac runs := apply run_to; [repeat constructor; cbn; lia|vm_compute; repeat split; try discriminate].

(** ** C85: addresses *)

(** Dial goes nowhere but to the host and port of its address. *)
Theorem C85_targets : forall E st0 acts s ev t, history E st0 acts s ev -> In t (dialled ev) ->
  exists a c dials host port, In (SDial a c dials) acts /\ address_of a host port /\ target_of host port t.
Proof.
  intros E st0 acts s ev t H I. apply history_inv in H as (_ & F). apply dialled_on in F. rewrite List.Forall_forall in F. exact (F t I).
Qed.
Print Assumptions C85_targets.

(** Any other text is refused by Dial and by Listen and changes nothing. *)
Theorem C85_bad_address : forall s a, (forall host port, ~ address_of a host port) ->
  (forall c dials, Dial s a c dials = Ok (s, [UReturn false])) /\ (forall c ok, Listen s a c ok = Ok (s, [UReturn false])).
Proof.
  intros s a N. apply parse_address_none in N. split; [intros c dials; unfold Dial|intros c ok; unfold Listen]; rewrite N; destruct (_ || _); reflexivity.
Qed.
Print Assumptions C85_bad_address.

(** A subscriber that is connected or listening refuses Dial and Listen, and nothing changes. *)
Theorem C85_busy : forall s, ~ idle s ->
  (forall a c dials, Dial s a c dials = Ok (s, [UReturn false])) /\ (forall a c ok, Listen s a c ok = Ok (s, [UReturn false])).
Proof.
  intros s N. assert (B : connected (sn_ds s) || sn_listening s = true) by (unfold idle in N; destruct (connected (sn_ds s)), (sn_listening s); try reflexivity; contradiction N; auto).
  split; [intros a c dials; unfold Dial|intros a c ok; unfold Listen]; rewrite B; reflexivity.
Qed.
Print Assumptions C85_busy.

(** Otherwise Listen listens; it fails only when the operating system refuses. *)
Theorem C85_listen : forall s a host port c ok, idle s -> address_of a host port ->
  exists s', Listen s a c ok = Ok (s', [UReturn ok]) /\ sn_listening s' = ok.
Proof.
  intros s a host port c ok (C & L) A. apply parse_address_spec in A. unfold Listen. rewrite C, L, A. cbn [orb]. eexists. split; [reflexivity|]. destruct ok; [reflexivity|]. destruct c; exact L.
Qed.
Print Assumptions C85_listen.

(** An address names one host and one port. *)
Theorem C85_address_unique : forall a h1 p1 h2 p2, address_of a h1 p1 -> address_of a h2 p2 -> h1 = h2 /\ p1 = p2.
Proof. intros a h1 p1 h2 p2 A B. apply parse_address_spec in A, B. rewrite A in B. injection B as -> ->. auto. Qed.
Print Assumptions C85_address_unique.

(** A host with a colon, such as an IPv6 address, is accepted in brackets but dialled
    without them; net.Dial cannot read such a target. *)
Theorem C85_ipv6_refuted : forall E st0 acts s ev t, history E st0 acts s ev -> In t (dialled ev) ->
  exists a c dials host port, In (SDial a c dials) acts /\ address_of a host port /\ (In colon host -> forall h p, ~ host_port t h p).
Proof.
  intros E st0 acts s ev t H I. destruct (C85_targets _ _ _ _ _ _ H I) as (a & c & dials & host & port & A & B & (digits & _ & ->)). exists a, c, dials, host, port. split; [exact A|]. split; [exact B|].
  intros C h p. apply colon_host_unreachable; [exact C|]. destruct B as (text & (_ & [(N & _)|(N & _)]) & _); intros O; apply (N _ O); cbn; auto.
Qed.
Print Assumptions C85_ipv6_refuted.

Example C85_nonvacuous :
  address_of (str "localhost:7175") (str "localhost") 7175 /\ address_of (str "[::1]:80") (str "::1") 80 /\ (forall h p, ~ address_of (str "localhost:0") h p) /\
  exists s ev, history ex_senv ex_set [SDial (str "[::1]:80") (Some ex_config) [ConnectorModel.Accepts]] s ev /\ dialled ev = [str "::1:80"].
Proof.
  split; [apply parse_address_spec; reflexivity|]. split; [apply parse_address_spec; reflexivity|]. split; [apply parse_address_none; reflexivity|]. runs.
Qed.

(** ** C86: the first messages of a connection *)

(** The first connection of a subscriber that Dial makes: the operational modes, then
    the metadata request or else the subscription request, as configured. *)
Theorem C86_first_dial : forall E st0 acts s ev a c dials s' ev', history E st0 acts s ev -> (forall x, In x acts -> config_of x = None /\ x <> SDisconnect) ->
  Dial s a c dials = Ok (s', ev') -> returned ev' = [true] ->
  exists st, asked acts st0 st /\ frames ev' = startup (match c with Some c => c | None => NewConfig end) st true /\ connects ev' = 1%nat.
Proof.
  intros E st0 acts s ev a c dials s' ev' H N D R. pose proof (proj1 (history_inv _ _ _ _ _ H)) as I.
  assert (Hn : sn_handler s = false) by (apply (history_handler _ _ _ _ _ H); intros x c' ok IN; destruct (N _ IN) as (X & _); discriminate).
  pose proof (history_fresh _ _ _ _ _ H N) as (_ & V & _). destruct H as (_ & _ & H). assert (Cf : sn_config s = NewConfig) by (apply (config_kept E acts (NewSubscriber st0) s ev); [intros x IN; apply N, IN|exact H]).
  apply Dial_startup in D as (F & K); [|apply I|exact Hn|exact R]. exists (subscription (sn_ds s)). split; [apply I|]. rewrite V, orb_true_r, Cf in F. destruct c; split; assumption.
Qed.
Print Assumptions C86_first_dial.

(** Every later connection that Dial makes, if Listen was never called: the same, but a
    subscription request without metadata request may be left out. *)
Theorem C86_dial : forall E st0 acts s ev a c dials s' ev', history E st0 acts s ev -> (forall x c ok, ~ In (SListen x c ok) acts) ->
  Dial s a (Some c) dials = Ok (s', ev') -> returned ev' = [true] ->
  exists st ready, asked acts st0 st /\ frames ev' = startup c st ready /\ connects ev' = 1%nat /\ (c_Version c < 2 -> ready = true).
Proof.
  intros E st0 acts s ev a c dials s' ev' H N D R. pose proof (proj1 (history_inv _ _ _ _ _ H)) as I. apply Dial_startup in D as (F & K); [|apply I|apply (history_handler _ _ _ _ _ H N)|exact R].
  exists (subscription (sn_ds s)), ((c_Version c <? 2) || validated (sn_ds s)). split; [apply I|]. split; [exact F|]. split; [exact K|]. intros V. apply orb_true_iff. left. lia.
Qed.
Print Assumptions C86_dial.

(** Reconnecting: with the configuration of the last Dial. *)
Theorem C86_reconnect : forall E st0 l1 s1 ev1 a c dials host port l2 s ev cn dials' s' ev',
  history E st0 l1 s1 ev1 -> idle s1 -> address_of a host port -> history E st0 (l1 ++ SDial a (Some c) dials :: l2) s ev ->
  (forall x, In x l2 -> config_of x = None) -> (forall x c ok, ~ In (SListen x c ok) l1) ->
  Reconnect s cn dials' = Ok (s', ev') -> (0 < connects ev')%nat ->
  exists st ready, asked (l1 ++ SDial a (Some c) dials :: l2) st0 st /\ frames ev' = startup c st ready /\ connects ev' = 1%nat /\ (c_Version c < 2 -> ready = true).
Proof.
  intros E st0 l1 s1 ev1 a c dials host port l2 s ev cn dials' s' ev' H1 (C1 & L1) A H N NL D R. pose proof (proj1 (history_inv _ _ _ _ _ H)) as I.
  assert (Cf : sn_config s = c).
  { destruct H as (_ & _ & H). destruct H1 as (_ & _ & H1). apply srun_app in H as (s0 & e1 & e2 & H & H2 & ->). rewrite H1 in H. injection H as <- <-. apply srun_cons in H2 as (s2 & e3 & e4 & H2 & H3 & ->).
    apply (config_set E s1 a c dials s2 e3 host port C1 L1 A) in H2. apply config_kept in H3; [|exact N]. congruence. }
  assert (Hn : sn_handler s = false).
  { apply (history_handler _ _ _ _ _ H). intros x c' ok IN. apply in_app_or in IN as [IN|[IN|IN]]; [exact (NL _ _ _ IN)|discriminate|]. specialize (N _ IN). discriminate. }
  assert (U : sn_reconnecting s = true) by (unfold Reconnect in D; destruct (sn_reconnecting s); [reflexivity|injection D as <- <-; cbn in R; lia]).
  destruct (i_used _ _ _ I) as (_ & F); [right; left; exact U|]. apply Reconnect_startup in D as (Fr & K); [|apply I|exact F|exact Hn|exact R].
  rewrite Cf in F, Fr. exists (subscription (sn_ds s)), (may s). split; [apply I|]. split; [exact Fr|]. split; [exact K|].
  intros V. unfold may. injection F as F _ _ _ _. rewrite F. apply orb_true_iff. left. lia.
Qed.
Print Assumptions C86_reconnect.

(** A publisher that connects to a listening subscriber is sent the same. *)
Theorem C86_accept : forall E st0 acts s ev a host port c s1 ev1 s' ev', history E st0 acts s ev -> idle s -> address_of a host port ->
  Listen s a (Some c) true = Ok (s1, ev1) -> Accept s1 = Ok (s', ev') ->
  exists st ready, asked acts st0 st /\ frames ev' = startup c st ready /\ connects ev' = 1%nat /\ (c_Version c < 2 -> ready = true).
Proof.
  intros E st0 acts s ev a host port c s1 ev1 s' ev' H (C & L) A HL HA. pose proof (proj1 (history_inv _ _ _ _ _ H)) as I. apply parse_address_spec in A.
  unfold Listen in HL. rewrite C, L, A in HL. cbn [orb] in HL. unfold says in HL. injection HL as <- <-.
  assert (K : exists s1, with_listening (with_handler (configure s (Some c)) true) true = s1 /\ good (sn_ds s1) /\ sub_fields (sn_ds s1) = config_fields (sn_config s1) /\ sn_handler s1 = true /\ sn_listening s1 = true /\ connected (sn_ds s1) = false /\
    sn_config s1 = c /\ subscription (sn_ds s1) = subscription (sn_ds s) /\ Version (sn_ds s1) = c_Version c).
  { eexists. split; [reflexivity|]. split; [exact (i_good _ _ _ I)|]. split; [reflexivity|]. split; [reflexivity|]. split; [reflexivity|]. split; [exact C|]. split; [reflexivity|]. split; reflexivity. }
  destruct K as (s1 & E1 & K1 & K2 & K3 & K4 & K5 & K6 & K7 & K8). rewrite E1 in HA. apply Accept_startup in HA as (F & K); try assumption. rewrite K6, K7 in F.
  exists (subscription (sn_ds s)), (may s1). split; [apply I|]. split; [exact F|]. split; [exact K|]. intros V. unfold may. rewrite K8. apply orb_true_iff. left. lia.
Qed.
Print Assumptions C86_accept.

(** Received metadata is followed by the subscription request exactly if both automatic
    steps are configured and the subscriber is connected and may subscribe. *)
Theorem C86_after_metadata : forall E s d s' ev, reached E s -> handleMetadataReceived E s d = Ok (s', ev) ->
  frames ev = if c_AutoRequestMetadata (sn_config s) && c_AutoSubscribe (sn_config s) && connected (sn_ds s) && ((Version (sn_ds s) <? 2) || validated (sn_ds s))
              then (if subscribed (sn_ds s) && validated (sn_ds s) then [frame 3 []] else []) ++ [subscribe_request (subscription (sn_ds s))] else [].
Proof. intros E s d s' ev (st0 & acts & ev0 & H) K. apply history_inv in H as (I & _). apply handle_steps in K as (ds & _ & _ & F); [exact F|apply I]. Qed.
Print Assumptions C86_after_metadata.

(** Nothing else is ever sent: every frame of a history is a confirmation of received
    data, an unsubscription, operational modes, a metadata request or a subscription
    request, and for the last two there is a call or a configuration that asks for it. *)
Theorem C86_frames : forall E st0 acts s ev f, history E st0 acts s ev -> In f (frames ev) ->
  In (command_byte f) [7; 8; 10] \/ f = frame 3 [] \/
  (exists c st, brought acts c /\ asked acts st0 st /\ f = modes_request c (s_UdpDataChannel st)) \/
  (exists c, brought acts c /\ f = metadata_request (c_MetadataFilters c) /\ (c_AutoRequestMetadata c = true \/ In SRequestMetadata acts)) \/
  (exists c st, brought acts c /\ asked acts st0 st /\ f = subscribe_request st /\ (c_AutoSubscribe c = true \/ exists filter u, In (SSubscribe filter u) acts)).
Proof. intros E st0 acts s ev f H I. apply history_inv in H as (_ & F). apply frames_on in F. rewrite List.Forall_forall in F. exact (F f I). Qed.
Print Assumptions C86_frames.

(** After a connection was lost, a subscriber of version 2 that is to subscribe without
    metadata does not subscribe. *)
Theorem C86_resubscribe_refuted : exists E st0 acts s ev s' ev', history E st0 acts s ev /\ Reconnect s false [ConnectorModel.Accepts] = Ok (s', ev') /\
  c_AutoSubscribe (sn_config s) = true /\ connected (sn_ds s') = true /\ frames ev' = [modes_request (sn_config s) false].
Proof.
  destruct (run_to [SDial (str "a:1") (Some ex_quick) [ConnectorModel.Accepts]; SLost] (fun s _ => match Reconnect s false [ConnectorModel.Accepts] with
    | Ok (s', ev') => c_AutoSubscribe (sn_config s) = true /\ connected (sn_ds s') = true /\ frames ev' = [modes_request (sn_config s) false] | _ => False end)) as (s & ev & H & K); [repeat constructor|vm_compute; repeat split|].
  destruct (Reconnect _ _ _) as [[s' ev']| |] eqn:R; try contradiction. exists ex_senv, ex_set, [SDial (str "a:1") (Some ex_quick) [ConnectorModel.Accepts]; SLost], s, ev, s', ev'. split; [exact H|]. split; [exact R|exact K].
Qed.
Print Assumptions C86_resubscribe_refuted.

(** After a Listen that failed, Dial announces the connection twice and requests the
    metadata twice. *)
Theorem C86_twice_refuted : exists E st0 s ev, history E st0 [SListen (str ":1") (Some ex_config) false; SDial (str "a:1") (Some ex_config) [ConnectorModel.Accepts]] s ev /\
  connects ev = 2%nat /\ frames ev = [modes_request ex_config false; metadata_request []; metadata_request []].
Proof. exists ex_senv, ex_set. runs. Qed.
Print Assumptions C86_twice_refuted.

Example C86_nonvacuous :
  (exists s ev, history ex_senv ex_set [SDial (str "a:1") (Some ex_quick) [ConnectorModel.Fails false; ConnectorModel.Accepts]] s ev /\
    dialled ev = [str "a:1"; str "a:1"] /\ returned ev = [true] /\ frames ev = [modes_request ex_quick false; subscribe_request ex_set]) /\
  (exists s ev, history ex_senv ex_set [SListen (str ":1") (Some ex_config) true; SAccept; SPacket None [0x80; 6; 0; 0; 0; 0]; SPacket None [0x80; 1; 0; 0; 0; 0; 9]; STask 0] s ev /\
    frames ev = [modes_request ex_config false; metadata_request []; subscribe_request ex_set] /\ length (metadata_seen ev) = 1%nat).
Proof. split; runs. Qed.

(** ** C87: connecting again *)

(** As long as Disconnect is not called and the number of retries is not limited, Dial
    dials until the publisher accepts. *)
Theorem C87_dial_partial : forall E st0 acts s ev a host port t c n s' ev', history E st0 acts s ev -> (forall x, In x acts -> undisturbed x) -> idle s ->
  address_of a host port -> target_of host port t -> c_MaxRetries c = -1 ->
  Dial s a (Some c) (repeat (ConnectorModel.Fails false) n ++ [ConnectorModel.Accepts]) = Ok (s', ev') ->
  dialled ev' = repeat t (S n) /\ returned ev' = [true] /\ connected (sn_ds s') = true.
Proof.
  intros E st0 acts s ev a host port t c n s' ev' H U (C & L) A T M D. pose proof (proj1 (history_inv _ _ _ _ _ H)) as I.
  exact (Dial_free s a host port t c n s' ev' (i_good _ _ _ I) (history_free _ _ _ _ _ H U) C L A T M D).
Qed.
Print Assumptions C87_dial_partial.

(** But after Disconnect a subscriber never dials again: each Dial fails at once. *)
Theorem C87_after_disconnect_refuted : forall E st0 l1 l2 s ev, history E st0 (l1 ++ SDisconnect :: l2) s ev ->
  (exists ev1 ev2, ev = ev1 ++ ev2 /\ (exists s1, history E st0 l1 s1 ev1) /\ dialled ev2 = []) /\
  forall a c dials s' ev', Dial s a c dials = Ok (s', ev') -> ev' = [UReturn false].
Proof.
  intros E st0 l1 l2 s ev (Bc & Bp & H). apply Forall_app in Bp as (Bp & _). apply after_disconnect in H as (ev1 & ev2 & -> & (s1 & H1) & N & (J & _)). split.
  - exists ev1, ev2. split; [reflexivity|]. split; [exists s1; split; [exact Bc|split; [exact Bp|exact H1]]|exact N].
  - intros a c dials s' ev' D. apply Dial_cancelled in D as (-> & _); [reflexivity|exact J].
Qed.
Print Assumptions C87_after_disconnect_refuted.

(** And after a Dial that gave up, the next Dial with as many retries gives up at once,
    without dialling. *)
Theorem C87_second_dial_refuted : forall s a c dials s1 ev1 a2 c2 dials2 s2 ev2, Dial s a (Some c) dials = Ok (s1, ev1) -> dialled ev1 <> [] -> returned ev1 = [false] ->
  c_MaxRetries c2 = c_MaxRetries c -> Dial s1 a2 (Some c2) dials2 = Ok (s2, ev2) -> ev2 = [UReturn false].
Proof.
  intros s a c dials s1 ev1 a2 c2 dials2 s2 ev2 D1 N R M D2. destruct (Dial_again _ _ _ _ _ _ D1 N R) as [J|J]; [apply Dial_cancelled in D2 as (-> & _); [reflexivity|exact J]|].
  rewrite <- M in J. exact (Dial_gives_up _ _ _ _ _ _ J D2).
Qed.
Print Assumptions C87_second_dial_refuted.

(** Listening goes on to work: C85_listen and C86_accept hold after Disconnect too. *)
Example C87_nonvacuous :
  (exists s ev, history ex_senv ex_set [SSubscribe (str "F") None; SDial (str "a:1") (Some ex_config) [ConnectorModel.Accepts]; SLost] s ev /\ (forall x, In x [SSubscribe (str "F") None; SDial (str "a:1") (Some ex_config) [ConnectorModel.Accepts]; SLost] -> undisturbed x) /\ idle s) /\
  (exists s ev, history ex_senv ex_set [SDisconnect; SDial (str "a:1") (Some ex_config) [ConnectorModel.Accepts]; SListen (str ":1") (Some ex_config) true; SAccept] s ev /\ dialled ev = [] /\ returned ev = [false; true] /\ connected (sn_ds s) = true) /\
  (exists s ev, let c := Config 1 1000 30000 true true true true true true [] 2 true in
     history ex_senv ex_set [SDial (str "a:1") (Some c) [ConnectorModel.Fails false; ConnectorModel.Fails false]; SDial (str "a:1") (Some c) [ConnectorModel.Accepts]] s ev /\ length (dialled ev) = 2%nat /\ returned ev = [false; false]).
Proof.
  split; [|split]; [|runs|cbv zeta; runs].
  apply (run_to _ (fun s _ => (forall x, In x _ -> undisturbed x) /\ idle s)); [repeat constructor|]. match goal with |- match ?r with _ => _ end => assert (K : match r with Ok (s, _) => idle s | _ => False end) by (vm_compute; split; reflexivity); destruct r as [[s ev]| |]; try contradiction end.
  split; [|exact K]. intros x [<-|[<-|[<-|[]]]]; cbn; auto. split; [intros d [<-|[]]; discriminate|]. eexists. split; reflexivity.
Qed.

(** ** C88: what is known of the signals *)

(** A received document is parsed and handed to the user; what is known of each signal
    afterwards is what the document's table of measurements says of it, on top of what
    was known. *)
Theorem C88_metadata : forall E s d s' ev, reached E s -> handleMetadataReceived E s d = Ok (s', ev) ->
  exists ds, metadata_seen ev = [ds] /\
    ((ParseXml (se_xlib E) NewDataSet (se_decode E d) = Ok ds /\
      match DataSetTable (se_xlib E) ds (lit "MeasurementDetail") with
      | Some t => (has_column E t "SignalID" /\ forall g, record_after E t g (MetadataOf s g) (MetadataOf s' g)) \/ (~ has_column E t "SignalID" /\ forall g, MetadataOf s' g = MetadataOf s g)
      | None => forall g, MetadataOf s' g = MetadataOf s g
      end) \/
     (ParseXml (se_xlib E) NewDataSet (se_decode E d) = Err /\ ds = NewDataSet /\ forall g, MetadataOf s' g = MetadataOf s g)).
Proof.
  intros E s d s' ev (st0 & acts & ev0 & H) K. apply history_inv in H as (I & _). apply handle_steps in K as (ds & M & D & _); [|apply I]. exists ds. split; [exact M|]. exact D.
Qed.
Print Assumptions C88_metadata.

(** Every data set the user is handed is the content of a metadata packet that was
    received, and none is handed over twice. *)
Theorem C88_delivery : forall E st0 acts s ev, history E st0 acts s ev ->
  (forall ds, In ds (metadata_seen ev) -> exists m, received_metadata E acts m /\ shown E m ds) /\
  (length (metadata_seen ev) <= length (List.filter metadata_packet acts))%nat.
Proof. intros E st0 acts s ev H. split; [intros ds; exact (history_source _ _ _ _ _ ds H)|]. pose proof (history_count _ _ _ _ _ H). lia. Qed.
Print Assumptions C88_delivery.

(** An accepted packet starts exactly the callbacks its code stands for. *)
Theorem C88_callbacks : forall E st0 acts s ev a p s' ev', history E st0 acts s ev -> (exists pool, a = SPacket pool p \/ a = SUdp pool p) -> bytes_ok p -> sact_step E s a = Ok (s', ev') ->
  sn_pending s' = sn_pending s \/ sn_pending s' = sn_pending s ++ callbacks E (CompressMetadata (sn_ds s)) p.
Proof.
  intros E st0 acts s ev a p s' ev' H (pool & A) B K. pose proof (proj1 (history_inv _ _ _ _ _ H)) as I. destruct H as (Bc & _).
  assert (P : is_packet a = Some p /\ spacket_ok a) by (destruct A as [-> | ->]; split; [reflexivity|exact B|reflexivity|exact B]).
  exact (proj2 (proj2 (packet_step E a s p s' ev' (proj1 P) (proj2 P) Bc (i_good _ _ _ I) K))).
Qed.
Print Assumptions C88_callbacks.

(** However a connection comes about (Dial, an accepted connection, a reconnection),
    nothing is known of any signal then. *)
Theorem C88_fresh : forall E st0 acts s ev a s' ev', history E st0 acts s ev -> sact_step E s a = Ok (s', ev') -> connected (sn_ds s) = false -> connected (sn_ds s') = true ->
  forall g, MetadataOf s' g = (([], 0), no_detail).
Proof. exact fresh_known. Qed.
Print Assumptions C88_fresh.

(** The data start time is given as the Unix time of the ticks that were sent. *)
Theorem C88_start_time : forall E st0 acts s ev pool cmd unused t x, history E st0 acts s ev -> connected (sn_ds s) = true -> validated (sn_ds s) = true -> length unused = 4%nat ->
  0 <= t < 2 ^ 64 -> epoch_ticks <= t mod 2 ^ 62 -> (t mod 2 ^ 62 - epoch_ticks) * 100 < 2 ^ 63 ->
  exists s', sact_step E s (SPacket pool (response 0x86 cmd unused (be_put 8 t ++ x))) = Ok (s', [UStartTime ((t mod 2 ^ 62 - epoch_ticks) * 100)]).
Proof. exact start_time_seen. Qed.
Print Assumptions C88_start_time.

(** Metadata comes, the connection is lost, and the new connection knows nothing of it. *)
Example C88_nonvacuous_fresh : exists s ev, history ex_senv ex_set [SDial (str "a:1") (Some ex_config) [ConnectorModel.Accepts]; SPacket None [0x80; 1; 0; 0; 0; 0; 9]; STask 0; SLost] s ev /\
  connected (sn_ds s) = false /\ MetadataOf s (guid_of 7) = ((str "PPA", 12), Detail (str "second") [] [] [] zero_time) /\
  match sact_step ex_senv s (SReconnect false [ConnectorModel.Accepts]) with Ok (s', _) => connected (sn_ds s') | _ => false end = true.
Proof. runs. Qed.

Example C88_nonvacuous : exists s ev, history ex_senv ex_set [SDial (str "a:1") (Some ex_config) [ConnectorModel.Accepts]; SPacket None [0x80; 1; 0; 0; 0; 0; 9]; STask 0] s ev /\
  MetadataOf s (guid_of 7) = ((str "PPA", 12), Detail (str "second") [] [] [] zero_time) /\ length (metadata_seen ev) = 1%nat.
Proof. runs. Qed.

(** ** C89: the settings of Subscribe *)

(** From a call of Subscribe until the next, every subscription request carries exactly
    its settings; nil stands for the defaults. *)
Theorem C89_in_force : forall E st0 l1 filter u l2 s ev, history E st0 (l1 ++ SSubscribe filter u :: l2) s ev -> (forall f u, ~ In (SSubscribe f u) l2) ->
  exists s1 ev1 ev2 st, history E st0 l1 s1 ev1 /\ ev = ev1 ++ ev2 /\ carries st0 filter (settings_given u) st /\
    forall f, In f (frames ev2) -> command_byte f = 2 -> f = subscribe_request st.
Proof.
  intros E st0 l1 filter u l2 s ev H N. destruct (history_in_force _ _ _ _ _ _ _ _ H N) as (s1 & ev1 & ev2 & H1 & -> & C & F). exists s1, ev1, ev2, (subscription (sn_ds s)). split; [exact H1|]. split; [reflexivity|]. split; [exact C|].
  rewrite List.Forall_forall in F. exact F.
Qed.
Print Assumptions C89_in_force.

(** These settings leave nothing open in the request. *)
Theorem C89_request_unique : forall st0 filter u st st', carries st0 filter u st -> carries st0 filter u st' -> subscribe_request st = subscribe_request st'.
Proof. intros st0 filter u st st' A B. rewrite !subscribe_request_eq. rewrite (carries_payload _ _ _ _ _ A B). reflexivity. Qed.
Print Assumptions C89_request_unique.

(** Subscribe on a connection whose publisher has accepted the operational modes sends
    that request at once, after an unsubscription if there was a subscription. *)
Theorem C89_sent_partial : forall E st0 acts s ev filter u s' ev', history E st0 acts s ev -> session_Subscribe s filter u = Ok (s', ev') -> connected (sn_ds s) = true -> (Version (sn_ds s) < 2 \/ validated (sn_ds s) = true) ->
  exists st, carries st0 filter (settings_given u) st /\ frames ev' = (if subscribed (sn_ds s) && validated (sn_ds s) then [frame 3 []] else []) ++ [subscribe_request st].
Proof.
  intros E st0 acts s ev filter u s' ev' H K C V. pose proof (proj1 (history_inv _ _ _ _ _ H)) as I. pose proof (asked_info _ _ _ (i_asked _ _ _ I)) as (A1 & A2 & A3).
  unfold session_Subscribe in K. cbv zeta in K. fold (settings_given u) in K. set (st := subscription_of _ _ _) in K. exists st. split; [apply carries_of; assumption|].
  set (s1 := with_ds s _) in K. change (connected (sn_ds s1)) with (connected (sn_ds s)) in K. rewrite C in K. apply Subscribe_frames in K as (_ & _ & _ & F); [|exact (i_good _ _ _ I)|exact C]. rewrite F.
  assert (M : may s1 = true) by (unfold may; apply orb_true_iff; destruct V as [V|V]; [left; change (Version (sn_ds s) <? 2 = true); lia|right; exact V]). rewrite M. reflexivity.
Qed.
Print Assumptions C89_sent_partial.

(** Before that, a call on a connection is dropped without any message. *)
Theorem C89_dropped_refuted : exists E st0 acts s ev s' ev', history E st0 acts s ev /\ connected (sn_ds s) = true /\ session_Subscribe s (str "F") None = Ok (s', ev') /\ ev' = [].
Proof.
  set (acts := [SDial (str "a:1") (Some ex_config) [ConnectorModel.Accepts]; SLost; SReconnect false [ConnectorModel.Accepts]]).
  destruct (run_to acts (fun s _ => match session_Subscribe s (str "F") None with Ok (s', ev') => connected (sn_ds s) = true /\ ev' = [] | _ => False end)) as (s & ev & H & K); [repeat constructor|vm_compute; repeat split|].
  destruct (session_Subscribe _ _ _) as [[s' ev']| |] eqn:R; try contradiction. exists ex_senv, ex_set, acts, s, ev, s', ev'. split; [exact H|]. split; [exact (proj1 K)|]. split; [exact R|exact (proj2 K)].
Qed.
Print Assumptions C89_dropped_refuted.

Definition ex_usettings : usettings := USettings true (str "2.000000") 9600 true false (str "10.000000") (str "5.000000") false false false [] [] [] (-1) [].
Example C89_nonvacuous : exists s ev, history ex_senv ex_set [SSubscribe (str "F") (Some ex_usettings); SDial (str "a:1") (Some ex_quick) [ConnectorModel.Accepts]] s ev /\
  exists st, carries ex_set (str "F") ex_usettings st /\ frames ev = [modes_request ex_quick true; subscribe_request st].
Proof.
  destruct (run_to [SSubscribe (str "F") (Some ex_usettings); SDial (str "a:1") (Some ex_quick) [ConnectorModel.Accepts]] (fun s ev => frames ev = [modes_request ex_quick true; subscribe_request (subscription_of ex_set (str "F") ex_usettings)])) as (s & ev & H & K); [repeat constructor|vm_compute; reflexivity|].
  exists s, ev. split; [exact H|]. exists (subscription_of ex_set (str "F") ex_usettings). split; [apply carries_of; reflexivity|exact K].
Qed.

(** ** C90: the configuration *)

(** With automatic reconnection switched off in every configuration, a lost connection
    stays lost. *)
Theorem C90_no_reconnect_partial : forall E st0 acts s ev cn dials, history E st0 acts s ev -> configured (fun c => c_AutoReconnect c = false) acts -> Reconnect s cn dials = Ok (s, []).
Proof.
  intros E st0 acts s ev cn dials (_ & _ & H) N.
  assert (J : never_auto s).
  { refine (proj1 (srun_sok E (some_config (fun c => c_AutoReconnect c = false)) never_auto (fun _ => True) (fun a s => never_auto_step E a s) acts (NewSubscriber st0) _ (conj eq_refl eq_refl) s ev H)).
    rewrite List.Forall_forall. intros a A c K. exact (N a c A K). }
  unfold Reconnect. rewrite (proj2 J). reflexivity.
Qed.
Print Assumptions C90_no_reconnect_partial.

(** Once switched on it stays on: a Dial that switches it off does not. *)
Theorem C90_sticky_refuted : exists E st0 s ev,
  let on := Config 0 1000 30000 true true true true true true [] 2 true in
  let off := Config (-1) 1000 30000 false true true true true true [] 2 true in
  history E st0 [SDial (str "a:1") (Some on) []; SDial (str "a:1") (Some off) [ConnectorModel.Accepts]; SLost; SReconnect false [ConnectorModel.Accepts]] s ev /\
  returned ev = [false; true] /\ connects ev = 2%nat /\ connected (sn_ds s) = true.
Proof. exists ex_senv, ex_set. cbv zeta. runs. Qed.
Print Assumptions C90_sticky_refuted.

(** A nil configuration stands for the one used before, not for the default one. *)
Theorem C90_nil_refuted : exists E st0 s ev, let c := Config 0 1000 30000 false false false false false false [] 1 true in
  history E st0 [SDial (str "a:1") (Some c) []; SListen (str ":1") None true; SAccept] s ev /\ frames ev = startup c st0 true /\ frames ev <> startup NewConfig st0 true.
Proof. exists ex_senv, ex_set. cbv zeta. runs. Qed.
Print Assumptions C90_nil_refuted.

(** It stands for the default one as long as none was given. *)
Theorem C90_nil_first : forall E st0 acts s ev a host port d s' ev', history E st0 acts s ev -> (forall x, In x acts -> config_of x = None) -> idle s -> address_of a host port ->
  Dial s a None d = Ok (s', ev') -> Dial s a (Some NewConfig) d = Ok (s', ev').
Proof.
  intros E st0 acts s ev a host port d s' ev' (_ & _ & H) N (C & L) A D. apply config_kept in H; [|exact N]. change (sn_config s = NewConfig) in H.
  unfold Dial in *. rewrite C, L in *. cbn [orb] in *. apply parse_address_spec in A. rewrite A in *. rewrite <- D. f_equal. unfold configure. rewrite <- H. destruct s. reflexivity.
Qed.
Print Assumptions C90_nil_first.

Example C90_nonvacuous : exists s ev, let off := Config (-1) 1000 30000 false true true true true true [] 2 true in
  history ex_senv ex_set [SDial (str "a:1") (Some off) [ConnectorModel.Accepts]; SLost; SReconnect false [ConnectorModel.Accepts]] s ev /\ connects ev = 1%nat /\ connected (sn_ds s) = false.
Proof. cbv zeta. runs. Qed.
Example C90_nonvacuous_configured : let off := Config (-1) 1000 30000 false true true true true true [] 2 true in
  configured (fun c => c_AutoReconnect c = false) [SDial (str "a:1") (Some off) [ConnectorModel.Accepts]; SLost; SReconnect false [ConnectorModel.Accepts]].
Proof. intros off a c [<-|[<-|[<-|[]]]] H; try discriminate. injection H as <-. eexists. split; reflexivity. Qed.
