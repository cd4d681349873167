(** Model of the simplified subscriber API: sttp/Subscriber.go, Config.go and
    Settings.go, over the models of DataSubscriber (SubscriberModel), of the
    connection sequences (ConnectorModel) and of metadata parsing (XmlModel).

    One action is one call of the API, one network event or one goroutine that
    runs a callback; it runs to completion before the next.  Simplifications: all
    user callbacks are registered, return and do not call the API; the user does
    not change a Config after passing it; message texts are left out; the
    subscriber is not disposed (Close). *)
From Coq Require Import String.
From stdpp Require Import gmap.
From Verif Require ConnectorModel.
From Verif Require Import Base TicksModel GuidModel FormatModel StrModel CalModel NumModel ExprModel TableModel XmlModel.
From Verif Require Import CompactModel CacheModel FrameModel TsscModel SubscriberModel.
Open Scope list_scope.
Open Scope Z_scope.

(** ** Addresses *)

(** net.SplitHostPort (Go's net/ipsock.go), standard library: the part before the
    last colon, without brackets, and the part after it. *)
Fixpoint last_colon (s : bytes) : option (bytes * bytes) :=
  match s with
  | [] => None
  | c :: r => match last_colon r with
              | Some (a, b) => Some (c :: a, b)
              | None => if c =? 58 then Some ([], r) else None
              end
  end.
Fixpoint first_of (x : Z) (s : bytes) : option (bytes * bytes) :=
  match s with
  | [] => None
  | c :: r => if c =? x then Some ([], r)
              else match first_of x r with Some (a, b) => Some (c :: a, b) | None => None end
  end.
Definition has (x : Z) (s : bytes) : bool := existsb (Z.eqb x) s.
Definition SplitHostPort (s : bytes) : option (bytes * bytes) :=
  match last_colon s with
  | None => None
  | Some (before, port) =>
    match s with
    | 91 :: rest =>
      match first_of 93 rest with
      | None => None
      | Some (host, tail) =>
        (* the ']' must stand just before the last ':' *)
        if negb (len before =? len host + 2) then None
        else if has 91 rest || has 93 tail then None else Some (host, port)
      end
    | _ => if has 58 before then None else if has 91 s || has 93 s then None else Some (before, port)
    end
  end.

(** ** Configuration *)

(** Config.go:28-87 *)
Record config : Type := Config {
  c_MaxRetries : Z; c_RetryInterval : Z; c_MaxRetryInterval : Z; c_AutoReconnect : bool;
  c_AutoRequestMetadata : bool; c_AutoSubscribe : bool;
  c_CompressPayloadData : bool; c_CompressMetadata : bool; c_CompressSignalIndexCache : bool;
  c_MetadataFilters : bytes; c_Version : Z; c_RfcGuidEncoding : bool }.
(** Config.go:81-101 *)
Definition NewConfig : config := Config (-1) 1000 30000 true true true true true true [] 2 true.

(** Settings.go:30-85.  The three float settings are given as the text
    strconv.FormatFloat(x, 'f', 6, 64) yields, as in FrameModel. *)
Record usettings : Type := USettings {
  u_Throttled : bool; u_PublishInterval : bytes; u_UdpPort : Z; u_IncludeTime : bool;
  u_EnableTimeReasonabilityCheck : bool; u_LagTime : bytes; u_LeadTime : bytes;
  u_UseLocalClockAsRealTime : bool; u_UseMillisecondResolution : bool; u_RequestNaNValueFilter : bool;
  u_StartTime : bytes; u_StopTime : bytes; u_ConstraintParameters : bytes; u_ProcessingInterval : Z;
  u_ExtraConnectionStringParameters : bytes }.
(** Settings.go:78-97 *)
Definition NewSettings : usettings :=
  USettings false (str "1.000000") 0 true false (str "10.000000") (str "5.000000") false false false [] [] [] (-1) [].

(** ** State *)

(** MeasurementMetadata.go:36-68, the fields that CacheModel.registry leaves out
    and received metadata sets. *)
Record detail : Type := Detail { d_Tag : bytes; d_SignalReference : bytes; d_SignalType : bytes; d_Description : bytes; d_UpdatedOn : Z }.
Definition no_detail : detail := Detail [] [] [] [] zero_time.

(** Callbacks started in a goroutine of their own: DataSubscriber.go:1005-1029,
    1046-1048, 1185-1187.  The metadata bytes are those received (uncompressed
    metadata is a slice of the read buffer; that it may be overwritten before the
    goroutine reads it is not modelled here). *)
Inductive task : Type := TMetadata (d : bytes) | TConfigurationChanged | TProcessingComplete (m : bytes).

(** Subscriber.go:51-72 and the fields of DataSubscriber and SubscriberConnector
    that it uses: [sn_cancel] cancel, [sn_attempt] connectAttempt, [sn_auto]
    AutoReconnectCallback is set, [sn_handler] ConnectionEstablishedCallback is
    handleConnect, [sn_conn] and [sn_target] the connector's settings and address,
    [sn_reconnecting] a reconnect goroutine has been started and has not run. *)
Record session : Type := Session {
  sn_ds : sub; sn_config : config; sn_details : gmap (list Z) detail; sn_listening : bool;
  sn_cancel : bool; sn_attempt : Z; sn_auto : bool; sn_handler : bool;
  sn_conn : ConnectorModel.settings; sn_target : bytes; sn_reconnecting : bool; sn_pending : list task }.

Definition with_ds (s : session) (d : sub) : session :=
  Session d (sn_config s) (sn_details s) (sn_listening s) (sn_cancel s) (sn_attempt s) (sn_auto s) (sn_handler s) (sn_conn s) (sn_target s) (sn_reconnecting s) (sn_pending s).
Definition with_config (s : session) (c : config) : session :=
  Session (sn_ds s) c (sn_details s) (sn_listening s) (sn_cancel s) (sn_attempt s) (sn_auto s) (sn_handler s) (sn_conn s) (sn_target s) (sn_reconnecting s) (sn_pending s).
Definition with_details (s : session) (d : gmap (list Z) detail) : session :=
  Session (sn_ds s) (sn_config s) d (sn_listening s) (sn_cancel s) (sn_attempt s) (sn_auto s) (sn_handler s) (sn_conn s) (sn_target s) (sn_reconnecting s) (sn_pending s).
Definition with_listening (s : session) (b : bool) : session :=
  Session (sn_ds s) (sn_config s) (sn_details s) b (sn_cancel s) (sn_attempt s) (sn_auto s) (sn_handler s) (sn_conn s) (sn_target s) (sn_reconnecting s) (sn_pending s).
Definition with_cancel (s : session) (b : bool) : session :=
  Session (sn_ds s) (sn_config s) (sn_details s) (sn_listening s) b (sn_attempt s) (sn_auto s) (sn_handler s) (sn_conn s) (sn_target s) (sn_reconnecting s) (sn_pending s).
Definition with_attempt (s : session) (n : Z) : session :=
  Session (sn_ds s) (sn_config s) (sn_details s) (sn_listening s) (sn_cancel s) n (sn_auto s) (sn_handler s) (sn_conn s) (sn_target s) (sn_reconnecting s) (sn_pending s).
Definition with_auto (s : session) (b : bool) : session :=
  Session (sn_ds s) (sn_config s) (sn_details s) (sn_listening s) (sn_cancel s) (sn_attempt s) b (sn_handler s) (sn_conn s) (sn_target s) (sn_reconnecting s) (sn_pending s).
Definition with_handler (s : session) (b : bool) : session :=
  Session (sn_ds s) (sn_config s) (sn_details s) (sn_listening s) (sn_cancel s) (sn_attempt s) (sn_auto s) b (sn_conn s) (sn_target s) (sn_reconnecting s) (sn_pending s).
Definition with_connector (s : session) (c : ConnectorModel.settings) (t : bytes) : session :=
  Session (sn_ds s) (sn_config s) (sn_details s) (sn_listening s) (sn_cancel s) (sn_attempt s) (sn_auto s) (sn_handler s) c t (sn_reconnecting s) (sn_pending s).
Definition with_reconnecting (s : session) (b : bool) : session :=
  Session (sn_ds s) (sn_config s) (sn_details s) (sn_listening s) (sn_cancel s) (sn_attempt s) (sn_auto s) (sn_handler s) (sn_conn s) (sn_target s) b (sn_pending s).
Definition with_pending (s : session) (l : list task) : session :=
  Session (sn_ds s) (sn_config s) (sn_details s) (sn_listening s) (sn_cancel s) (sn_attempt s) (sn_auto s) (sn_handler s) (sn_conn s) (sn_target s) (sn_reconnecting s) l.

(** Subscriber.go:74-85 NewSubscriber; [st] the subscription settings of
    NewDataSubscriber (DataSubscriber.go:172-202). *)
Definition NewSubscriber (st : settings) : session :=
  Session (NewDataSubscriber 2 true true true false st) NewConfig ∅ false false 0 false false
          (ConnectorModel.Settings (-1) 1000 30000) [] false [].

(** Effects seen by the user or the network. *)
Inductive uevent : Type :=
| ULow (e : event)                    (* of DataSubscriber: bytes sent, measurements, messages, .. *)
| UDialing (target : bytes)           (* net.Dial("tcp", target) *)
| UWaiting (ms : Z)                   (* the wait before a retry *)
| UConnected                          (* connectionEstablishedReceiver *)
| UMetadata (d : dset)                (* metadataReceiver *)
| UStartTime (unixNano : Z)           (* dataStartTimeReceiver *)
| UConfigurationChanged | UReadComplete
| UStatus | UError                    (* status and error messages *)
| UReturn (ok : bool).                (* Dial or Listen returns: nil or an error *)
Definition sstep : Type := res (session * list uevent).

(** The effects of DataSubscriber as Subscriber's registered callbacks turn them:
    Subscriber.go:247-259, 332-341, 654-662 handleDataStartTime.
    ConnectionEstablishedCallback is handled in [established]. *)
Definition user_event (e : event) : list uevent :=
  match e with
  | EvMetadata _ | EvConfigurationChanged | EvProcessingComplete _ | EvEstablished => []
  | EvDataStartTime t => [UStartTime (ToTime t)]
  | _ => [ULow e]
  end.
Definition task_of (e : event) : list task :=
  match e with
  | EvMetadata d => [TMetadata d]
  | EvConfigurationChanged => [TConfigurationChanged]
  | EvProcessingComplete m => [TProcessingComplete m]
  | _ => []
  end.
Definition lift (s : session) (k : step) : sstep :=
  let* (d, ev) := k in
  Ok (with_pending (with_ds s d) (sn_pending s ++ flat_map task_of ev), flat_map user_event ev).
Definition andthen (k : sstep) (f : session -> sstep) : sstep :=
  let* (s, ev) := k in let* (s, ev') := f s in Ok (s, ev ++ ev').
Definition quiet (s : session) : sstep := Ok (s, []).
Definition says (ev : list uevent) (s : session) : sstep := Ok (s, ev).

(** ** Commands *)

(** Subscriber.go:357-372 RequestMetadata *)
Definition metadata_payload (filters : bytes) : bytes :=
  match filters with [] => [] | _ => be_put 4 (u32 (len filters)) ++ filters end.
Definition RequestMetadata (s : session) : sstep :=
  lift s (send (sn_ds s) sc_MetadataRefresh (metadata_payload (c_MetadataFilters (sn_config s)))).

(** Subscriber.go:489-506 handleConnect *)
Definition handleConnect (s : session) : sstep :=
  andthen (says [UConnected] s) (fun s =>
    if c_AutoRequestMetadata (sn_config s) then RequestMetadata s
    else if c_AutoSubscribe (sn_config s) then lift s (Subscribe (sn_ds s))
    else quiet s).

(** Subscriber.go:394-425: the subscription settings *)
Definition subscription_of (old : settings) (filter : bytes) (u : usettings) : settings :=
  mkSettings filter (u_Throttled u) (u_PublishInterval u)
    (0 <? u_UdpPort u) (if 0 <? u_UdpPort u then u_UdpPort u else 0) (u_IncludeTime u)
    (u_EnableTimeReasonabilityCheck u) (u_LagTime u) (u_LeadTime u)
    (u_UseLocalClockAsRealTime u) (u_UseMillisecondResolution u) (u_RequestNaNValueFilter u)
    (u_StartTime u) (u_StopTime u) (u_ConstraintParameters u) (u_ProcessingInterval u)
    (u_ExtraConnectionStringParameters u)
    (s_STTPSourceInfo old) (s_STTPVersionInfo old) (s_STTPUpdatedOnInfo old).
(** Subscriber.go:394-430 Subscribe; DataSubscriber.Subscribe's error is dropped *)
Definition session_Subscribe (s : session) (filter : bytes) (u : option usettings) : sstep :=
  let u := match u with Some u => u | None => NewSettings end in
  let s := with_ds s (set_subscription (sn_ds s) (subscription_of (subscription (sn_ds s)) filter u)) in
  if connected (sn_ds s) then lift s (Subscribe (sn_ds s)) else quiet s.

(** ** Connecting *)

(** Subscriber.go:212-214, 236-240 (Dial) and 309-311, 323-327 (Listen) *)
Definition configure (s : session) (c : option config) : session :=
  let s := match c with Some c => with_config s c | None => s end in
  let c := sn_config s in
  with_ds s (set_SwapGuidEndianness (set_Version (set_CompressSignalIndexCache (set_CompressMetadata
    (set_CompressPayloadData (sn_ds s) (c_CompressPayloadData c)) (c_CompressMetadata c))
    (c_CompressSignalIndexCache c)) (c_Version c)) (negb (c_RfcGuidEncoding c))).

(** DataSubscriber.go:370-381: also the metadata of the previous connection goes *)
Definition setup (s : session) : session := with_details (with_ds s (setupConnection (sn_ds s))) ∅.
(** DataSubscriber.go:383-420 with the callback of Subscriber.go:337 *)
Definition established (s : session) : sstep :=
  andthen (lift s (establishConnection (sn_ds s))) (fun s => if sn_handler s then handleConnect s else quiet s).

(** The subscriber after the dials of a connection sequence, before the last one
    is known to have succeeded (DataSubscriber.go:350-358) *)
Definition is_dial (e : ConnectorModel.event) : bool := match e with ConnectorModel.Dial => true | _ => false end.
Definition after_dials (s : session) (evs : list ConnectorModel.event) : session :=
  if existsb is_dial evs then let s := setup s in with_ds s (set_connectionRefused (sn_ds s) false) else s.
Definition seen (target : bytes) (e : ConnectorModel.event) : uevent :=
  match e with ConnectorModel.Dial => UDialing target | ConnectorModel.Wait ms => UWaiting ms end.

(** DataSubscriber.go:594-606 Disconnect, with disconnect and runDisconnectThread
    (608-722) run to completion: Cancel is set, the reconnect goroutine ends. *)
Definition Disconnect (s : session) : sstep :=
  lift (with_reconnecting (with_cancel (with_listening s false) true) false) (disconnect (sn_ds s)).

(** Subscriber.go:219-277 connect.  [dials] says what each call of net.Dial meets
    (ConnectorModel).  A sequence cancelled during a wait is one during which
    another goroutine calls Disconnect.  [Running]: the call has not returned. *)
Definition session_connect (s : session) (host : bytes) (port : Z) (dials : list ConnectorModel.dial) : sstep :=
  let c := sn_config s in
  let conn := ConnectorModel.Settings (c_MaxRetries c) (c_RetryInterval c) (c_MaxRetryInterval c) in
  let target := host ++ [58] ++ FormatInt port in
  let s := with_connector s conn target in
  if sn_cancel s then says [UReturn false] s
  else
    let s := if c_AutoReconnect c then with_auto s true else s in
    let '(evs, st, a) := ConnectorModel.Connect conn (sn_attempt s) dials in
    let s := with_attempt (after_dials s evs) a in
    andthen (says (map (seen target) evs) s) (fun s =>
      match st with
      | ConnectorModel.Success => andthen (andthen (established s) handleConnect) (says [UReturn true])
      | ConnectorModel.Failed => says [UReturn false] s
      | ConnectorModel.Canceled => andthen (Disconnect s) (says [UReturn false])
      | ConnectorModel.Running => quiet s
      end).

(** Subscriber.go:196-210, 293-307: the host and port of an address *)
Definition parse_address (address : bytes) : option (bytes * Z) :=
  match SplitHostPort address with
  | None => None
  | Some (host, portname) =>
    match Atoi portname with
    | None => None
    | Some port => if (port <? 1) || (65535 <? port) then None else Some (host, port)
    end
  end.
(** Subscriber.go:187-217 Dial *)
Definition Dial (s : session) (address : bytes) (c : option config) (dials : list ConnectorModel.dial) : sstep :=
  if connected (sn_ds s) || sn_listening s then says [UReturn false] s
  else match parse_address address with
       | None => says [UReturn false] s
       | Some (host, port) => session_connect (configure s c) host port dials
       end.
(** Subscriber.go:284-348 Listen, listen; [ok] tells whether net.Listen succeeds *)
Definition Listen (s : session) (address : bytes) (c : option config) (ok : bool) : sstep :=
  if connected (sn_ds s) || sn_listening s then says [UReturn false] s
  else match parse_address address with
       | None => says [UReturn false] s
       | Some _ => let s := with_handler (configure s c) true in
                   says [UReturn ok] (if ok then with_listening s true else s)
       end.

(** DataSubscriber.go:752-808: a publisher connects to the listening socket *)
Definition Accept (s : session) : sstep :=
  if negb (sn_listening s) then quiet s
  else if connected (sn_ds s) then says [ULow EvError] s
  else established (setup s).

(** DataSubscriber.go:724-730, 197-199, 608-722: the connection is lost;
    SubscriberConnector.go:79-117: a reconnect goroutine is started unless
    cancelled *)
Definition Lost (s : session) : sstep :=
  if negb (connected (sn_ds s)) then quiet s
  else andthen (lift s (disconnect (sn_ds s))) (fun s => quiet (with_reconnecting s (sn_auto s && negb (sn_cancel s)))).

(** SubscriberConnector.go:95-117: the reconnect goroutine; Subscriber.go:508-515
    handleReconnect.  Not modelled: a reconnect goroutine running while the user
    has dialled or listened again. *)
Definition Reconnect (s : session) (cancelled : bool) (dials : list ConnectorModel.dial) : sstep :=
  if negb (sn_reconnecting s) || connected (sn_ds s) || sn_listening s then quiet s
  else
    let '(evs, st, a) := ConnectorModel.reconnect (sn_conn s) (connectionRefused (sn_ds s)) cancelled (sn_attempt s) dials in
    let s := with_reconnecting (with_attempt (after_dials s evs) a) false in
    andthen (says (map (seen (sn_target s)) evs) s) (fun s =>
      match st with
      | ConnectorModel.Success => andthen (established s) handleConnect
      | ConnectorModel.Failed =>
        (* given up before waiting: no callback *)
        match evs with [] => says [UError] s | _ => andthen (Disconnect s) (says [UStatus]) end
      | ConnectorModel.Canceled => Disconnect s
      | ConnectorModel.Running => quiet s
      end).

(** ** Metadata *)

(** The functions outside the model: those of SubscriberModel and XmlModel, the
    XML decoder, and how many computed columns may be nested (TableModel). *)
Record senv : Type := mkSenv { se_env : env; se_xlib : xlib; se_decode : bytes -> option xelem; se_depth : nat }.

(** strconv.ParseUint(s, 10, 64), standard library, with the value returned
    beside an error *)
Fixpoint uint10_from (s : bytes) (n : Z) : Z :=
  match s with
  | [] => n
  | c :: r => if digit_byte c
              then let n := 10 * n + (c - 48) in if 2 ^ 64 - 1 <? n then 2 ^ 64 - 1 else uint10_from r n
              else 0
  end.
Definition ParseUint10 (s : bytes) : Z := uint10_from s 0.

(** StringValue and DateTimeValue (DataRow.go:755-1440), errors and nulls dropped *)
Definition string_value (E : senv) (t : dtable) (vals : list (option slot)) (i : Z) : res bytes :=
  match TypedValue (se_depth E) (se_xlib E) t vals i DString with
  | Ok (Some (CStr x)) => Ok x | Ok _ | Err => Ok [] | Panic => Panic
  end.
Definition time_value (E : senv) (t : dtable) (vals : list (option slot)) (i : Z) : res Z :=
  match TypedValue (se_depth E) (se_xlib E) t vals i DDateTime with
  | Ok (Some (CTime x)) => Ok x | Ok _ | Err => Ok zero_time | Panic => Panic
  end.

Definition md : Type := registry * gmap (list Z) detail.
Definition detail_of (m : md) (g : guid) : detail := match snd m !! g with Some d => d | None => no_detail end.

(** Subscriber.go:550-556, 579-603: what the row's function [read] gives for the column
    named [name], or [old] when the table has no such column *)
Definition column_or {A} (E : senv) (t : dtable) (name : string) (read : Z -> res A) (old : A) : res A :=
  let i := ColumnIndex (se_xlib E) t (lit name) in
  if -1 <? i then read i else Ok old.

(** Subscriber.go:559-604: one row of MeasurementDetail *)
Definition load_measurement (E : senv) (t : dtable) (m : md) (vals : list (option slot)) : res md :=
  match TypedValue (se_depth E) (se_xlib E) t vals (ColumnIndex (se_xlib E) t (lit "SignalID")) DGuid with
  | Panic => Panic
  | Ok (Some (CGuid g)) =>
    let reg := fst (LookupMetadata (fst m) g) in
    let old := detail_of m g in
    let* id := column_or E t "ID" (string_value E t vals) [] in
    let reg := match split_byte 58 id with [source; number] => <[g := (source, ParseUint10 number)]> reg | _ => reg end in
    let* tag := column_or E t "PointTag" (string_value E t vals) (d_Tag old) in
    let* ref := column_or E t "SignalReference" (string_value E t vals) (d_SignalReference old) in
    let* ty := column_or E t "SignalAcronym" (string_value E t vals) (d_SignalType old) in
    let* desc := column_or E t "Description" (string_value E t vals) (d_Description old) in
    let* upd := column_or E t "UpdatedOn" (time_value E t vals) (d_UpdatedOn old) in
    Ok (reg, <[g := Detail tag ref ty desc upd]> (snd m))
  | _ => Ok m
  end.
Fixpoint load_measurements (E : senv) (t : dtable) (m : md) (rows : list (option drow)) : res md :=
  match rows with
  | [] => Ok m
  | None :: rest => load_measurements E t m rest
  | Some r :: rest => let* m := load_measurement E t m (row_values r) in load_measurements E t m rest
  end.
(** Subscriber.go:543-609 loadMeasurementMetadata *)
Definition loadMeasurementMetadata (E : senv) (s : session) (ds : dset) : sstep :=
  match DataSetTable (se_xlib E) ds (lit "MeasurementDetail") with
  | None => says [UError] s
  | Some t =>
    if -1 <? ColumnIndex (se_xlib E) t (lit "SignalID") then
      let* (reg, details) := load_measurements E t (measurementRegistry (sn_ds s), sn_details s) (dt_rows t) in
      quiet (with_details (with_ds s (set_measurementRegistry (sn_ds s) reg)) details)
    else says [UError] s
  end.
(** Subscriber.go:611-652 showMetadataSummary: only that reading the version may
    panic *)
Definition showMetadataSummary (E : senv) (s : session) (ds : dset) : sstep :=
  let* _ := match DataSetTable (se_xlib E) ds (lit "SchemaVersion") with
            | None => Ok []
            | Some t => match TableRow t 0 with
                        | None => Ok []
                        | Some r => ValueAsStringByName (se_depth E) (se_xlib E) t (row_values r) (lit "VersionNumber")
                        end
            end in
  says [UStatus] s.
(** Subscriber.go:517-541 handleMetadataReceived *)
Definition handleMetadataReceived (E : senv) (s : session) (d : bytes) : sstep :=
  let* (parsed, ds) := match ParseXml (se_xlib E) NewDataSet (se_decode E d) with
                       | Ok ds => Ok (true, ds) | Err => Ok (false, NewDataSet) | Panic => Panic end in
  andthen (andthen (if parsed : bool then loadMeasurementMetadata E s ds else says [UError] s)
                   (fun s => showMetadataSummary E s ds))
    (fun s => andthen (says [UMetadata ds] s) (fun s =>
      if c_AutoRequestMetadata (sn_config s) && c_AutoSubscribe (sn_config s)
      then lift s (Subscribe (sn_ds s)) else quiet s)).

(** Subscriber.go:664-688 handleConfigurationChanged, handleProcessingComplete *)
Definition run_task (E : senv) (s : session) (k : task) : sstep :=
  match k with
  | TMetadata d => handleMetadataReceived E s d
  | TConfigurationChanged =>
    andthen (says [UConfigurationChanged] s) (fun s => if c_AutoRequestMetadata (sn_config s) then RequestMetadata s else quiet s)
  | TProcessingComplete _ => says [UStatus; UReadComplete] s
  end.

(** ** Histories *)

Inductive sact : Type :=
| SDial (address : bytes) (c : option config) (dials : list ConnectorModel.dial)
| SListen (address : bytes) (c : option config) (ok : bool)
| SAccept | SLost
| SReconnect (cancelled : bool) (dials : list ConnectorModel.dial)
| SPacket (pool : option (list measurement)) (packet : bytes)
| SUdp (pool : option (list measurement)) (packet : bytes)
| SSubscribe (filter : bytes) (u : option usettings)
| SUnsubscribe | SRequestMetadata | SDisconnect
| STask (i : nat).                     (* the i-th pending callback runs *)

Definition sact_step (E : senv) (s : session) (a : sact) : sstep :=
  match a with
  | SDial address c dials => Dial s address c dials
  | SListen address c ok => Listen s address c ok
  | SAccept => Accept s
  | SLost => Lost s
  | SReconnect cancelled dials => Reconnect s cancelled dials
  | SPacket pool p => if connected (sn_ds s) then lift s (receive (se_env E) pool (sn_ds s) p) else quiet s
  | SUdp pool p => if connected (sn_ds s) then lift s (receiveUdp (se_env E) pool (sn_ds s) p) else quiet s
  | SSubscribe filter u => session_Subscribe s filter u
  | SUnsubscribe => lift s (Unsubscribe (sn_ds s))
  | SRequestMetadata => RequestMetadata s
  | SDisconnect => Disconnect s
  | STask i => match nth_error (sn_pending s) i with
               | Some k => run_task E (with_pending s (firstn i (sn_pending s) ++ skipn (S i) (sn_pending s))) k
               | None => quiet s
               end
  end.
Fixpoint srun (E : senv) (s : session) (l : list sact) : sstep :=
  match l with
  | [] => quiet s
  | a :: r => andthen (sact_step E s a) (fun s => srun E s r)
  end.

(** Subscriber.go:162-172, DataSubscriber.go:284-299: the metadata of a signal
    (reading it creates an empty record, not modelled) *)
Definition MetadataOf (s : session) (g : guid) : (bytes * Z) * detail :=
  (match measurementRegistry (sn_ds s) !! g with Some e => e | None => ([], 0) end,
   match sn_details s !! g with Some d => d | None => no_detail end).
