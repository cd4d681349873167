(** Specification vocabulary for the simplified subscriber API: addresses, what can
    be observed of a history, which states can be reached, what a table of
    measurements says. *)
From Coq Require Import String.
From stdpp Require Import gmap.
From Verif Require ConnectorModel.
From Verif Require Import Base GuidModel FormatModel FormatSpec CalModel ExprModel TableModel XmlModel XmlSpec.
From Verif Require Import CompactModel CacheModel FrameModel FrameSpec SubscriberModel SubscriberSpec SessionModel.
Open Scope list_scope.
Open Scope Z_scope.

(** ** Addresses *)

Definition colon : Z := 58. Definition opening : Z := 91. Definition closing : Z := 93.
Definition none_of (l : list Z) (s : bytes) : Prop := forall c, In c s -> ~ In c l.
(** "host:port", or "[host]:port" for a host with colons in it. *)
Definition host_port (a host port : bytes) : Prop :=
  none_of [colon; opening; closing] port /\
  ((none_of [colon; opening; closing] host /\ a = host ++ [colon] ++ port) \/
   (none_of [opening; closing] host /\ a = [opening] ++ host ++ [closing; colon] ++ port)).
(** A text for a port number: digits, possibly after a plus sign. *)
Definition port_text (text : bytes) (port : Z) : Prop :=
  exists digits, (text = digits \/ text = [43] ++ digits) /\ digits <> [] /\ Forall is_digit digits /\ dec_value digits = port /\ 1 <= port <= 65535.
Definition address_of (a host : bytes) (port : Z) : Prop :=
  exists text, host_port a host text /\ port_text text port.
(** The target of net.Dial for a host and a port. *)
Definition target_of (host : bytes) (port : Z) (target : bytes) : Prop :=
  exists digits, is_decimal_of port digits /\ target = host ++ [colon] ++ digits.

(** ** What can be observed of a history *)

Definition dialled (ev : list uevent) : list bytes := flat_map (fun e => match e with UDialing t => [t] | _ => [] end) ev.
Definition waits (ev : list uevent) : list Z := flat_map (fun e => match e with UWaiting t => [t] | _ => [] end) ev.
Definition frames (ev : list uevent) : list bytes := flat_map (fun e => match e with ULow (EvSend f) => [f] | _ => [] end) ev.
Definition returned (ev : list uevent) : list bool := flat_map (fun e => match e with UReturn b => [b] | _ => [] end) ev.
Definition metadata_seen (ev : list uevent) : list dset := flat_map (fun e => match e with UMetadata d => [d] | _ => [] end) ev.
Definition connects (ev : list uevent) : nat := length (List.filter (fun e => match e with UConnected => true | _ => false end) ev).
Definition waiting_metadata (s : session) : nat := length (List.filter (fun k => match k with TMetadata _ => true | _ => false end) (sn_pending s)).
(** The command of a frame. *)
Definition command_byte (f : bytes) : Z := nth 4 f 0.

(** Received packets consist of bytes. *)
Definition spacket_ok (a : sact) : Prop := match a with SPacket _ p | SUdp _ p => bytes_ok p | _ => True end.
(** A subscriber, created with the subscription settings [st0], after a history that
    did not crash. *)
Definition history (E : senv) (st0 : settings) (acts : list sact) (s : session) (ev : list uevent) : Prop :=
  cbc_ok (se_env E) /\ Forall spacket_ok acts /\ srun E (NewSubscriber st0) acts = Ok (s, ev).
Definition reached (E : senv) (s : session) : Prop := exists st0 acts ev, history E st0 acts s ev.

(** The configuration a call of Dial or Listen brings. *)
Definition config_of (a : sact) : option (option config) :=
  match a with SDial _ c _ | SListen _ c _ => Some c | _ => None end.
(** Every call of Dial and Listen brings a configuration, and that satisfies [P]. *)
Definition configured (P : config -> Prop) (acts : list sact) : Prop :=
  forall a c, In a acts -> config_of a = Some c -> exists c', c = Some c' /\ P c'.
(** A packet that answers a metadata request. *)
Definition metadata_packet (a : sact) : bool :=
  match a with SPacket _ p | SUdp _ p => (code_of p =? 0x80) && (command_of p =? 1) | _ => false end.

(** The configurations a history uses: those given to Dial and Listen; the default
    one when nil was given. *)
Definition brought (acts : list sact) (c : config) : Prop :=
  (exists a, In a acts /\ config_of a = Some (Some c)) \/ (c = NewConfig /\ exists a, In a acts /\ config_of a = Some None).

(** ** Subscription settings *)

(** [st] holds exactly what was passed to Subscribe; the source, version and date
    that identify the library are those of [st0]. *)
Definition carries (st0 : settings) (filter : bytes) (u : usettings) (st : settings) : Prop :=
  s_FilterExpression st = filter /\ s_Throttled st = u_Throttled u /\ s_PublishInterval st = u_PublishInterval u /\
  (u_UdpPort u > 0 -> s_UdpDataChannel st = true /\ s_DataChannelLocalPort st = u_UdpPort u) /\
  (u_UdpPort u <= 0 -> s_UdpDataChannel st = false) /\
  s_IncludeTime st = u_IncludeTime u /\ s_EnableTimeReasonabilityCheck st = u_EnableTimeReasonabilityCheck u /\
  s_LagTime st = u_LagTime u /\ s_LeadTime st = u_LeadTime u /\ s_UseLocalClockAsRealTime st = u_UseLocalClockAsRealTime u /\
  s_UseMillisecondResolution st = u_UseMillisecondResolution u /\ s_RequestNaNValueFilter st = u_RequestNaNValueFilter u /\
  s_StartTime st = u_StartTime u /\ s_StopTime st = u_StopTime u /\ s_ConstraintParameters st = u_ConstraintParameters u /\
  s_ProcessingInterval st = u_ProcessingInterval u /\ s_ExtraConnectionStringParameters st = u_ExtraConnectionStringParameters u /\
  s_STTPSourceInfo st = s_STTPSourceInfo st0 /\ s_STTPVersionInfo st = s_STTPVersionInfo st0 /\ s_STTPUpdatedOnInfo st = s_STTPUpdatedOnInfo st0.
(** The settings of a call of Subscribe; nil stands for the defaults. *)
Definition settings_given (u : option usettings) : usettings := match u with Some u => u | None => NewSettings end.
(** The subscription settings of a history that began with [st0]: those, or what some call of Subscribe gave. *)
Definition asked (acts : list sact) (st0 st : settings) : Prop :=
  st = st0 \/ exists filter u, In (SSubscribe filter u) acts /\ carries st0 filter (settings_given u) st.

(** ** The first messages of a connection *)

(** A metadata request: nothing, or the filters with their length before them. *)
Definition metadata_request (filters : bytes) : bytes :=
  frame 1 (match filters with [] => [] | _ => be_put 4 (len filters) ++ filters end).
Definition modes_request (c : config) (udp : bool) : bytes :=
  frame 6 (be_put 4 (operationalModes (c_Version c) oe_UTF8 (c_CompressPayloadData c) udp (c_CompressMetadata c) (c_CompressSignalIndexCache c))).
(** A subscription request: the compact format bit, the length of the settings' text
    (C20), that text. *)
Definition subscribe_request (st : settings) : bytes :=
  frame 2 (2 :: be_put 4 (len (parameterString st)) ++ parameterString st).

(** What a subscriber sends when it is connected, if [ready] tells whether it may
    subscribe at once. *)
Definition startup (c : config) (st : settings) (ready : bool) : list bytes :=
  modes_request c (s_UdpDataChannel st) ::
  (if c_AutoRequestMetadata c then [metadata_request (c_MetadataFilters c)]
   else if c_AutoSubscribe c && ready then [subscribe_request st] else []).

(** ** A table of measurements *)

Definition has_column (E : senv) (t : dtable) (name : string) : Prop := 0 <= ColumnIndex (se_xlib E) t (lit name).
(** The value of a column of a row, as the row's functions give it. *)
Definition row_guid (E : senv) (t : dtable) (r : drow) : option guid :=
  match TypedValue (se_depth E) (se_xlib E) t (row_values r) (ColumnIndex (se_xlib E) t (lit "SignalID")) DGuid with
  | Ok (Some (CGuid g)) => Some g
  | _ => None
  end.
(** A string column: the empty text when the value is missing or of another type. *)
Definition row_text (E : senv) (t : dtable) (r : drow) (name : string) (x : bytes) : Prop :=
  match TypedValue (se_depth E) (se_xlib E) t (row_values r) (ColumnIndex (se_xlib E) t (lit name)) DString with
  | Ok (Some (CStr y)) => x = y
  | Panic => False
  | _ => x = []
  end.
Definition row_time (E : senv) (t : dtable) (r : drow) (name : string) (x : Z) : Prop :=
  match TypedValue (se_depth E) (se_xlib E) t (row_values r) (ColumnIndex (se_xlib E) t (lit name)) DDateTime with
  | Ok (Some (CTime y)) => x = y
  | Panic => False
  | _ => x = zero_time
  end.
(** [new] is what the column says, or [old] when the table has no such column. *)
Definition column_sets {A} (E : senv) (t : dtable) (name : string) (says : A -> Prop) (old new : A) : Prop :=
  (has_column E t name /\ says new) \/ (~ has_column E t name /\ new = old).
(** [l] is [before ++ r :: after] and no row of [after] satisfies [P]. *)
Definition last_row (P : drow -> Prop) (l : list (option drow)) (r : drow) : Prop :=
  exists before after, l = before ++ Some r :: after /\ P r /\ forall r', In (Some r') after -> ~ P r'.
(** The number in a measurement key: numbers beyond 64 bits count as the largest; a
    text that is not a number as 0, unless such a number stands at its start. *)
Definition number_of (text : bytes) (n : Z) : Prop :=
  (Forall is_digit text /\ n = Z.min (dec_value text) (2 ^ 64 - 1)) \/
  (exists digits c rest, text = digits ++ c :: rest /\ Forall is_digit digits /\ ~ is_digit c /\ n = if 2 ^ 64 <=? dec_value digits then 2 ^ 64 - 1 else 0).
(** A measurement key "source:number". *)
Definition is_key (text source : bytes) (n : Z) : Prop :=
  exists number, text = source ++ [colon] ++ number /\ ~ In colon source /\ ~ In colon number /\ number_of number n.

(** The row is about the signal [g]. *)
Definition about (E : senv) (t : dtable) (g : guid) (r : drow) : Prop := row_guid E t r = Some g.
(** The row gives a measurement key. *)
Definition keyed (E : senv) (t : dtable) (r : drow) (source : bytes) (n : Z) : Prop :=
  has_column E t "ID" /\ exists id, row_text E t r "ID" id /\ is_key id source n.
(** What the table makes of what is known of the signal [g], its key (source and
    number) and the rest: the last row about it counts, and for the key the last one
    that has a key; a column that the table lacks changes nothing, and neither does a
    table without a row about it. *)
Definition record_after (E : senv) (t : dtable) (g : guid) (old new : (bytes * Z) * detail) : Prop :=
  ((exists r, last_row (about E t g) (dt_rows t) r /\
      column_sets E t "PointTag" (row_text E t r "PointTag") (d_Tag (snd old)) (d_Tag (snd new)) /\
      column_sets E t "SignalReference" (row_text E t r "SignalReference") (d_SignalReference (snd old)) (d_SignalReference (snd new)) /\
      column_sets E t "SignalAcronym" (row_text E t r "SignalAcronym") (d_SignalType (snd old)) (d_SignalType (snd new)) /\
      column_sets E t "Description" (row_text E t r "Description") (d_Description (snd old)) (d_Description (snd new)) /\
      column_sets E t "UpdatedOn" (row_time E t r "UpdatedOn") (d_UpdatedOn (snd old)) (d_UpdatedOn (snd new))) /\
   ((exists r, last_row (fun r => about E t g r /\ exists source n, keyed E t r source n) (dt_rows t) r /\ keyed E t r (fst (fst new)) (snd (fst new))) \/
    ((forall r source n, In (Some r) (dt_rows t) -> about E t g r -> ~ keyed E t r source n) /\ fst new = fst old))) \/
  ((forall r, In (Some r) (dt_rows t) -> ~ about E t g r) /\ new = old).

(** ** Callbacks that received packets cause *)

(** The goroutines a packet starts when it is accepted: metadata (unpacked when metadata
    is compressed), the end of a replay, a change of configuration. *)
Definition callbacks (E : senv) (compressed : bool) (p : bytes) : list task :=
  if (code_of p =? 0x80) && (command_of p =? 1) then
    if compressed then match gunzip (se_env E) (skipn 6 p) with Some m => [TMetadata m] | None => [] end else [TMetadata (skipn 6 p)]
  else if code_of p =? 0x87 then [TProcessingComplete (skipn 6 p)]
  else if code_of p =? 0x8A then [TConfigurationChanged] else [].
(** The metadata a history has received, at most: what each metadata packet holds, as
    such and unpacked. *)
Definition received_metadata (E : senv) (acts : list sact) (m : bytes) : Prop :=
  exists a p, In a acts /\ (exists pool, a = SPacket pool p \/ a = SUdp pool p) /\ metadata_packet a = true /\ (m = skipn 6 p \/ gunzip (se_env E) (skipn 6 p) = Some m).

(** ** Metadata and the user *)

(** The data set a metadata packet's content [m] becomes for the user: what the
    document describes, or an empty one when it cannot be parsed. *)
Definition shown (E : senv) (m : bytes) (ds : dset) : Prop :=
  ParseXml (se_xlib E) NewDataSet (se_decode E m) = Ok ds \/ (ParseXml (se_xlib E) NewDataSet (se_decode E m) = Err /\ ds = NewDataSet).

(** ** Histories that nobody ends *)

(** Disconnect is not called, also not while a connection sequence waits, and every
    configuration allows any number of retries. *)
Definition undisturbed (a : sact) : Prop :=
  match a with
  | SDisconnect => False
  | SDial _ c dials => (forall d, In d dials -> d <> ConnectorModel.Fails true) /\ exists c', c = Some c' /\ c_MaxRetries c' = -1
  | SListen _ c _ => exists c', c = Some c' /\ c_MaxRetries c' = -1
  | SReconnect cancelled dials => cancelled = false /\ forall d, In d dials -> d <> ConnectorModel.Fails true
  | _ => True
  end.
