(** Model of the subscriber's wire framing: outgoing commands
    (DataSubscriber.go:1499-1566, 458-561) and the incoming command channel reader
    (DataSubscriber.go:801-875) over bufio.Reader and io.ReadFull. *)
From Coq Require Import String Ascii.
From Verif Require Import Base FormatModel.
Open Scope Z_scope.

(** Go string literal as bytes. *)
Definition str (s : string) : bytes := map (fun c => Z.of_N (N_of_ascii c)) (list_ascii_of_string s).

(** Constants.go:32-34 *)
Definition maxPacketSize : Z := 32768.
Definition payloadHeaderSize : Z := 4.
Definition responseHeaderSize : Z := 6.

(** binary.BigEndian.PutUint32(buf, x), standard library *)
Definition put_u32 (buf : bytes) (x : Z) : res bytes :=
  if len buf <? 4 then Panic else Ok (be_put 4 x ++ skipn 4 buf).

(** DataSubscriber.go:1517-1521 *)
Fixpoint write_loop (buf : bytes) (i : Z) (data : bytes) : res bytes :=
  match data with
  | [] => Ok buf
  | b :: rest => let* buf1 := upd buf (5 + i) b in write_loop buf1 (i + 1) rest
  end.

(** DataSubscriber.go:1499-1533: the new write buffer and the bytes handed to the
    socket, if any.  cap(ds.writeBuffer) = len(ds.writeBuffer): the buffer comes from
    make and re-slicing past the capacity panics.  The write itself is taken to
    succeed; the metadata request time stamp is not modelled. *)
Definition SendServerCommandWithPayload (connected : bool) (writeBuffer : bytes) (commandCode : Z) (data : bytes)
  : res (bytes * option bytes) :=
  if negb connected then Ok (writeBuffer, None)
  else
    let packetSize := u32 (u32 (len data) + 1) in
    let commandBufferSize := u32 (packetSize + payloadHeaderSize) in
    let* wb := (if len writeBuffer <? commandBufferSize
                then slice writeBuffer 0 commandBufferSize else Ok writeBuffer) in
    let* wb := put_u32 wb packetSize in
    let* wb := upd wb 4 commandCode in
    let* wb := write_loop wb 0 data in
    let* out := slice wb 0 commandBufferSize in
    Ok (wb, Some out).

(** Constants.go:631-638, 658, 675-676 *)
Definition om_VersionMask : Z := 0xFF.
Definition om_EncodingMask : Z := 0x300.
Definition om_CompressPayloadData : Z := 0x20000000.
Definition om_CompressSignalIndexCache : Z := 0x40000000.
Definition om_CompressMetadata : Z := 0x80000000.
Definition oe_UTF8 : Z := 0x200.
Definition cm_GZip : Z := 0x20.
Definition cm_TSSC : Z := 0x40.
Definition sc_DefineOperationalModes : Z := 0x06.
Definition sc_Subscribe : Z := 0x02.

(** DataSubscriber.go:1535-1563: the operational modes word. *)
Definition operationalModes (Version encoding : Z) (CompressPayloadData UdpDataChannel CompressMetadata CompressSignalIndexCache : bool) : Z :=
  let om := 0 in
  let om := Z.lor om (Z.land om_VersionMask Version) in
  let om := Z.lor om encoding in
  let om := if Version <? 10 then Z.lor om cm_GZip else om in
  let om := if CompressPayloadData && negb UdpDataChannel then
              let om := Z.lor om om_CompressPayloadData in
              if Version <? 10 then Z.lor om cm_TSSC else om
            else om in
  let om := if CompressMetadata then Z.lor om om_CompressMetadata else om in
  if CompressSignalIndexCache then Z.lor om om_CompressSignalIndexCache else om.

(** SubscriptionInfo.go:27-94 with the three assembly info strings of the
    subscriber.  The three float settings are given as the text
    strconv.FormatFloat(x, 'f', 6, 64) yields. *)
Record settings : Type := mkSettings {
  s_FilterExpression : bytes; s_Throttled : bool; s_PublishInterval : bytes;
  s_UdpDataChannel : bool; s_DataChannelLocalPort : Z; s_IncludeTime : bool;
  s_EnableTimeReasonabilityCheck : bool; s_LagTime : bytes; s_LeadTime : bytes;
  s_UseLocalClockAsRealTime : bool; s_UseMillisecondResolution : bool;
  s_RequestNaNValueFilter : bool; s_StartTime : bytes; s_StopTime : bytes;
  s_ConstraintParameters : bytes; s_ProcessingInterval : Z;
  s_ExtraConnectionStringParameters : bytes;
  s_STTPSourceInfo : bytes; s_STTPVersionInfo : bytes; s_STTPUpdatedOnInfo : bytes }.

(** strconv.FormatBool, standard library *)
Definition FormatBool (b : bool) : bytes := if b then str "true" else str "false".

(** DataSubscriber.go:475-553: the parameter string.  Opening the UDP socket
    (511-526) is assumed to succeed. *)
Definition parameterString (s : settings) : bytes :=
  str "throttled=" ++ FormatBool (s_Throttled s) ++
  str ";publishInterval=" ++ s_PublishInterval s ++
  str ";includeTime=" ++ FormatBool (s_IncludeTime s) ++
  str ";enableTimeReasonabilityCheck=" ++ FormatBool (s_EnableTimeReasonabilityCheck s) ++
  str ";lagTime=" ++ s_LagTime s ++
  str ";leadTime=" ++ s_LeadTime s ++
  str ";useLocalClockAsRealTime=" ++ FormatBool (s_UseLocalClockAsRealTime s) ++
  str ";processingInterval=" ++ FormatInt (s_ProcessingInterval s) ++
  str ";useMillisecondResolution=" ++ FormatBool (s_UseMillisecondResolution s) ++
  str ";requestNaNValueFilter" ++ FormatBool (s_RequestNaNValueFilter s) ++
  str ";assemblyInfo={source=" ++ s_STTPSourceInfo s ++
  str ";version=" ++ s_STTPVersionInfo s ++
  str ";updatedOn=" ++ s_STTPUpdatedOnInfo s ++ str "}" ++
  (if 0 <? len (s_FilterExpression s) then str ";filterExpression={" ++ s_FilterExpression s ++ str "}" else []) ++
  (if s_UdpDataChannel s then str ";dataChannel={localport=" ++ FormatInt (s_DataChannelLocalPort s) ++ str "}" else []) ++
  (if 0 <? len (s_StartTime s) then str ";startTimeConstraint=" ++ s_StartTime s else []) ++
  (if 0 <? len (s_StopTime s) then str ";stopTimeConstraint=" ++ s_StopTime s else []) ++
  (if 0 <? len (s_ConstraintParameters s) then str ";timeConstraintParameters=" ++ s_ConstraintParameters s else []) ++
  (if 0 <? len (s_ExtraConnectionStringParameters s) then str ";" ++ s_ExtraConnectionStringParameters s else []).

(** DataSubscriber.go:554-559: the payload of the Subscribe command.
    DataPacketFlags.Compact = 2. *)
Definition subscribe_payload (s : settings) : bytes :=
  let p := parameterString s in 2 :: be_put 4 (u32 (len p)) ++ p.

(** * Receiving *)

(** A connected socket: the chunks still to be delivered, one per Read at most;
    an empty list is end of stream (or a read error). *)
Definition sock : Type := list bytes.

(** net.Conn.Read(p) with len(p) = n > 0: None is an error. *)
Definition sock_read (s : sock) (n : Z) : option (bytes * sock) :=
  match s with
  | [] => None
  | c :: r => if len c <=? n then Some (c, r)
              else Some (firstn (Z.to_nat n) c, skipn (Z.to_nat n) c :: r)
  end.

(** bufio.Reader: unread buffered bytes and the socket. *)
Record reader : Type := mkReader { buffered : bytes; under : sock }.
(** bufio's defaultBufSize *)
Definition bufSize : Z := 4096.

(** bufio.Reader.Read(p), len(p) = n > 0, standard library (Go 1.18). *)
Definition bufio_read (r : reader) (n : Z) : option (bytes * reader) :=
  match buffered r with
  | [] =>
      if bufSize <=? n then
        match sock_read (under r) n with
        | Some (b, s) => Some (b, mkReader [] s)
        | None => None
        end
      else
        match sock_read (under r) bufSize with
        | Some (b, s) => Some (firstn (Z.to_nat n) b, mkReader (skipn (Z.to_nat n) b) s)
        | None => None
        end
  | b => Some (firstn (Z.to_nat n) b, mkReader (skipn (Z.to_nat n) b) (under r))
  end.

(** io.ReadFull(reader, buf), len(buf) = n; every read yields at least one byte, so
    [fuel] = n iterations suffice.  None: an error (io.EOF or io.ErrUnexpectedEOF). *)
Fixpoint readFull_loop (fuel : nat) (r : reader) (n : Z) (acc : bytes) : option (bytes * reader) :=
  if n <=? 0 then Some (acc, r)
  else match fuel with
       | O => None
       | S fuel' =>
           match bufio_read r n with
           | Some (b, r') => readFull_loop fuel' r' (n - len b) (acc ++ b)
           | None => None
           end
       end.
Definition ReadFull (r : reader) (n : Z) : option (bytes * reader) :=
  readFull_loop (Z.to_nat n) r n [].

(** What happens after a packet has been handled. *)
Inductive after (S : Type) : Type :=
| Continue (st : S)      (* loop again *)
| Stop (st : S)          (* dispatchConnectionTerminated *)
| Crash (st : S).        (* unrecovered panic in the read goroutine *)
Arguments Continue {S}. Arguments Stop {S}. Arguments Crash {S}.

(** DataSubscriber.go:804-875, runCommandChannelResponseThread, readPayloadHeader
    and readPacket.  [header] is the check made on the announced packet size
    (825-847) and [process] is processServerResponse.  Simplifications: after
    dispatchConnectionTerminated the loop ends at once (in the program a separate
    goroutine clears the connected flag, so a few more iterations may happen); and
    nothing else sets the disconnecting flag meanwhile.  [fuel] counts iterations. *)
Fixpoint channel_loop {S : Type} (header : S -> Z -> after S) (process : S -> bytes -> after S)
  (fuel : nat) (st : S) (r : reader) : after S :=
  match fuel with
  | O => Continue st
  | S fuel' =>
      match ReadFull r payloadHeaderSize with
      | None => Stop st
      | Some (h, r1) =>
          match header st (be_val h) with
          | Continue st1 =>
              match ReadFull r1 (be_val h) with
              | None => Stop st1
              | Some (p, r2) =>
                  match process st1 p with
                  | Continue st2 => channel_loop header process fuel' st2 r2
                  | x => x
                  end
              end
          | x => x
          end
      end
  end.
