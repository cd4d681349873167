(** Model of the data subscriber's response handling and connection state,
    sttp/transport/DataSubscriber.go:172-202, 326-420, 457-649, 809-1486.

    A handler is a function from the subscriber state and the message to the new
    state and the list of observable effects, in order, or [Panic] (an unrecovered
    Go panic, which ends the process).  Simplifications: all callbacks are
    registered and return; socket writes succeed; message texts are reduced to the
    data they carry; log messages that depend on the clock (an out-of-sequence TSSC
    report at most every two seconds, the missing signal index cache warning) are
    left out; a handler runs to completion before anything else happens to the
    state.  int is 64 bits.  GZip and the AES block decryption are parameters. *)
From stdpp Require Import gmap.
From Verif Require Import Base TicksModel GuidModel FormatModel CompactModel CacheModel FrameModel TsscModel.
Open Scope Z_scope.

(** BufferBlock.go:28-36; a nil Buffer is [None]. *)
Record block : Type := mkBlock { bb_SignalID : guid; bb_Buffer : option bytes }.
Definition zeroBlock : block := mkBlock Empty None.

(** A signal index cache with its tsscDecoder field, SignalIndexCache.go:38-46. *)
Record scache : Type := mkScache { sc_sic : sic; sc_decoder : option td }.

(** DataSubscriber.go:49-169, the fields that the modelled functions use. *)
Record sub : Type := mkSub {
  connected : bool;
  validated : bool;
  subscribed : bool;
  connectionRefused : bool;
  Version : Z;
  CompressPayloadData : bool;
  CompressMetadata : bool;
  CompressSignalIndexCache : bool;
  SwapGuidEndianness : bool;
  subscription : settings;
  cmdBytes : Z;
  dataBytes : Z;
  measTotal : Z;
  measurementRegistry : registry;
  subscriberID : guid;
  cache0 : scache;
  cache1 : scache;
  cacheIndex : Z;
  timeIndex : Z;
  baseTimes : Z * Z;
  keyIVs : option ((bytes * bytes) * (bytes * bytes));
  tsscResetRequested : bool;
  bufferBlockExpected : Z;
  bufferBlockCache : list block;
  writeBuffer : bytes }.

Definition set_connected (s : sub) (v : bool) : sub :=
  mkSub v (validated s) (subscribed s) (connectionRefused s) (Version s) (CompressPayloadData s) (CompressMetadata s) (CompressSignalIndexCache s) (SwapGuidEndianness s) (subscription s) (cmdBytes s) (dataBytes s) (measTotal s) (measurementRegistry s) (subscriberID s) (cache0 s) (cache1 s) (cacheIndex s) (timeIndex s) (baseTimes s) (keyIVs s) (tsscResetRequested s) (bufferBlockExpected s) (bufferBlockCache s) (writeBuffer s).
Definition set_validated (s : sub) (v : bool) : sub :=
  mkSub (connected s) v (subscribed s) (connectionRefused s) (Version s) (CompressPayloadData s) (CompressMetadata s) (CompressSignalIndexCache s) (SwapGuidEndianness s) (subscription s) (cmdBytes s) (dataBytes s) (measTotal s) (measurementRegistry s) (subscriberID s) (cache0 s) (cache1 s) (cacheIndex s) (timeIndex s) (baseTimes s) (keyIVs s) (tsscResetRequested s) (bufferBlockExpected s) (bufferBlockCache s) (writeBuffer s).
Definition set_subscribed (s : sub) (v : bool) : sub :=
  mkSub (connected s) (validated s) v (connectionRefused s) (Version s) (CompressPayloadData s) (CompressMetadata s) (CompressSignalIndexCache s) (SwapGuidEndianness s) (subscription s) (cmdBytes s) (dataBytes s) (measTotal s) (measurementRegistry s) (subscriberID s) (cache0 s) (cache1 s) (cacheIndex s) (timeIndex s) (baseTimes s) (keyIVs s) (tsscResetRequested s) (bufferBlockExpected s) (bufferBlockCache s) (writeBuffer s).
Definition set_connectionRefused (s : sub) (v : bool) : sub :=
  mkSub (connected s) (validated s) (subscribed s) v (Version s) (CompressPayloadData s) (CompressMetadata s) (CompressSignalIndexCache s) (SwapGuidEndianness s) (subscription s) (cmdBytes s) (dataBytes s) (measTotal s) (measurementRegistry s) (subscriberID s) (cache0 s) (cache1 s) (cacheIndex s) (timeIndex s) (baseTimes s) (keyIVs s) (tsscResetRequested s) (bufferBlockExpected s) (bufferBlockCache s) (writeBuffer s).
Definition set_Version (s : sub) (v : Z) : sub :=
  mkSub (connected s) (validated s) (subscribed s) (connectionRefused s) v (CompressPayloadData s) (CompressMetadata s) (CompressSignalIndexCache s) (SwapGuidEndianness s) (subscription s) (cmdBytes s) (dataBytes s) (measTotal s) (measurementRegistry s) (subscriberID s) (cache0 s) (cache1 s) (cacheIndex s) (timeIndex s) (baseTimes s) (keyIVs s) (tsscResetRequested s) (bufferBlockExpected s) (bufferBlockCache s) (writeBuffer s).
Definition set_CompressPayloadData (s : sub) (v : bool) : sub :=
  mkSub (connected s) (validated s) (subscribed s) (connectionRefused s) (Version s) v (CompressMetadata s) (CompressSignalIndexCache s) (SwapGuidEndianness s) (subscription s) (cmdBytes s) (dataBytes s) (measTotal s) (measurementRegistry s) (subscriberID s) (cache0 s) (cache1 s) (cacheIndex s) (timeIndex s) (baseTimes s) (keyIVs s) (tsscResetRequested s) (bufferBlockExpected s) (bufferBlockCache s) (writeBuffer s).
Definition set_CompressMetadata (s : sub) (v : bool) : sub :=
  mkSub (connected s) (validated s) (subscribed s) (connectionRefused s) (Version s) (CompressPayloadData s) v (CompressSignalIndexCache s) (SwapGuidEndianness s) (subscription s) (cmdBytes s) (dataBytes s) (measTotal s) (measurementRegistry s) (subscriberID s) (cache0 s) (cache1 s) (cacheIndex s) (timeIndex s) (baseTimes s) (keyIVs s) (tsscResetRequested s) (bufferBlockExpected s) (bufferBlockCache s) (writeBuffer s).
Definition set_CompressSignalIndexCache (s : sub) (v : bool) : sub :=
  mkSub (connected s) (validated s) (subscribed s) (connectionRefused s) (Version s) (CompressPayloadData s) (CompressMetadata s) v (SwapGuidEndianness s) (subscription s) (cmdBytes s) (dataBytes s) (measTotal s) (measurementRegistry s) (subscriberID s) (cache0 s) (cache1 s) (cacheIndex s) (timeIndex s) (baseTimes s) (keyIVs s) (tsscResetRequested s) (bufferBlockExpected s) (bufferBlockCache s) (writeBuffer s).
Definition set_SwapGuidEndianness (s : sub) (v : bool) : sub :=
  mkSub (connected s) (validated s) (subscribed s) (connectionRefused s) (Version s) (CompressPayloadData s) (CompressMetadata s) (CompressSignalIndexCache s) v (subscription s) (cmdBytes s) (dataBytes s) (measTotal s) (measurementRegistry s) (subscriberID s) (cache0 s) (cache1 s) (cacheIndex s) (timeIndex s) (baseTimes s) (keyIVs s) (tsscResetRequested s) (bufferBlockExpected s) (bufferBlockCache s) (writeBuffer s).
Definition set_subscription (s : sub) (v : settings) : sub :=
  mkSub (connected s) (validated s) (subscribed s) (connectionRefused s) (Version s) (CompressPayloadData s) (CompressMetadata s) (CompressSignalIndexCache s) (SwapGuidEndianness s) v (cmdBytes s) (dataBytes s) (measTotal s) (measurementRegistry s) (subscriberID s) (cache0 s) (cache1 s) (cacheIndex s) (timeIndex s) (baseTimes s) (keyIVs s) (tsscResetRequested s) (bufferBlockExpected s) (bufferBlockCache s) (writeBuffer s).
Definition set_cmdBytes (s : sub) (v : Z) : sub :=
  mkSub (connected s) (validated s) (subscribed s) (connectionRefused s) (Version s) (CompressPayloadData s) (CompressMetadata s) (CompressSignalIndexCache s) (SwapGuidEndianness s) (subscription s) v (dataBytes s) (measTotal s) (measurementRegistry s) (subscriberID s) (cache0 s) (cache1 s) (cacheIndex s) (timeIndex s) (baseTimes s) (keyIVs s) (tsscResetRequested s) (bufferBlockExpected s) (bufferBlockCache s) (writeBuffer s).
Definition set_dataBytes (s : sub) (v : Z) : sub :=
  mkSub (connected s) (validated s) (subscribed s) (connectionRefused s) (Version s) (CompressPayloadData s) (CompressMetadata s) (CompressSignalIndexCache s) (SwapGuidEndianness s) (subscription s) (cmdBytes s) v (measTotal s) (measurementRegistry s) (subscriberID s) (cache0 s) (cache1 s) (cacheIndex s) (timeIndex s) (baseTimes s) (keyIVs s) (tsscResetRequested s) (bufferBlockExpected s) (bufferBlockCache s) (writeBuffer s).
Definition set_measTotal (s : sub) (v : Z) : sub :=
  mkSub (connected s) (validated s) (subscribed s) (connectionRefused s) (Version s) (CompressPayloadData s) (CompressMetadata s) (CompressSignalIndexCache s) (SwapGuidEndianness s) (subscription s) (cmdBytes s) (dataBytes s) v (measurementRegistry s) (subscriberID s) (cache0 s) (cache1 s) (cacheIndex s) (timeIndex s) (baseTimes s) (keyIVs s) (tsscResetRequested s) (bufferBlockExpected s) (bufferBlockCache s) (writeBuffer s).
Definition set_measurementRegistry (s : sub) (v : registry) : sub :=
  mkSub (connected s) (validated s) (subscribed s) (connectionRefused s) (Version s) (CompressPayloadData s) (CompressMetadata s) (CompressSignalIndexCache s) (SwapGuidEndianness s) (subscription s) (cmdBytes s) (dataBytes s) (measTotal s) v (subscriberID s) (cache0 s) (cache1 s) (cacheIndex s) (timeIndex s) (baseTimes s) (keyIVs s) (tsscResetRequested s) (bufferBlockExpected s) (bufferBlockCache s) (writeBuffer s).
Definition set_subscriberID (s : sub) (v : guid) : sub :=
  mkSub (connected s) (validated s) (subscribed s) (connectionRefused s) (Version s) (CompressPayloadData s) (CompressMetadata s) (CompressSignalIndexCache s) (SwapGuidEndianness s) (subscription s) (cmdBytes s) (dataBytes s) (measTotal s) (measurementRegistry s) v (cache0 s) (cache1 s) (cacheIndex s) (timeIndex s) (baseTimes s) (keyIVs s) (tsscResetRequested s) (bufferBlockExpected s) (bufferBlockCache s) (writeBuffer s).
Definition set_cache0 (s : sub) (v : scache) : sub :=
  mkSub (connected s) (validated s) (subscribed s) (connectionRefused s) (Version s) (CompressPayloadData s) (CompressMetadata s) (CompressSignalIndexCache s) (SwapGuidEndianness s) (subscription s) (cmdBytes s) (dataBytes s) (measTotal s) (measurementRegistry s) (subscriberID s) v (cache1 s) (cacheIndex s) (timeIndex s) (baseTimes s) (keyIVs s) (tsscResetRequested s) (bufferBlockExpected s) (bufferBlockCache s) (writeBuffer s).
Definition set_cache1 (s : sub) (v : scache) : sub :=
  mkSub (connected s) (validated s) (subscribed s) (connectionRefused s) (Version s) (CompressPayloadData s) (CompressMetadata s) (CompressSignalIndexCache s) (SwapGuidEndianness s) (subscription s) (cmdBytes s) (dataBytes s) (measTotal s) (measurementRegistry s) (subscriberID s) (cache0 s) v (cacheIndex s) (timeIndex s) (baseTimes s) (keyIVs s) (tsscResetRequested s) (bufferBlockExpected s) (bufferBlockCache s) (writeBuffer s).
Definition set_cacheIndex (s : sub) (v : Z) : sub :=
  mkSub (connected s) (validated s) (subscribed s) (connectionRefused s) (Version s) (CompressPayloadData s) (CompressMetadata s) (CompressSignalIndexCache s) (SwapGuidEndianness s) (subscription s) (cmdBytes s) (dataBytes s) (measTotal s) (measurementRegistry s) (subscriberID s) (cache0 s) (cache1 s) v (timeIndex s) (baseTimes s) (keyIVs s) (tsscResetRequested s) (bufferBlockExpected s) (bufferBlockCache s) (writeBuffer s).
Definition set_timeIndex (s : sub) (v : Z) : sub :=
  mkSub (connected s) (validated s) (subscribed s) (connectionRefused s) (Version s) (CompressPayloadData s) (CompressMetadata s) (CompressSignalIndexCache s) (SwapGuidEndianness s) (subscription s) (cmdBytes s) (dataBytes s) (measTotal s) (measurementRegistry s) (subscriberID s) (cache0 s) (cache1 s) (cacheIndex s) v (baseTimes s) (keyIVs s) (tsscResetRequested s) (bufferBlockExpected s) (bufferBlockCache s) (writeBuffer s).
Definition set_baseTimes (s : sub) (v : Z * Z) : sub :=
  mkSub (connected s) (validated s) (subscribed s) (connectionRefused s) (Version s) (CompressPayloadData s) (CompressMetadata s) (CompressSignalIndexCache s) (SwapGuidEndianness s) (subscription s) (cmdBytes s) (dataBytes s) (measTotal s) (measurementRegistry s) (subscriberID s) (cache0 s) (cache1 s) (cacheIndex s) (timeIndex s) v (keyIVs s) (tsscResetRequested s) (bufferBlockExpected s) (bufferBlockCache s) (writeBuffer s).
Definition set_keyIVs (s : sub) (v : option ((bytes * bytes) * (bytes * bytes))) : sub :=
  mkSub (connected s) (validated s) (subscribed s) (connectionRefused s) (Version s) (CompressPayloadData s) (CompressMetadata s) (CompressSignalIndexCache s) (SwapGuidEndianness s) (subscription s) (cmdBytes s) (dataBytes s) (measTotal s) (measurementRegistry s) (subscriberID s) (cache0 s) (cache1 s) (cacheIndex s) (timeIndex s) (baseTimes s) v (tsscResetRequested s) (bufferBlockExpected s) (bufferBlockCache s) (writeBuffer s).
Definition set_tsscResetRequested (s : sub) (v : bool) : sub :=
  mkSub (connected s) (validated s) (subscribed s) (connectionRefused s) (Version s) (CompressPayloadData s) (CompressMetadata s) (CompressSignalIndexCache s) (SwapGuidEndianness s) (subscription s) (cmdBytes s) (dataBytes s) (measTotal s) (measurementRegistry s) (subscriberID s) (cache0 s) (cache1 s) (cacheIndex s) (timeIndex s) (baseTimes s) (keyIVs s) v (bufferBlockExpected s) (bufferBlockCache s) (writeBuffer s).
Definition set_bufferBlockExpected (s : sub) (v : Z) : sub :=
  mkSub (connected s) (validated s) (subscribed s) (connectionRefused s) (Version s) (CompressPayloadData s) (CompressMetadata s) (CompressSignalIndexCache s) (SwapGuidEndianness s) (subscription s) (cmdBytes s) (dataBytes s) (measTotal s) (measurementRegistry s) (subscriberID s) (cache0 s) (cache1 s) (cacheIndex s) (timeIndex s) (baseTimes s) (keyIVs s) (tsscResetRequested s) v (bufferBlockCache s) (writeBuffer s).
Definition set_bufferBlockCache (s : sub) (v : list block) : sub :=
  mkSub (connected s) (validated s) (subscribed s) (connectionRefused s) (Version s) (CompressPayloadData s) (CompressMetadata s) (CompressSignalIndexCache s) (SwapGuidEndianness s) (subscription s) (cmdBytes s) (dataBytes s) (measTotal s) (measurementRegistry s) (subscriberID s) (cache0 s) (cache1 s) (cacheIndex s) (timeIndex s) (baseTimes s) (keyIVs s) (tsscResetRequested s) (bufferBlockExpected s) v (writeBuffer s).
Definition set_writeBuffer (s : sub) (v : bytes) : sub :=
  mkSub (connected s) (validated s) (subscribed s) (connectionRefused s) (Version s) (CompressPayloadData s) (CompressMetadata s) (CompressSignalIndexCache s) (SwapGuidEndianness s) (subscription s) (cmdBytes s) (dataBytes s) (measTotal s) (measurementRegistry s) (subscriberID s) (cache0 s) (cache1 s) (cacheIndex s) (timeIndex s) (baseTimes s) (keyIVs s) (tsscResetRequested s) (bufferBlockExpected s) (bufferBlockCache s) v.

(** The standard library functions outside the model.  [gunzip]: io.ReadAll over
    gzip.NewReader, None on error; [cbc key iv data]: AES-CBC decryption of whole
    blocks with a key of a valid size. *)
Record env : Type := mkEnv { gunzip : bytes -> option bytes; cbc : bytes -> bytes -> bytes -> bytes }.

(** Observable effects. *)
Inductive event : Type :=
| EvStatus (command : Z) (message : bytes)  (* status message about a command or notification *)
| EvInfo                                    (* other status message *)
| EvError                                   (* error message callback *)
| EvTerminate                               (* dispatchConnectionTerminated *)
| EvSend (frame : bytes)                    (* bytes written to the command channel *)
| EvMeasurements (l : list measurement)     (* NewMeasurementsCallback *)
| EvBufferBlocks (l : list block)           (* NewBufferBlocksCallback *)
| EvMetadata (d : bytes)                    (* MetadataReceivedCallback *)
| EvSubscriptionUpdated (c : sic)           (* SubscriptionUpdatedCallback *)
| EvDataStartTime (t : Z)
| EvProcessingComplete (d : bytes)
| EvConfigurationChanged
| EvNotification (d : bytes)
| EvEstablished                             (* ConnectionEstablishedCallback *)
| EvTerminated.                             (* ConnectionTerminatedCallback *)

Definition step : Type := res (sub * list event).
Definition done (s : sub) (ev : list event) : step := Ok (s, ev).
(** [k] after the effects [ev]. *)
Definition emit (ev : list event) (k : step) : step :=
  let* (s, ev') := k in Ok (s, ev ++ ev').

(** Constants.go:314-344, 493-520, 226-230 *)
Definition sc_Connect := 0. Definition sc_MetadataRefresh := 1. (* sc_Subscribe := 2 *)
Definition sc_Unsubscribe := 3. Definition sc_RotateCipherKeys := 4. Definition sc_UpdateProcessingInterval := 5.
(* sc_DefineOperationalModes := 6 *) Definition sc_ConfirmNotification := 7. Definition sc_ConfirmBufferBlock := 8.
Definition sc_ConfirmUpdateSignalIndexCache := 0x0A.
Definition sr_Succeeded := 0x80. Definition sr_Failed := 0x81. Definition sr_DataPacket := 0x82.
Definition sr_UpdateSignalIndexCache := 0x83. Definition sr_UpdateBaseTimes := 0x84.
Definition sr_UpdateCipherKeys := 0x85. Definition sr_DataStartTime := 0x86.
Definition sr_ProcessingComplete := 0x87. Definition sr_BufferBlock := 0x88. Definition sr_Notify := 0x89.
Definition sr_ConfigurationChanged := 0x8A. Definition sr_NoOP := 0xFF.
Definition df_Compact := 2. Definition df_CipherIndex := 4. Definition df_Compressed := 8. Definition df_CacheIndex := 0x10.

(** DataSubscriber.go:1499-1533 on the subscriber state. *)
Definition send (s : sub) (command : Z) (data : bytes) : step :=
  let* (wb, out) := SendServerCommandWithPayload (connected s) (writeBuffer s) command data in
  Ok (set_writeBuffer s wb, match out with Some f => [EvSend f] | None => [] end).

(** The cache slot of a 0/1 index. *)
Definition cache_at (s : sub) (i : Z) : scache := if i =? 0 then cache0 s else cache1 s.
Definition set_cache (s : sub) (i : Z) (c : scache) : sub := if i =? 0 then set_cache0 s c else set_cache1 s c.

(** SignalIndexCache.go:95-101.  The lookup by a cache built by decode never panics
    (C14), so the panic case is not propagated. *)
Definition signalID_of (c : sic) (i : Z) : guid := match SignalID c i with Ok g => g | _ => Empty end.

(** DataSubscriber.go:947-980 with 1005-1029 for metadata.  [EvMetadata]: the
    callback runs in a new goroutine, on a slice of the read buffer when metadata is
    not compressed. *)
Definition handleSucceeded (e : env) (s : sub) (command : Z) (data : bytes) : step :=
  if command =? sc_MetadataRefresh then
    if CompressMetadata s then
      match gunzip e data with
      | None => done s [EvInfo; EvError]
      | Some d => done s [EvInfo; EvInfo; EvMetadata d]
      end
    else done s [EvInfo; EvMetadata data]
  else if command =? sc_Subscribe then done (set_subscribed s true) [EvStatus command data]
  else if command =? sc_Unsubscribe then done (set_subscribed s false) [EvStatus command data]
  else if (command =? sc_DefineOperationalModes) || (command =? sc_RotateCipherKeys) || (command =? sc_UpdateProcessingInterval)
  then done s [EvStatus command data]
  else done s [EvError].

(** DataSubscriber.go:982-1003 *)
Definition handleFailed (s : sub) (command : Z) (data : bytes) : step :=
  if (command =? sc_Connect) || (command =? sc_DefineOperationalModes) then
    done (set_connectionRefused s true) (if 0 <? len data then [EvError] else [])
  else done s [EvError].

(** DataSubscriber.go:1031-1041 *)
Definition handleDataStartTime (s : sub) (data : bytes) : step :=
  let* t := be_u64 data in done s [EvDataStartTime t].

(** DataSubscriber.go:1053-1103.  A nil slice cannot arise from processServerResponse. *)
Definition handleUpdateSignalIndexCache (e : env) (s : sub) (data : bytes) : step :=
  let* (ci, data) := (if 1 <? Version s then
                        let* b := idx data 0 in
                        let* d := slice_from data 1 in
                        Ok (if 0 <? b then 1 else 0, d)
                      else Ok (0, data)) in
  let plain := if CompressSignalIndexCache s then gunzip e data else Some data in
  match plain with
  | None => done s [EvError]
  | Some data =>
      let '(d, r) := decode (mkDec (measurementRegistry s) (subscriberID s) NewSignalIndexCache) data (SwapGuidEndianness s) in
      let s := set_subscriberID (set_measurementRegistry s (d_reg d)) (d_sub d) in
      match r with
      | Panic => Panic
      | Err => done s [EvError]
      | Ok _ =>
          let s := set_cacheIndex (set_cache s ci (mkScache (d_sic d) None)) ci in
          let* (s, ev) := (if 1 <? Version s then send s sc_ConfirmUpdateSignalIndexCache [] else done s []) in
          done s (ev ++ [EvSubscriptionUpdated (d_sic d)])
      end
  end.

(** DataSubscriber.go:1105-1127; the status message of line 1125 reads the two
    offsets at index timeIndex^1, which panics outside 0 and 1. *)
Definition handleUpdateBaseTimes (s : sub) (data : bytes) : step :=
  let* ti := be_u32 data in
  let ti := if i32 ti =? 0 then 0 else 1 in
  let* d := slice_from data 4 in
  let* b0 := be_u64 d in
  let* d := slice_from data 12 in
  let* b1 := be_u64 d in
  let other := Z.lxor ti 1 in
  if (other <? 0) || (1 <? other) then Panic
  else done (set_baseTimes (set_timeIndex s ti) (i64 b0, i64 b1)) [EvInfo].

(** DataSubscriber.go:1138-1145 and its three repetitions: a length-prefixed buffer
    at [index] (a uint32) and the index after it; the copy stops at the end of data
    and the rest of the buffer stays zero. *)
Definition sized_buffer (data : bytes) (index : Z) : res (bytes * Z) :=
  let* d := slice_from data index in
  let* n := be_u32 d in
  let index := u32 (index + 4) in
  let* d := slice_from data index in
  let got := firstn (Z.to_nat n) d in
  Ok (got ++ repeat 0 (Z.to_nat n - length got), u32 (index + n)).
(** DataSubscriber.go:1129-1178 *)
Definition handleUpdateCipherKeys (s : sub) (data : bytes) : step :=
  let* (evenKey, index) := sized_buffer data 1 in
  let* (evenIV, index) := sized_buffer data index in
  let* (oddKey, index) := sized_buffer data index in
  let* (oddIV, index) := sized_buffer data index in
  done (set_keyIVs s (Some ((evenKey, evenIV), (oddKey, oddIV)))) [EvInfo].

(** Common.go:36-49: aes.NewCipher rejects other key sizes; cipher.NewCBCDecrypter
    panics on a wrong IV length, CryptBlocks on a partial block. *)
Definition decipherAES (e : env) (key iv data : bytes) : res bytes :=
  if negb ((len key =? 16) || (len key =? 24) || (len key =? 32)) then Err
  else if negb (len iv =? 16) then Panic
  else if negb (len data mod 16 =? 0) then Panic
  else Ok (cbc e key iv data).

(** DataSubscriber.go:1226-1236: the destination slice.  [pool]: what
    MeasurementPool.Get returned, the backing array of a slice put there earlier. *)
Definition destination (pool : option (list measurement)) (count : Z) : list measurement :=
  match pool with
  | Some l => if len l <? count then repeat zeroMeas (Z.to_nat count) else firstn (Z.to_nat count) l
  | None => repeat zeroMeas (Z.to_nat count)
  end.

(** DataSubscriber.go:1330-1341: at most [room] measurements fit. *)
Fixpoint tssc_loop (fuel : nat) (c : sic) (t : td) (room : nat) : list measurement * td * parse_end :=
  match fuel with
  | O => ([], t, PDone)
  | S f =>
      match TryGetMeasurement t with
      | DOk None t' => ([], t', PDone)
      | DOk (Some m) t' =>
          match room with
          | O => ([], t', PPanic)
          | S r =>
              let '(ms, t'', x) := tssc_loop f c t' r in
              (mkMeas (signalID_of c (tm_id m)) (tm_value m) (u64 (tm_time m)) (tm_flags m) :: ms, t'', x)
          end
      | DErr t' => ([], t', PErr)
      | DPanic => ([], t, PPanic)
      end
  end.

(** DataSubscriber.go:1266-1355.  Result: the state, the measurements stored at the
    front of the destination slice, the effects.  [ci] is the cache slot in use. *)
Definition parseTSSC (s : sub) (ci : Z) (data : bytes) (room : nat) : res (sub * list measurement * list event) :=
  let sc := cache_at s ci in
  let newDecoder := match sc_decoder sc with None => true | Some _ => false end in
  let d := match sc_decoder sc with None => NewDecoder | Some d => d end in
  let put (s : sub) (d : td) := set_cache s ci (mkScache (sc_sic sc) (Some d)) in
  let s := put s d in
  let* v := idx data 0 in
  if negb (v =? 85) then Ok (s, [], [EvError; EvTerminate])
  else
    let* t := slice_from data 1 in
    let* seq := be_u16 t in
    let ev := if (seq =? 0) && negb newDecoder && (0 <? SequenceNumber d) then [EvInfo] else [] in
    let d := if (seq =? 0) && negb newDecoder then NewDecoder else d in
    let s := if seq =? 0 then set_tsscResetRequested (put s d) false else s in
    if negb (SequenceNumber d =? seq) then Ok (s, [], ev)
    else
      let* body := slice_from data 3 in
      let '(ms, d, x) := tssc_loop (S (Z.to_nat (8 * len body))) (sc_sic sc) (SetBuffer d body) room in
      match x with
      | PPanic => Panic
      | PErr => Ok (put s d, ms, ev ++ [EvError; EvTerminate])
      | PDone =>
          let n := u16 (SequenceNumber d + 1) in
          Ok (put s (set_seq d (if n =? 0 then 1 else n)), ms, ev)
      end.

(** DataSubscriber.go:1357-1389 *)
Definition parseCompactMeasurements (s : sub) (ci : Z) (data : bytes) (room : nat) : res (sub * list measurement * list event) :=
  let c := sc_sic (cache_at s ci) in
  if Count c =? 0 then Ok (s, [], [])
  else
    let cfg := mkCfg (signalID_of c) (s_IncludeTime (subscription s)) (s_UseMillisecondResolution (subscription s)) (baseTimes s) in
    let '(ms, x) := parseCompact cfg data room in
    match x with
    | PPanic => Panic
    | PErr => Ok (s, ms, [EvError; EvTerminate])
    | PDone => Ok (s, ms, [])
    end.

(** DataSubscriber.go:1192-1264 *)
Definition handleDataPacket (e : env) (pool : option (list measurement)) (s : sub) (data : bytes) : step :=
  let* flags := idx data 0 in
  let compressed := 0 <? Z.land flags df_Compressed in
  let compact := 0 <? Z.land flags df_Compact in
  if negb compressed && negb compact then done s [EvError; EvTerminate]
  else
    let* data := slice_from data 1 in
    let plain :=
      match keyIVs s with
      | None => Ok data
      | Some (even, odd) =>
          let k := if 0 <? Z.land flags df_CipherIndex then odd else even in
          decipherAES e (fst k) (snd k) data
      end in
    match plain with
    | Panic => Panic
    | Err => done s [EvError; EvTerminate]
    | Ok data =>
        let* count := be_u32 data in
        let dest := destination pool count in
        let ci := if 0 <? Z.land flags df_CacheIndex then 1 else 0 in
        let* body := slice_from data 4 in
        let* (r, ev) := (if compressed then parseTSSC s ci body (length dest)
                         else parseCompactMeasurements s ci body (length dest)) in
        let '(s, ms) := r in
        done (set_measTotal s (u64 (measTotal s + count)))
             (ev ++ [EvMeasurements (ms ++ skipn (length ms) dest)])
    end.

(** DataSubscriber.go:1431-1439: how many cached blocks after the first follow in
    sequence. *)
Fixpoint ready (l : list block) : nat :=
  match l with
  | mkBlock _ (Some _) :: r => S (ready r)
  | _ => O
  end.
(** DataSubscriber.go:1391-1468.  The buffer block is built with its signal ID only
    (line 1420): Buffer is never assigned. *)
Definition handleBufferBlock (s : sub) (data : bytes) : step :=
  let* seq := be_u32 data in
  let bci := u32 (seq - bufferBlockExpected s) in
  let* ci := (if 1 <? Version s then
                let* t := slice_from data 4 in
                let* b := idx t 0 in Ok (if 0 <? b then 1 else 0)
              else Ok 0) in
  let fresh := (len (bufferBlockCache s) <=? bci) ||
               match nth_error (bufferBlockCache s) (Z.to_nat bci) with Some (mkBlock _ (Some _)) => false | _ => true end in
  if negb fresh then done s []
  else
    let* confirm := slice data 0 4 in
    let* (s, ev) := send s sc_ConfirmBufferBlock confirm in
    let* data := slice_from data (if 1 <? Version s then 5 else 4) in
    let* si := be_u32 data in
    let b := mkBlock (signalID_of (sc_sic (cache_at s ci)) (i32 si)) None in
    if seq =? bufferBlockExpected s then
      let n := ready (skipn 1 (bufferBlockCache s)) in
      let out := b :: firstn n (skipn 1 (bufferBlockCache s)) ++ repeat zeroBlock (length (bufferBlockCache s) - n) in
      done (set_bufferBlockExpected (set_bufferBlockCache s (skipn (1 + n) (bufferBlockCache s)))
              (u32 (bufferBlockExpected s + 1 + Z.of_nat n)))
           (ev ++ [EvBufferBlocks out])
    else
      let c := bufferBlockCache s ++ repeat zeroBlock (Z.to_nat (bci + 1) - length (bufferBlockCache s)) in
      let* c := upd c bci b in
      done (set_bufferBlockCache s c) ev.

(** DataSubscriber.go:1470-1486 *)
Definition handleNotification (s : sub) (data : bytes) : step :=
  let* m := slice_from data 4 in
  let* h := slice data 0 4 in
  emit [EvStatus sr_Notify m; EvNotification m] (send s sc_ConfirmNotification h).

(** DataSubscriber.go:905-915: None when the response is refused. *)
Definition validate (s : sub) (response command : Z) : option sub :=
  if negb (validated s) then
    if (2 <=? Version s) && negb (response =? sr_NoOP) &&
       (negb (command =? sc_DefineOperationalModes) || (negb (response =? sr_Succeeded) && negb (response =? sr_Failed)))
    then None
    else Some (set_validated s true)
  else Some s.

(** DataSubscriber.go:899-945 *)
Definition processServerResponse (e : env) (pool : option (list measurement)) (s : sub) (buffer : bytes) : step :=
  let* data := slice_from buffer responseHeaderSize in
  let* response := idx buffer 0 in
  let* command := idx buffer 1 in
  match validate s response command with
  | None => done s [EvError; EvTerminate]
  | Some s =>
      if response =? sr_Succeeded then handleSucceeded e s command data
      else if response =? sr_Failed then handleFailed s command data
      else if response =? sr_DataPacket then handleDataPacket e pool s data
      else if response =? sr_DataStartTime then handleDataStartTime s data
      else if response =? sr_ProcessingComplete then done s [EvProcessingComplete data]
      else if response =? sr_UpdateSignalIndexCache then handleUpdateSignalIndexCache e s data
      else if response =? sr_UpdateBaseTimes then handleUpdateBaseTimes s data
      else if response =? sr_UpdateCipherKeys then handleUpdateCipherKeys s data
      else if response =? sr_ConfigurationChanged then done s [EvInfo; EvConfigurationChanged]
      else if response =? sr_BufferBlock then handleBufferBlock s data
      else if response =? sr_Notify then handleNotification s data
      else if response =? sr_NoOP then done s []
      else done s [EvError]
  end.

(** DataSubscriber.go:820-847: after a payload header has arrived.  [false]: the
    connection is given up before the packet is read. *)
Definition maxInitialPacketSize : Z := responseHeaderSize + 8192.
Definition readPayloadHeader (s : sub) (packetSize : Z) : sub * bool :=
  let s := set_cmdBytes s (u64 (cmdBytes s + payloadHeaderSize)) in
  if negb (validated s) then
    if 2 <=? Version s then (s, packetSize <=? maxInitialPacketSize)
    else (set_validated s true, true)
  else (s, true).
(** DataSubscriber.go:870-874: after the packet has arrived. *)
Definition readPacket (e : env) (pool : option (list measurement)) (s : sub) (packet : bytes) : step :=
  processServerResponse e pool (set_cmdBytes s (u64 (cmdBytes s + len packet))) packet.
(** One packet on the command channel, header and body. *)
Definition receive (e : env) (pool : option (list measurement)) (s : sub) (packet : bytes) : step :=
  let '(s, go) := readPayloadHeader s (len packet) in
  if go then readPacket e pool s packet else done s [EvError; EvTerminate].
(** DataSubscriber.go:891-895: a datagram on the data channel. *)
Definition receiveUdp (e : env) (pool : option (list measurement)) (s : sub) (packet : bytes) : step :=
  processServerResponse e pool (set_dataBytes s (u64 (dataBytes s + len packet))) packet.

(** DataSubscriber.go:172-202, followed by assignments to the exported fields and the
    subscription settings (defaults: version 2, compression on, no GUID swap).  The
    read buffer is not part of the state. *)
Definition NewDataSubscriber (v : Z) (cp cm cc sw : bool) (st : settings) : sub :=
  mkSub false true false false v cp cm cc sw st 0 0 0 ∅ Empty
    (mkScache NewSignalIndexCache None) (mkScache NewSignalIndexCache None) 0 0 (0, 0) None false 0 []
    (repeat 0 (Z.to_nat maxPacketSize)).

(** DataSubscriber.go:370-381 *)
Definition setupConnection (s : sub) : sub :=
  let s := set_subscribed s false in
  let s := set_measTotal (set_dataBytes (set_cmdBytes s 0) 0) 0 in
  set_measurementRegistry (set_bufferBlockExpected (set_keyIVs s None) 0) ∅.
(** DataSubscriber.go:1535-1566 *)
Definition sendOperationalModes (s : sub) : step :=
  send s sc_DefineOperationalModes (be_put 4 (operationalModes (Version s) oe_UTF8 (CompressPayloadData s)
    (s_UdpDataChannel (subscription s)) (CompressMetadata s) (CompressSignalIndexCache s))).
(** DataSubscriber.go:383-420 *)
Definition establishConnection (s : sub) : step :=
  let s := set_connected s true in
  let* (s, ev) := sendOperationalModes s in
  done s (ev ++ [EvEstablished]).
(** DataSubscriber.go:326-368; [dial] tells whether the TCP connection succeeds. *)
Definition connect (s : sub) (dial : bool) : step :=
  if connected s then done s []
  else
    let s := set_connectionRefused (setupConnection s) false in
    if dial then establishConnection s else done s [].
(** DataSubscriber.go:573-593 *)
Definition Unsubscribe (s : sub) : step :=
  if negb (connected s) || negb (validated s) then done s [] else send s sc_Unsubscribe [].
(** DataSubscriber.go:458-570; opening the UDP socket succeeds. *)
Definition Subscribe (s : sub) : step :=
  if negb (connected s) then done s []
  else if (2 <=? Version s) && negb (validated s) then done s []
  else
    let* (s, ev1) := (if subscribed s then Unsubscribe s else done s []) in
    let s := set_measTotal s 0 in
    let* (s, ev2) := send s sc_Subscribe (subscribe_payload (subscription s)) in
    done (set_tsscResetRequested s true) (ev1 ++ ev2).
(** DataSubscriber.go:608-722, run to completion. *)
Definition disconnect (s : sub) : step :=
  done (set_subscribed (set_validated (set_connected s false) false) false) [EvTerminated].

(** Everything that can happen to a subscriber, one atomic action each.  Packets are
    handled only while connected; the disconnection asked for by [EvTerminate] runs
    in another goroutine and is a separate action, so further packets may be handled
    before it. *)
Inductive action : Type :=
| AConnect (dial : bool)
| APacket (pool : option (list measurement)) (packet : bytes)
| AUdp (pool : option (list measurement)) (packet : bytes)
| ASubscribe | AUnsubscribe | ADisconnect.
Definition act (e : env) (s : sub) (a : action) : step :=
  match a with
  | AConnect dial => connect s dial
  | APacket pool p => if connected s then receive e pool s p else done s []
  | AUdp pool p => if connected s then receiveUdp e pool s p else done s []
  | ASubscribe => Subscribe s
  | AUnsubscribe => Unsubscribe s
  | ADisconnect => disconnect s
  end.
Fixpoint run (e : env) (s : sub) (l : list action) : step :=
  match l with
  | [] => done s []
  | a :: r => let* (s1, ev) := act e s a in emit ev (run e s1 r)
  end.
