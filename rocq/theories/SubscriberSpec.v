(** Specification vocabulary for the subscriber: messages as a publisher writes them,
    what an observer sees of a history, and which states can be reached. *)
From stdpp Require Import gmap.
From Verif Require Import Base TicksModel GuidModel FormatModel CompactModel CompactSpec CacheModel CacheSpec FrameModel FrameSpec TsscModel TsscSpec SubscriberModel.
Open Scope Z_scope.

(** A response packet: response code, command code, four bytes that are not used, data. *)
Definition response (code command : Z) (unused data : bytes) : bytes := code :: command :: unused ++ data.

(** Data packets: flags, number of measurements, body. *)
Definition data_flags (compressed : bool) (cache : Z) : Z := (if compressed then 8 else 2) + (if cache =? 1 then 16 else 0).
Definition data_packet (compressed : bool) (cache count : Z) (body : bytes) : bytes :=
  data_flags compressed cache :: be_put 4 count ++ body.
(** A TSSC body: version 85, sequence number, compressed bytes. *)
Definition tssc_body (seq : Z) (b : bytes) : bytes := 85 :: be_put 2 seq ++ b.

(** The sequence number after [q]: zero is skipped, it means reset. *)
Definition next_seq (q : Z) : Z := if q =? 65535 then 1 else q + 1.

(** What can be seen of a history. *)
Definition delivered (ev : list event) : list (list measurement) :=
  flat_map (fun x => match x with EvMeasurements l => [l] | _ => [] end) ev.
Definition blocks (ev : list event) : list (list block) :=
  flat_map (fun x => match x with EvBufferBlocks l => [l] | _ => [] end) ev.
Definition sent (ev : list event) : list bytes :=
  flat_map (fun x => match x with EvSend f => [f] | _ => [] end) ev.
Definition total_len {A} (l : list (list A)) : Z := fold_right (fun x a => len x + a) 0 l.

(** The responses that may come first on a connection. *)
Definition plausible (code command : Z) : Prop :=
  code = 0xFF \/ (command = 6 /\ (code = 0x80 \/ code = 0x81)).

(** Actions that neither connect nor subscribe, and so do not reset the counters. *)
Definition counts_on (a : action) : bool :=
  match a with AConnect _ | ASubscribe => false | _ => true end.
(** Actions within one connection. *)
Definition in_session (a : action) : bool :=
  match a with AConnect _ | ADisconnect => false | _ => true end.
Definition command_bytes (a : action) : Z := match a with APacket _ p => 4 + len p | _ => 0 end.
Definition datagram_bytes (a : action) : Z := match a with AUdp _ p => len p | _ => 0 end.
Definition sum (l : list Z) : Z := fold_right Z.add 0 l.

(** The packet of an action, the response code it carries. *)
Definition packet_of (a : action) : option bytes := match a with APacket _ p | AUdp _ p => Some p | _ => None end.
Definition code_of (p : bytes) : Z := nth 0 p 0.
Definition command_of (p : bytes) : Z := nth 1 p 0.
(** Received packets consist of bytes; so does what AES returns. *)
Definition packet_ok (a : action) : Prop := match packet_of a with Some p => bytes_ok p | None => True end.
Definition cbc_ok (e : env) : Prop := forall k iv x, bytes_ok (cbc e k iv x).
(** A subscriber with any settings after any history that did not crash. *)
Definition reachable (e : env) (s : sub) : Prop :=
  exists v cp cm cc sw st acts ev, Forall packet_ok acts /\ run e (NewDataSubscriber v cp cm cc sw st) acts = Ok (s, ev).
(** Packets small enough to be the first on a connection (6 + 8192 bytes). *)
Definition small (a : action) : Prop := match a with APacket _ p => len p <= 8198 | _ => True end.
(** A packet is looked at when the connection is validated, or when it validates it. *)
Definition accepted (s : sub) (p : bytes) : Prop := validated s = true \/ Version s < 2 \/ plausible (code_of p) (command_of p).
(** The subscription state after a response: success of Subscribe (2) or Unsubscribe (3). *)
Definition after_success (p : bytes) (old : bool) : bool :=
  if code_of p =? 0x80 then if command_of p =? 2 then true else if command_of p =? 3 then false else old else old.
(** An action carrying a cache update; the cache ActiveSignalIndexCache returns
    (DataSubscriber.go:1579-1585). *)
Definition updates_cache (a : action) : bool := match packet_of a with Some p => code_of p =? 0x83 | None => false end.
Definition active (s : sub) : sic := sc_sic (cache_at s (cacheIndex s)).
(** An action that carries a base time update / an update of cache slot [i], for
    protocol version [v]. *)
Definition has_base_times (a : action) : bool :=
  match packet_of a with Some p => code_of p =? 0x84 | None => false end.
Definition updates_slot (v i : Z) (a : action) : bool :=
  match packet_of a with
  | Some p => (code_of p =? 0x83) && (if 1 <? v then Bool.eqb (0 <? nth 6 p 0) (i =? 1) else i =? 0)
  | None => false
  end.
(** The slot a cache update message names. *)
Definition cache_update (v slot : Z) (body : bytes) : bytes := if 1 <? v then slot :: body else body.

(** Length-prefixed key material. *)
Definition blob (b : bytes) : bytes := be_put 4 (len b) ++ b.
Definition cipher_message (first : Z) (ek ei ok oi : bytes) : bytes := first :: blob ek ++ blob ei ++ blob ok ++ blob oi.

(** A TSSC session on cache slot [ci] (C27): packets that continue the encoder's
    stream, numbered consecutively, mixed with packets carrying any other non-zero
    sequence number.  [pool]: the slice the subscriber takes from its pool. *)
Inductive tpacket : Type :=
| Next (l : list (choice * tmeas))
| Stray (seq count : Z) (b : bytes).
Fixpoint session (ci : Z) (en : enc) (q : Z) (l : list (option (list measurement) * tpacket)) : option (list bytes) :=
  match l with
  | [] => Some []
  | (_, Next ms) :: r =>
      match e_packet en ms with
      | None => None
      | Some (b, en') =>
          match session ci en' (next_seq q) r with
          | Some ds => Some (data_packet true ci (len ms) (tssc_body q b) :: ds)
          | None => None
          end
      end
  | (_, Stray seq count b) :: r =>
      match session ci en q r with
      | Some ds => Some (data_packet true ci count (tssc_body seq b) :: ds)
      | None => None
      end
  end.
Fixpoint session_ok (q : Z) (l : list (option (list measurement) * tpacket)) : Prop :=
  match l with
  | [] => True
  | (_, Next ms) :: r => Forall (fun cm => tmeas_ok (snd cm)) ms /\ len ms < 2 ^ 32 /\ session_ok (next_seq q) r
  | (_, Stray seq count b) :: r => is_u16 seq /\ seq <> 0 /\ seq <> q /\ is_u32 count /\ session_ok q r
  end.
(** A decoded measurement as delivered, with the signal IDs of the cache [c]. *)
Definition with_signal (c : sic) (m : tmeas) : measurement :=
  mkMeas (match SignalID c (tm_id m) with Ok g => g | _ => Empty end) (tm_value m) (u64 (tm_time m)) (tm_flags m).
(** What is delivered for each packet. *)
Definition session_delivers (c : sic) (x : option (list measurement) * tpacket) : list measurement :=
  match x with
  | (_, Next ms) => map (fun cm => with_signal c (snd cm)) ms
  | (pool, Stray _ count _) => destination pool count
  end.

(** A buffer block message: sequence number, cache slot (from version 2), signal
    index, payload. *)
Definition block_message (v seq slot index : Z) (payload : bytes) : bytes :=
  be_put 4 seq ++ (if 1 <? v then [slot] else []) ++ be_put 4 index ++ payload.
(** A base time update. *)
Definition base_time_message (index b0 b1 : Z) : bytes := be_put 4 index ++ be_put 8 (b0 mod 2 ^ 64) ++ be_put 8 (b1 mod 2 ^ 64).

(** How much data a message with this response code must carry; [None] for data
    packets, cache updates and cipher keys, whose length depends on their content. *)
Definition data_needed (v code : Z) : option Z :=
  if (code =? 0x82) || (code =? 0x83) || (code =? 0x85) then None
  else if code =? 0x84 then Some 20
  else if code =? 0x86 then Some 8
  else if code =? 0x88 then Some (if 1 <? v then 9 else 8)
  else if code =? 0x89 then Some 4
  else Some 0.

(** The signal a cache table gives to a runtime ID. *)
Definition table_signal (rs : list crec) (i : Z) : guid := match latest (by_index i) rs with Some r => r_guid r | None => Empty end.
(** The publisher's cache update for slot [slot]: a well-formed table message,
    compressed if the subscriber asked for it. *)
Definition is_cache_update (e : env) (s : sub) (slot : Z) (rs : list crec) (body : bytes) : Prop :=
  exists declared owner extra,
  let msg := cache_wire (SwapGuidEndianness s) declared owner rs extra in
  Forall rec_ok rs /\ len rs < 2 ^ 32 /\ length owner = 16%nat /\ len msg < 2 ^ 32 /\ 0 <= declared <= len msg /\
  (if CompressSignalIndexCache s then gunzip e body = Some msg else body = msg) /\
  (slot = 0 \/ slot = 1 /\ 1 < Version s).
(** Consecutively numbered buffer block packets from number [k]: pool, slot, index, payload. *)
Fixpoint block_packets (v cmd : Z) (unused : bytes) (k : Z) (l : list (option (list measurement) * (Z * Z * bytes))) : list action :=
  match l with
  | [] => []
  | (pool, (slot, index, payload)) :: r =>
      APacket pool (response 0x88 cmd unused (block_message v (k mod 2 ^ 32) slot index payload)) :: block_packets v cmd unused (k + 1) r
  end.
Fixpoint numbers (k : Z) (n : nat) : list Z := match n with O => [] | S n => k mod 2 ^ 32 :: numbers (k + 1) n end.

(** The commands a client must answer a message with (C71): cache updates that were
    installed, buffer blocks and notifications are confirmed, nothing else is. *)
Definition installed (ev : list event) : bool := existsb (fun x => match x with EvSubscriptionUpdated _ => true | _ => false end) ev.
Definition confirmation (v code : Z) (d : bytes) (ev : list event) : list bytes :=
  if code =? 0x83 then if (1 <? v) && installed ev then [frame 0x0A []] else []
  else if code =? 0x88 then [frame 8 (firstn 4 d)]
  else if code =? 0x89 then [frame 7 (firstn 4 d)]
  else [].

(** A failure response to the Connect (0) or DefineOperationalModes (6) command. *)
Definition refuses (a : action) : bool :=
  match packet_of a with
  | Some p => (code_of p =? 0x81) && ((command_of p =? 0) || (command_of p =? 6))
  | None => false
  end.
