(** End to end (C106): what a publisher may send on a connection, and what the
    application must then receive.  Written from the publisher's side: its state is
    what it has sent on this connection. *)
From stdpp Require Import gmap.
From Verif Require Import Base GuidModel CompactModel CompactSpec CacheModel CacheSpec FrameModel FrameSpec TsscModel TsscSpec SubscriberModel SubscriberSpec.
Open Scope Z_scope.

(** What the two sides have agreed on. *)
Record options : Type := mkOptions {
  o_version : Z; o_swap : bool; o_zip : bool; o_time : bool; o_milliseconds : bool }.
Definition options_of (s : sub) : options :=
  mkOptions (Version s) (SwapGuidEndianness s) (CompressSignalIndexCache s)
    (s_IncludeTime (subscription s)) (s_UseMillisecondResolution (subscription s)).

(** The publisher: the signal table it has sent for each slot, the TSSC encoder of
    the slot with its next sequence number, the base times and the keys it has sent. *)
Definition key_pair : Type := (bytes * bytes)%type.
Record pub : Type := mkPub {
  p_table : Z -> option (list crec);
  p_stream : Z -> option (enc * Z);
  p_bases : Z * Z;
  p_keys : option (key_pair * key_pair) }.
(** On a new connection nothing has been sent. *)
Definition pub0 : pub := mkPub (fun _ => None) (fun _ => None) (0, 0) None.
Definition put {A} (f : Z -> A) (i : Z) (x : A) : Z -> A := fun j => if j =? i then x else f j.

(** What a data packet was made from. *)
Inductive content : Type :=
| Samples (cfg : cm_config) (ss : list sample)
| Points (signal : Z -> guid) (ms : list tmeas).
(** Compact packets arrive as C11 says (flags by category, times in the resolution
    agreed on), TSSC packets exactly; in both cases one by one, in order, with the
    signals of the table. *)
Definition arrives (c : content) (ms : list measurement) : Prop :=
  match c with
  | Samples cfg ss => Forall2 (received cfg) ss ms
  | Points signal l =>
      ms = map (fun m => mkMeas (signal (tm_id m)) (tm_value m) (u64 (tm_time m)) (tm_flags m)) l
  end.

(** The message for a signal table. *)
Definition is_table (e : env) (o : options) (rs : list crec) (body : bytes) : Prop :=
  exists declared owner extra,
  let msg := cache_wire (o_swap o) declared owner rs extra in
  Forall rec_ok rs /\ rs <> [] /\ len rs < 2 ^ 32 /\ length owner = 16%nat /\ len msg < 2 ^ 32 /\ 0 <= declared <= len msg /\
  (if o_zip o then gunzip e body = Some msg else body = msg).
(** A usable AES key. *)
Definition key_ok (k : key_pair) : Prop :=
  (len (fst k) = 16 \/ len (fst k) = 24 \/ len (fst k) = 32) /\ len (snd k) = 16.
(** [data] is [plain], encrypted with the key [odd] selects once keys are in use. *)
Definition sealed (e : env) (keys : option (key_pair * key_pair)) (odd : bool) (plain data : bytes) : Prop :=
  match keys with
  | None => data = plain
  | Some (k0, k1) => let k := if odd then k1 else k0 in
                     len data mod 16 = 0 /\ cbc e (fst k) (snd k) data = plain
  end.
Definition packet_flags (compressed : bool) (slot : Z) (odd : bool) : Z :=
  data_flags compressed slot + (if odd then 4 else 0).

(** Padding after a compressed packet is told from data if the packet ends with an
    end-of-stream code, which it does unless its bits fill whole bytes. *)
Definition padding_ok (en : enc) (l : list (choice * tmeas)) (padding : bytes) : Prop :=
  padding = [] \/ exists i en1, e_items en l = Some (i, en1) /\ (length (bits_of i) mod 8 <> 0)%nat.

(** The packets of a TSSC stream, padded. *)
Inductive padded : enc -> list (list (choice * tmeas)) -> list bytes -> Prop :=
| padded_nil en : padded en [] []
| padded_cons en l b en' padding ls bs : e_packet en l = Some (b, en') -> padding_ok en l padding -> padded en' ls bs ->
    padded en (l :: ls) ((b ++ padding) :: bs).

(** One packet, its content if it carries data, and the publisher afterwards. *)
Inductive publishes (e : env) (o : options) (p : pub) : bytes -> list content -> pub -> Prop :=
| pub_table cmd z slot rs body : length z = 4%nat -> slot = 0 \/ slot = 1 /\ 1 < o_version o -> is_table e o rs body ->
    publishes e o p (response 0x83 cmd z (cache_update (o_version o) slot body)) []
      (mkPub (put (p_table p) slot (Some rs)) (put (p_stream p) slot None) (p_bases p) (p_keys p))
| pub_bases cmd z index b0 b1 : length z = 4%nat -> is_i64 b0 -> is_i64 b1 ->
    publishes e o p (response 0x84 cmd z (base_time_message index b0 b1)) []
      (mkPub (p_table p) (p_stream p) (b0, b1) (p_keys p))
| pub_keys cmd z first k0 k1 : length z = 4%nat -> key_ok k0 -> key_ok k1 ->
    publishes e o p (response 0x85 cmd z (cipher_message first (fst k0) (snd k0) (fst k1) (snd k1))) []
      (mkPub (p_table p) (p_stream p) (p_bases p) (Some (k0, k1)))
(** Compact measurements in a slot that has a table; padding may follow. *)
| pub_compact cmd z slot odd rs ss padding data : length z = 4%nat -> slot = 0 \/ slot = 1 -> p_table p slot = Some rs ->
    Forall sample_ok ss -> len ss < 2 ^ 32 ->
    let cfg := mkCfg (table_signal rs) (o_time o) (o_milliseconds o) (p_bases p) in
    sealed e (p_keys p) odd (be_put 4 (len ss) ++ concat (map (encode_sample cfg) ss) ++ padding) data ->
    publishes e o p (response 0x82 cmd z (packet_flags false slot odd :: data)) [Samples cfg ss] p
(** Compressed measurements: the stream of the slot goes on, or starts afresh. *)
| pub_tssc cmd z slot odd rs en q l b en' padding data : length z = 4%nat -> slot = 0 \/ slot = 1 -> p_table p slot = Some rs ->
    (en, q) = (enc0, 0) \/ p_stream p slot = Some (en, q) ->
    Forall (fun cm => tmeas_ok (snd cm)) l -> len l < 2 ^ 32 -> e_packet en l = Some (b, en') -> padding_ok en l padding ->
    sealed e (p_keys p) odd (be_put 4 (len l) ++ tssc_body q (b ++ padding)) data ->
    publishes e o p (response 0x82 cmd z (packet_flags true slot odd :: data)) [Points (table_signal rs) (map snd l)]
      (mkPub (p_table p) (put (p_stream p) slot (Some (en', next_seq q))) (p_bases p) (p_keys p))
(** Any other message, of sufficient length. *)
| pub_other code cmd z d n : length z = 4%nat -> code <> 0x84 -> data_needed (o_version o) code = Some n -> n <= len d ->
    publishes e o p (response code cmd z d) [] p.

(** A whole connection. *)
Inductive publication (e : env) (o : options) : pub -> list bytes -> list content -> Prop :=
| publication_end p : publication e o p [] []
| publication_more p packet cs p' packets rest :
    publishes e o p packet cs p' -> publication e o p' packets rest ->
    publication e o p (packet :: packets) (cs ++ rest).

(** The packets among the actions of a subscriber. *)
Definition packets_of (acts : list action) : list bytes :=
  flat_map (fun a => match packet_of a with Some p => [p] | None => [] end) acts.
