(** C113: a data packet decoded while the command channel's responses are handled. *)
From stdpp Require Import gmap.
From Coq Require Import Lia ZArith.
From Verif Require Import Base TicksModel GuidModel CompactModel CompactSpec CacheModel CacheSpec CacheProofs FrameModel FrameSpec SubscriberModel SubscriberSpec SubscriberProofs7 EndSpec PropertiesSubscriber PropertiesEnd
  MixModel MixSpec MixProofs MixProofs2.
Open Scope Z_scope.

(** ** The steps are those of the packet handler, the stores those of the others *)
Theorem C113_alone : forall e pool s packet flags, idx packet 0 = Ok flags -> (0 <? Z.land flags df_Compressed) = false ->
  exists o count, (exists K, forall k, (K <= k)%nat ->
    mixed e pool (s_IncludeTime (subscription s)) (s_UseMillisecondResolution (subscription s)) packet (shared_of s) Start (repeat Data k) = Finished o) /\
    handleDataPacket e pool s packet =
    match o with
    | Crashed => Panic
    | Refused => Ok (s, [EvError; EvTerminate])
    | Given failed ms => Ok (set_measTotal s (u64 (measTotal s + count)),
        (if failed then [EvError; EvTerminate] else []) ++ [EvMeasurements (ms ++ skipn (length ms) (destination pool count))])
    end.
Proof. exact alone. Qed.
Print Assumptions C113_alone.
Theorem C113_stores : forall e pool s code cmd z data s' ev ws, validated s = true -> length z = 4%nat ->
  In code [sr_UpdateBaseTimes; sr_UpdateCipherKeys; sr_UpdateSignalIndexCache] ->
  processServerResponse e pool s (response code cmd z data) = Ok (s', ev) -> stores e s code data = Ok ws -> shared_of s' = apply_all (shared_of s) ws.
Proof. exact stores_response. Qed.
Print Assumptions C113_stores.
Theorem C113_new_connection : forall s, shared_of (setupConnection s) = apply_all (shared_of s) [SKeys None].
Proof. reflexivity. Qed.

(** The packet of the example below is one that [C113_alone] is about. *)
Example C113_alone_nonvacuous : exists flags, idx (packet_flags false 0 true :: [1; 2]) 0 = Ok flags /\ (0 <? Z.land flags df_Compressed) = false.
Proof. eexists. split; reflexivity. Qed.

(** ** What holds whatever the other goroutines store *)
(** A publisher's packet for a slot, encoded with the table and base times of [h] and
    encrypted with the key of [h] that [odd] selects.  If nobody replaces that key, the
    packet is never refused and never crashes the process; all measurements come from
    one table that the slot held; values and flags are right; and so is each time whose
    base time is not replaced. *)
Theorem C113_any_stores_partial : forall e pool incl ms h second odd ss padding data sched,
  is_i64 (h_base0 h) -> is_i64 (h_base1 h) -> keys_fine (h_keys h) -> Forall sample_ok ss -> len ss < 2 ^ 32 ->
  let cfg := mkCfg (signalID_of (h_cache h second)) incl ms (h_base0 h, h_base1 h) in
  sealed e (h_keys h) odd (be_put 4 (len ss) ++ concat (map (encode_sample cfg) ss) ++ padding) data ->
  (forall k, In (SKeys k) (stores_of sched) -> key_for k odd = key_for (h_keys h) odd) -> (length ss + 3 < turns sched)%nat ->
  exists c l, held h second (stores_of sched) c /\
    mixed e pool incl ms (packet_flags false (if second then 1 else 0) odd :: data) h Start sched = Finished (Given false l) /\
    (if Count c =? 0 then l = [] else Forall2 (expected h cfg (stores_of sched) c) ss l).
Proof.
  intros e pool incl ms h second odd ss pad data sched B0 B1 KF OK LN cfg SE KW T.
  exact (from_start e pool incl ms h second odd ss pad data (stores_of sched) B0 B1 KF OK LN SE KW sched h
    (inv0 h second odd (stores_of sched)) ltac:(lia) ltac:(auto)).
Qed.
Print Assumptions C113_any_stores_partial.

(** A publisher that replaces only what the packets on their way do not refer to (the
    other table, the other base time, the other key) loses nothing. *)
Theorem C113_unrelated_partial : forall e pool incl ms h second odd ss padding data sched,
  is_i64 (h_base0 h) -> is_i64 (h_base1 h) -> keys_fine (h_keys h) -> Forall sample_ok ss -> len ss < 2 ^ 32 -> Count (h_cache h second) <> 0 ->
  let cfg := mkCfg (signalID_of (h_cache h second)) incl ms (h_base0 h, h_base1 h) in
  sealed e (h_keys h) odd (be_put 4 (len ss) ++ concat (map (encode_sample cfg) ss) ++ padding) data ->
  Forall (unrelated h second odd ss) (stores_of sched) -> (length ss + 3 < turns sched)%nat ->
  exists l, mixed e pool incl ms (packet_flags false (if second then 1 else 0) odd :: data) h Start sched = Finished (Given false l) /\
    Forall2 (received cfg) ss l.
Proof. exact unrelated_received. Qed.
Print Assumptions C113_unrelated_partial.

(** Two samples, encrypted with the odd key, while the other table, the other base time
    and the other key are replaced. *)
Definition C113_h : shared := mkShared (Some (C106_key 1, C106_key 2)) (cache_of C106_rs) NewSignalIndexCache (fst C106_b) (snd C106_b).
Definition C113_packet : bytes := packet_flags false 0 true :: C106_seal 2 (C106_plain ++ C106_padding).
Definition C113_sched : list turn :=
  [Store (SBase false (fst C106_b)); Data; Store (SKeys (Some (C106_key 5, C106_key 2))); Data; Store (SCache true (cache_of C106_rs)); Data; Data;
   Store (SKeys (Some (C106_key 6, C106_key 2))); Data; Data; Data].
Example C113_nonvacuous : exists l,
  mixed ex_cipher None true false C113_packet C113_h Start C113_sched = Finished (Given false l) /\ length l = 2%nat /\
  Forall2 (received (mkCfg (signalID_of (cache_of C106_rs)) true false C106_b)) ex_ss l.
Proof.
  destruct (C113_unrelated_partial ex_cipher None true false C113_h false true ex_ss C106_padding (C106_seal 2 (C106_plain ++ C106_padding)) C113_sched) as (l & A & B).
  - vm_compute. intuition discriminate.
  - vm_compute. intuition discriminate.
  - vm_compute. intuition reflexivity.
  - exact C106_samples_ok.
  - vm_compute. reflexivity.
  - vm_compute. discriminate.
  - vm_compute. split; reflexivity.
  - repeat constructor; try discriminate.
  - vm_compute. lia.
  - exists l. split; [exact A|]. split; [symmetry; exact (Forall2_length _ _ _ B)|exact B].
Qed.

(** ** Compressed packets *)
(** A compressed packet is handled as at one moment, whatever the others store, if its
    key is not replaced: the application and the subscriber's state are as if the stores
    [before] had come first, then the whole packet, then the stores [after]. *)
Theorem C113_compressed : forall e pool packet flags s sched,
  idx packet 0 = Ok flags -> (0 <? Z.land flags df_Compressed) = true -> let odd := 0 <? Z.land flags df_CipherIndex in
  (forall k, In (SKeys k) (stores_of sched) -> key_for k odd = key_for (keyIVs s) odd) -> (4 <= turns sched)%nat ->
  exists before after, stores_of sched = before ++ after /\
    match handleDataPacket e pool (put_all s before) packet with
    | Ok (s', ev) => zmixed e pool packet s ZStart sched = (put_all s' after, ZDone (Ok ev))
    | _ => zmixed e pool packet s ZStart sched = (put_all s (stores_of sched), ZDone Panic)
    end.
Proof. intros e pool packet flags s sched F C odd K T. exact (compressed_serial e pool packet flags odd sched s F C eq_refl K T). Qed.
Print Assumptions C113_compressed.
(** If the slot's table is not replaced either, it is reported exactly what the packet
    alone would report. *)
Theorem C113_compressed_unrelated : forall e pool packet flags s sched,
  idx packet 0 = Ok flags -> (0 <? Z.land flags df_Compressed) = true ->
  (forall k, In (SKeys k) (stores_of sched) -> key_for k (0 <? Z.land flags df_CipherIndex) = key_for (keyIVs s) (0 <? Z.land flags df_CipherIndex)) ->
  (forall c, ~ In (SCache (0 <? Z.land flags df_CacheIndex) c) (stores_of sched)) -> (4 <= turns sched)%nat ->
  snd (zmixed e pool packet s ZStart sched) =
  ZDone match handleDataPacket e pool s packet with Ok (_, ev) => Ok ev | Err => Err | Panic => Panic end.
Proof. intros e pool packet flags s sched. exact (compressed_unrelated e pool packet flags sched s). Qed.
Print Assumptions C113_compressed_unrelated.
(** The stores are those of the other goroutines on the whole state. *)
Theorem C113_put : forall s w, shared_of (put s w) = apply (shared_of s) w.
Proof. intros s [k|[] c|[] v]; reflexivity. Qed.
(** A compressed packet whose table is replaced after it was fetched: both measurements
    arrive under the old table, and the new table starts with a new decoder. *)
Definition C113_s : sub := set_cache ex_new 1 (mkScache (cache_of C106_rs) None).
Definition C113_z : bytes := packet_flags true 1 false :: be_put 4 2 ++ tssc_body 0 C106_b1.
Example C113_compressed_nonvacuous :
  let '(s, a) := zmixed ex_cipher None C113_z C113_s ZStart [Store (SBase false 5); Data; Data; Store (SCache true NewSignalIndexCache); Data; Store (SKeys None); Data] in
  a = ZDone (Ok [EvMeasurements [mkMeas (table_signal C106_rs 7) 5 637000000000000000 0; mkMeas (table_signal C106_rs 8) 0x3F800000 637000000000000001 4]]) /\
  cache1 s = mkScache NewSignalIndexCache None /\ measTotal s = 2 /\ baseTimes s = (5, 0).
Proof. vm_compute. auto. Qed.

(** ** What does not hold *)
(** New base times arrive (both words stored at once) after the first of two samples is
    decoded: the application gets the first with the old and the second with the new
    base time, which handling the packet at any one moment would not give. *)
Definition C113_ss : list sample := [mkSample 7 1 0 637000000000000005 0; mkSample 8 2 0 637000000000000006 0].
Definition C113_h2 : shared := mkShared None (cache_of C106_rs) NewSignalIndexCache (fst C106_b) (snd C106_b).
Definition C113_packet2 : bytes := packet_flags false 0 false :: be_put 4 2 ++ concat (map (encode_sample (C106_cfg C106_b)) C113_ss).
Definition C113_torn : list turn :=
  [Data; Data; Data; Store (SBase false 637000001200000000); Store (SBase true (snd C106_b)); Data; Data].
Definition C113_torn_result : outcome :=
  Given false [mkMeas (table_signal C106_rs 7) 1 637000000000000005 0; mkMeas (table_signal C106_rs 8) 2 637000001200000006 0].
Theorem C113_torn_refuted : ~ (forall e pool incl ms packet h sched o,
  mixed e pool incl ms packet h Start sched = Finished o -> serializable e pool incl ms packet h sched o).
Proof.
  intros H. specialize (H ex_cipher None true false C113_packet2 C113_h2 C113_torn C113_torn_result ltac:(vm_compute; reflexivity)).
  destruct H as (before & after & n & E & M).
  change (stores_of C113_torn) with [SBase false 637000001200000000; SBase true (snd C106_b)] in E.
  assert (X : forall h, mixed ex_cipher None true false C113_packet2 h Start (repeat Data n) = Finished C113_torn_result ->
    match mixed ex_cipher None true false C113_packet2 h Start (repeat Data 5) with Finished o => o = C113_torn_result | _ => True end).
  { intros h B. destruct (mixed _ _ _ _ _ h Start (repeat Data 5)) eqn:A; try exact I. exact (alone_unique _ _ _ _ _ _ _ _ _ _ _ A B). }
  destruct before as [|w1 [|w2 [|w3 r]]]; cbn [app] in E.
  - specialize (X _ M). vm_compute in X. discriminate X.
  - injection E as <- _. specialize (X _ M). vm_compute in X. discriminate X.
  - injection E as <- <- _. specialize (X _ M). vm_compute in X. discriminate X.
  - discriminate E.
Qed.
Print Assumptions C113_torn_refuted.
(** The stores of that schedule are those of one message. *)
Example C113_torn_message : forall s, stores ex_cipher s sr_UpdateBaseTimes (base_time_message 0 637000001200000000 (snd C106_b)) = Ok (stores_of C113_torn).
Proof. intros s. vm_compute. reflexivity. Qed.

(** A new connection is set up (keys set to nil) between the test of the keys and their
    use: the process crashes, though no packet is malformed. *)
Theorem C113_crash_refuted : ~ (forall e pool incl ms h second odd ss padding data sched,
  keys_fine (h_keys h) -> Forall sample_ok ss -> len ss < 2 ^ 32 ->
  let cfg := mkCfg (signalID_of (h_cache h second)) incl ms (h_base0 h, h_base1 h) in
  sealed e (h_keys h) odd (be_put 4 (len ss) ++ concat (map (encode_sample cfg) ss) ++ padding) data ->
  mixed e pool incl ms (packet_flags false (if second then 1 else 0) odd :: data) h Start sched <> Finished Crashed).
Proof.
  intros H. apply (H ex_cipher None true false C113_h false true ex_ss C106_padding (C106_seal 2 (C106_plain ++ C106_padding)) [Data; Store (SKeys None); Data]).
  - vm_compute. intuition reflexivity.
  - exact C106_samples_ok.
  - vm_compute. reflexivity.
  - vm_compute. split; reflexivity.
  - vm_compute. reflexivity.
Qed.
Print Assumptions C113_crash_refuted.
