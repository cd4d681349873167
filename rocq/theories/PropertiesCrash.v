(** Property theorems: exactly which messages crash the subscriber (C13). *)
From stdpp Require Import gmap.
From Coq Require Import Lia ZArith.
From Verif Require Import Base BaseProofs TicksModel GuidModel FormatModel CompactModel CompactSpec CacheModel CacheSpec FrameModel TsscModel SubscriberModel SubscriberSpec SubscriberProofs2 SubscriberProofs5 SubscriberProofs6 SubscriberProofs7 SubscriberProofs8 SubscriberProofs9 SubscriberProofs10 CrashSpec CrashProofs PropertiesSubscriber.
Open Scope Z_scope.

(** Data packets, compact or compressed, encrypted or not, for every subscription and
    every table: in any state a connection can reach, the packet crashes exactly when
    the walk over its bytes says so. *)
Theorem C13_data_packet_crashes_iff : forall e s pool command unused (d : bytes), cbc_ok e -> reachable e s ->
  connected s = true -> validated s = true -> length unused = 4%nat -> bytes_ok d ->
  (act e s (APacket pool (response 0x82 command unused d)) = Panic <->
   data_packet_crashes e (keyIVs s) (slot s 0) (slot s 1)
     (s_IncludeTime (subscription s)) (s_UseMillisecondResolution (subscription s)) (baseTimes s) d = true).
Proof. intros e s pool c z d Bc R C V Lz B. exact (data_packet_crash e pool s c z d Bc C V Lz B). Qed.
Print Assumptions C13_data_packet_crashes_iff.

(** Signal index cache updates. *)
Theorem C13_cache_update_crashes_iff : forall e s pool command unused (d : bytes), cbc_ok e -> reachable e s ->
  connected s = true -> validated s = true -> length unused = 4%nat -> bytes_ok d -> len d < 2 ^ 32 ->
  (forall x b, gunzip e x = Some b -> bytes_ok b /\ len b < 2 ^ 32) ->
  (act e s (APacket pool (response 0x83 command unused d)) = Panic <->
   cache_update_crashes e (Version s) (CompressSignalIndexCache s) d = true).
Proof. intros e s pool c z d Bc R C V Lz B L G. exact (cache_crash e pool s c z d (reachable_good e s Bc R) C V Lz B L G). Qed.
Print Assumptions C13_cache_update_crashes_iff.

(** Cipher key updates. *)
Theorem C13_cipher_keys_crashes_iff : forall e s pool command unused (d : bytes), cbc_ok e -> reachable e s ->
  connected s = true -> validated s = true -> length unused = 4%nat -> bytes_ok d -> len d < 2 ^ 32 ->
  (act e s (APacket pool (response 0x85 command unused d)) = Panic <-> keys_crash 4 1 d = true).
Proof. intros e s pool c z d Bc R C V Lz B L. exact (cipher_crash e pool s c z d C V Lz B L). Qed.
Print Assumptions C13_cipher_keys_crashes_iff.

(** Cases on both sides of each boundary: a compact packet announcing two measurements
    with an eight byte timestamp, cut inside the second timestamp and inside the
    second fixed part; the example table whole and cut in its last field or in a
    Guid; four empty keys and three. *)
Definition ex_meas : bytes := 0 :: be_put 4 7 ++ be_put 4 0x42c80000 ++ be_put 8 637000000000000000.
Example C13_compact_nonvacuous :
  let packet n := 2 :: be_put 4 2 ++ firstn n (ex_meas ++ ex_meas) in
  data_packet_crashes ex_env None (true, None) (false, None) true false (0, 0) (packet 34%nat) = false /\
  data_packet_crashes ex_env None (true, None) (false, None) true false (0, 0) (packet 33%nat) = true /\
  data_packet_crashes ex_env None (true, None) (false, None) true false (0, 0) (packet 25%nat) = false /\
  run ex_env ex_new [AConnect true; ex_update; APacket None (response 0x82 0 zz (packet 33%nat))] = Panic /\
  (exists s, reachable ex_env s /\ connected s = true /\ validated s = true /\ bytes_ok (packet 33%nat)).
Proof.
  cbv zeta. do 3 (split; [vm_compute; reflexivity|]). split; [vm_compute; reflexivity|].
  destruct ex_connected as (s & ev & H & C & V & _ & _ & _ & E & B & _ & _ & _ & R & _). exists s. do 3 (split; [assumption|]).
 vm_compute firstn. vm_compute be_put. unfold bytes_ok. cbv [app]. repeat (constructor; [unfold is_u8; lia|]). constructor.
Qed.
(** A compressed packet with one measurement, whole, cut short, and announced as empty. *)
Example C13_compressed_nonvacuous :
  let packet count b := 8 :: be_put 4 count ++ tssc_body 0 b in
  data_packet_crashes ex_env None (true, None) (false, None) true false (0, 0) (packet 1 ex_tssc) = false /\
  data_packet_crashes ex_env None (true, None) (false, None) true false (0, 0) (packet 1 (firstn 9 ex_tssc)) = true /\
  data_packet_crashes ex_env None (true, None) (false, None) true false (0, 0) (packet 0 ex_tssc) = true /\
  data_packet_crashes ex_env None (true, Some NewDecoder) (false, None) true false (0, 0) (8 :: be_put 4 1 ++ tssc_body 7 (firstn 9 ex_tssc)) = false /\
  run ex_env ex_new [AConnect true; APacket None (response 0x82 0 zz (packet 1 (firstn 9 ex_tssc)))] = Panic.
Proof. cbv zeta. do 4 (split; [vm_compute; reflexivity|]). vm_compute. reflexivity. Qed.
Example C13_cache_nonvacuous :
  cache_update_crashes ex_env 2 false (0 :: ex_cache) = false /\
  cache_update_crashes ex_env 2 false (0 :: removelast ex_cache) = true /\
  cache_update_crashes ex_env 2 false (0 :: firstn 40 ex_cache) = false /\
  run ex_env ex_new [AConnect true; APacket None (response 0x83 2 zz (0 :: removelast ex_cache))] = Panic.
Proof. do 3 (split; [vm_compute; reflexivity|]). vm_compute. reflexivity. Qed.
Example C13_keys_nonvacuous :
  keys_crash 4 1 (cipher_message 0 [1; 2] [] [3] []) = false /\ keys_crash 4 1 (0 :: blob [1; 2] ++ blob [] ++ blob [3]) = true /\
  run ex_env ex_new [AConnect true; APacket None (response 0x85 2 zz (0 :: blob [1; 2] ++ blob [] ++ blob [3]))] = Panic.
Proof. do 2 (split; [vm_compute; reflexivity|]). vm_compute. reflexivity. Qed.
