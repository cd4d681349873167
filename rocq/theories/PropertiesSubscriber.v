(** Property theorems for the data subscriber (C13, C27-C35, C71-C74). *)
From stdpp Require Import gmap.
From Coq Require Import Lia ZArith String.
From Verif Require Import Base BaseProofs TicksModel GuidModel FormatModel CompactModel CompactSpec CacheModel CacheSpec CacheProofs FrameModel FrameSpec TsscModel TsscSpec TsscProofs TsscProofs3 SubscriberModel SubscriberSpec SubscriberProofs SubscriberProofs2 SubscriberProofs3 SubscriberProofs4 SubscriberProofs5 SubscriberProofs6 SubscriberProofs7 SubscriberProofs8 SubscriberProofs9 SubscriberProofs10.
Open Scope Z_scope.
Ltac Zify.zify_post_hook ::= Z.div_mod_to_equations.

(** Material for the examples: uncompressed, unencrypted, version 2, time included. *)
Definition ex_env : env := mkEnv (fun b => Some b) (fun _ _ _ => []).
Definition ex_set : settings := mkSettings [] false [] false 0 true false [] [] false false false [] [] [] (-1) [] [] [] [].
Definition ex_new : sub := NewDataSubscriber 2 true false false true ex_set.
Definition zz : bytes := [0; 0; 0; 0].
Definition ex_rs : list crec := [mkRec 7 (repeat 1 16) [80] 1; mkRec 8 (repeat 2 16) [66] 2].
Definition ex_cache : bytes := cache_wire true 0 (repeat 9 16) ex_rs [].
Definition ex_update : action := APacket None (response 0x83 2 zz (cache_update 2 0 ex_cache)).
Definition events (r : step) : list event := match r with Ok (_, ev) => ev | _ => [] end.
Lemma ex_cbc : cbc_ok ex_env. Proof. intros k iv x. constructor. Qed.
Lemma ex_connected : exists s ev, run ex_env ex_new [AConnect true] = Ok (s, ev) /\ connected s = true /\ validated s = true /\ keyIVs s = None /\
  Count (sc_sic (cache_at s 0)) = 0 /\ sc_decoder (cache_at s 0) = None /\ bufferBlockExpected s = 0 /\ bufferBlockCache s = [] /\ Version s = 2 /\
  baseTimes s = (0, 0) /\ subscribed s = false /\ reachable ex_env s /\ good s /\ CompressSignalIndexCache s = false /\ SwapGuidEndianness s = true.
Proof.
  destruct (connect_succeeds ex_new (new_good _ _ _ _ _ _)) as (s & ev & H & _).
  exists s, ev. assert (R : run ex_env ex_new [AConnect true] = Ok (s, ev)).
  { cbn [run act]. rewrite H. cbn [bind run]. unfold emit, done. cbn [bind]. rewrite app_nil_r. reflexivity. }
  split; [exact R|]. assert (RC : reachable ex_env s).
  { exists 2, true, false, false, true, ex_set, [AConnect true], ev. split; [repeat constructor|exact R]. }
  pose proof (reachable_good _ _ ex_cbc RC) as G.
  assert (FX : fixed s = fixed ex_new) by (eapply (run_fixed ex_env [AConnect true]); [repeat constructor|apply ex_cbc|exact R]).
  apply connect_eq in H; [|reflexivity]. destruct H as (H1 & H2 & H3 & H4 & H5 & H6 & H7 & H8 & H9 & H10 & H11 & H12 & H13 & H14).
  assert (F1 : CompressSignalIndexCache s = CompressSignalIndexCache ex_new) by (unfold fixed in FX; congruence).
  assert (F2 : SwapGuidEndianness s = SwapGuidEndianness ex_new) by (unfold fixed in FX; congruence).
  unfold cache_at. cbn [Z.eqb]. rewrite H8.
  repeat (split; [first [assumption|reflexivity|etransitivity; [eassumption|reflexivity]]|]). etransitivity; [eassumption|reflexivity].
Qed.

(** ** C13: crashes *)
(** For every message whose length needs do not depend on its content, exactly when
    the subscriber crashes. *)
Theorem C13_message_crashes_iff : forall e s pool code command unused d n, cbc_ok e -> reachable e s ->
  connected s = true -> validated s = true -> length unused = 4%nat -> data_needed (Version s) code = Some n ->
  (act e s (APacket pool (response code command unused d)) = Panic <-> len d < n).
Proof. intros e s pool c m z d n Bc R C V Lz N. exact (response_crash e pool s c m z d n (reachable_good e s Bc R) C V Lz N). Qed.
Print Assumptions C13_message_crashes_iff.
(** Any packet or datagram shorter than the response header crashes the subscriber in
    every connected state. *)
Theorem C13_short_packet_refuted : forall e pool s p, connected s = true -> (length p < 6)%nat ->
  act e s (APacket pool p) = Panic /\ act e s (AUdp pool p) = Panic.
Proof. exact short_packet_crash. Qed.
Print Assumptions C13_short_packet_refuted.
(** An encrypted packet that is not a whole number of AES blocks crashes it. *)
Theorem C13_encrypted_packet_refuted : forall e pool s flags data even odd, keyIVs s = Some (even, odd) ->
  let k := if 0 <? Z.land flags 4 then odd else even in
  0 < Z.land flags 8 -> len (fst k) = 16 \/ len (fst k) = 24 \/ len (fst k) = 32 -> len data mod 16 <> 0 \/ len (snd k) <> 16 ->
  handleDataPacket e pool s (flags :: data) = Panic.
Proof. exact encrypted_crash. Qed.
Print Assumptions C13_encrypted_packet_refuted.
(** A compressed packet with more measurements than its count crashes it. *)
Definition ex_tssc : bytes :=
  match e_packet enc0 [(mkChoice (Some 2) (Some 17) (Some 19) 31, mkTm 7 637000000000000000 300 0x42c80000)] with Some (b, _) => b | None => [] end.
Theorem C13_count_too_small_refuted :
  run ex_env ex_new [AConnect true; APacket None (response 0x82 0 zz (data_packet true 0 0 (tssc_body 0 ex_tssc)))] = Panic.
Proof. vm_compute. reflexivity. Qed.
Print Assumptions C13_count_too_small_refuted.
Example C13_nonvacuous : exists s, reachable ex_env s /\ connected s = true /\ validated s = true /\
  data_needed (Version s) 0x88 = Some 9 /\ act ex_env s (APacket None (response 0x88 0 zz (repeat 0 8))) = Panic.
Proof.
  destruct ex_connected as (s & ev & H & C & V & _ & _ & _ & _ & _ & Vs & _ & _ & R & G & _). exists s.
  split; [exact R|]. split; [exact C|]. split; [exact V|]. rewrite Vs. split; [reflexivity|].
  apply (response_crash ex_env None s 0x88 0 zz (repeat 0 8) 9 G C V eq_refl); [rewrite Vs; reflexivity|vm_compute; reflexivity].
Qed.

(** ** C27: TSSC sequencing *)
(** Starting a session (sequence 0 with a new encoder) in any state, every packet that
    continues the encoder's stream is decoded exactly, and packets with any other
    sequence number do not disturb the decoding of the later ones.  Missing from the
    full property: a stray packet should deliver nothing. *)
Theorem C27_sequencing_partial : forall e s ci cmd unused l ds, length unused = 4%nat -> ci = 0 \/ ci = 1 ->
  connected s = true -> validated s = true -> keyIVs s = None ->
  (sc_decoder (cache_at s ci) = None \/ exists pool ms r, l = (pool, Next ms) :: r) ->
  session_ok 0 l -> session ci enc0 0 l = Some ds ->
  exists s' ev, run e s (map (fun x => APacket (fst x) (response 0x82 cmd unused (snd x))) (combine (map fst l) ds)) = Ok (s', ev) /\
    delivered ev = map (session_delivers (sc_sic (cache_at s ci))) l.
Proof.
  intros e s ci cmd z l ds Lz Ci C V K S OK W.
  apply (session_run e ci cmd z l s 0 enc0 ds Lz Ci C V K ltac:(unfold is_u16; lia)); [|exact OK|exact W].
  destruct S as [D|S]; [left|right; auto]. unfold in_sync, decoder_of. rewrite D.
  split; [reflexivity|]. split; [apply NewDecoder_rel|]. split; [apply NewDecoder_wf|auto].
Qed.
Print Assumptions C27_sequencing_partial.
(** A stray packet calls the measurement callback with as many entries as it claims,
    left over from the pool or zero. *)
Theorem C27_stray_packet_refuted : forall e s pool ci cmd unused seq count b, connected s = true -> validated s = true -> keyIVs s = None ->
  length unused = 4%nat -> ci = 0 \/ ci = 1 -> is_u16 seq -> seq <> 0 -> is_u32 count ->
  seq <> SequenceNumber (match sc_decoder (cache_at s ci) with Some d => d | None => NewDecoder end) ->
  exists s', act e s (APacket pool (response 0x82 cmd unused (data_packet true ci count (tssc_body seq b)))) =
    Ok (s', [EvMeasurements (destination pool count)]) /\ len (destination pool count) = count.
Proof.
  intros e s pool ci cmd z seq count b C V K Lz Ci Us N Uc NS.
  destruct (act_response e pool s 0x82 cmd z (data_packet true ci count (tssc_body seq b)) C V Lz) as (n & ->).
  change (dispatch e pool (set_cmdBytes s n) 0x82 cmd) with (handleDataPacket e pool (set_cmdBytes s n)).
  rewrite handleDataPacket_wire; [|exact Ci|exact Uc|exact K].
  rewrite parseTSSC_stray; [|exact Us|exact N|change (decoder_of (set_cmdBytes s n) ci) with (decoder_of s ci); unfold decoder_of; congruence].
  cbn [bind done]. eexists. split; [reflexivity|]. apply destination_length. unfold is_u32 in Uc. lia.
Qed.
Print Assumptions C27_stray_packet_refuted.
Definition C27_l : list (option (list measurement) * tpacket) :=
  [(None, Next [(mkChoice (Some 2) (Some 17) (Some 19) 31, mkTm 7 637000000000000000 300 0x42c80000);
                (mkChoice None (Some 17) None 31, mkTm 8 637000000000000333 0 0x42c80001)]);
   (Some [], Stray 9 2 [1; 2; 3]);
   (None, Next [(mkChoice (Some 1) (Some 8) None 24, mkTm 7 637000000000000666 300 0x42c80005)])].
Example C27_nonvacuous : exists ds, session_ok 0 C27_l /\ session 0 enc0 0 C27_l = Some ds /\
  map (map m_Value) (delivered (events (run ex_env ex_new (AConnect true :: map (fun x => APacket (fst x) (response 0x82 0 zz (snd x))) (combine (map fst C27_l) ds))))) =
  [[0x42c80000; 0x42c80001]; [0; 0]; [0x42c80005]].
Proof.
  eexists. split; [|split; [vm_compute; reflexivity|vm_compute; reflexivity]].
  cbn [session_ok C27_l]. unfold is_u16, is_u32, len. cbn [length Z.of_nat]. 
  split; [repeat constructor; unfold tmeas_ok, is_i32, is_i64, is_u32; cbn; lia|]. split; [lia|].
  split; [lia|]. split; [lia|]. split; [unfold next_seq; cbn; lia|]. split; [lia|].
  split; [repeat constructor; unfold tmeas_ok, is_i32, is_i64, is_u32; cbn; lia|]. split; [lia|exact I].
Qed.

(** ** C28: what is delivered *)
(** Eleven bytes of data deliver any number of measurements that were never sent. *)
Theorem C28_invented_measurements_refuted : forall e s pool cmd unused ci count, connected s = true -> validated s = true ->
  length unused = 4%nat -> keyIVs s = None -> ci = 0 \/ ci = 1 -> is_u32 count -> Count (sc_sic (cache_at s ci)) = 0 ->
  exists s', act e s (APacket pool (response 0x82 cmd unused (data_packet false ci count []))) = Ok (s', [EvMeasurements (destination pool count)]) /\
    len (destination pool count) = count /\ (pool = None -> Forall (eq (mkMeas (repeat 0 16) 0 0 0)) (destination pool count)) /\
    len (response 0x82 cmd unused (data_packet false ci count [])) = 11.
Proof.
  intros e s pool cmd z ci count C V Lz K Ci U N. destruct (nothing_parsed e s pool cmd z ci count [] C V Lz K Ci U N) as (s' & H).
  exists s'. split; [exact H|]. split; [apply destination_length; unfold is_u32 in U; lia|].
  split; [intros ->; cbn [destination]; apply List.Forall_forall; intros x Q; symmetry; exact (repeat_spec _ _ _ Q)|].
  unfold response, data_packet, len. cbn [length]. rewrite app_length. cbn [length]. rewrite app_length, be_put_length, Lz. reflexivity.
Qed.
Print Assumptions C28_invented_measurements_refuted.
(** What holds: a compact packet whose count equals the number of measurements it
    carries delivers exactly those (TSSC: C27). *)
Theorem C28_exact_partial : forall e pool s cmd unused ci ss, length unused = 4%nat -> ci = 0 \/ ci = 1 ->
  connected s = true -> validated s = true -> keyIVs s = None -> Count (sc_sic (cache_at s ci)) <> 0 ->
  is_i64 (fst (baseTimes s)) -> is_i64 (snd (baseTimes s)) -> Forall sample_ok ss -> len ss < 2 ^ 32 ->
  let cfg := mkCfg (signalID_of (sc_sic (cache_at s ci))) (s_IncludeTime (subscription s)) (s_UseMillisecondResolution (subscription s)) (baseTimes s) in
  exists s' ms, act e s (APacket pool (response 0x82 cmd unused (data_packet false ci (len ss) (concat (map (encode_sample cfg) ss))))) =
    Ok (s', [EvMeasurements ms]) /\ Forall2 (received cfg) ss ms.
Proof. exact compact_packet. Qed.
Print Assumptions C28_exact_partial.
Definition ex_ss : list sample := [mkSample 7 0x3F800000 0x1004 637000000000012345 0; mkSample 8 5 0 637000000600000001 1].
Definition ex_cfg0 : cm_config := mkCfg (fun _ => []) true false (0, 0).
Example C28_nonvacuous :
  delivered (events (run ex_env ex_new [AConnect true; APacket None (response 0x82 0 zz (data_packet false 0 2 []))])) = [[mkMeas (repeat 0 16) 0 0 0; mkMeas (repeat 0 16) 0 0 0]] /\
  delivered (events (run ex_env ex_new [AConnect true; ex_update;
    APacket None (response 0x82 0 zz (data_packet false 0 2 (concat (map (encode_sample ex_cfg0) ex_ss))))])) =
    [[mkMeas (repeat 1 16) 0x3F800000 637000000000012345 (m_Flags (nth 0 (nth 0 (delivered (events (run ex_env ex_new [AConnect true; ex_update;
    APacket None (response 0x82 0 zz (data_packet false 0 2 (concat (map (encode_sample ex_cfg0) ex_ss))))]))) []) zeroMeas));
      mkMeas (repeat 2 16) 5 637000000600000001 0]].
Proof. split; vm_compute; reflexivity. Qed.

(** ** C29: the measurement total *)
Theorem C29_total : forall e acts s s' ev, Forall packet_ok acts -> cbc_ok e -> is_u64 (measTotal s) -> forallb counts_on acts = true ->
  run e s acts = Ok (s', ev) -> measTotal s' = (measTotal s + total_len (delivered ev)) mod 2 ^ 64.
Proof. exact run_total. Qed.
Print Assumptions C29_total.
(** The total starts at zero with each connection and with each Subscribe that is sent. *)
Theorem C29_reset : forall e s a s' ev, act e s a = Ok (s', ev) ->
  (a = ASubscribe /\ ev <> []) \/ (connected s = false /\ exists d, a = AConnect d) -> measTotal s' = 0.
Proof.
  intros e s a s' ev H [(-> & N)|(C & d & ->)]; cbn [act] in H.
  - eapply Subscribe_total; eassumption.
  - apply connect_eq in H; tauto.
Qed.
Print Assumptions C29_reset.
Example C29_nonvacuous :
  forallb counts_on [APacket None (response 0x82 0 zz (data_packet false 0 2 [])); AUnsubscribe; APacket None (response 0x82 0 zz (data_packet false 0 3 []))] = true /\
  match run ex_env ex_new [AConnect true; APacket None (response 0x82 0 zz (data_packet false 0 2 [])); AUnsubscribe; APacket None (response 0x82 0 zz (data_packet false 0 3 []))] with
  | Ok (s, ev) => measTotal s = 5 | _ => False end.
Proof. split; vm_compute; reflexivity. Qed.

(** ** C30: buffer blocks *)
(** The payload is never delivered: in every history every block handed to the callback
    has a nil Buffer. *)
Theorem C30_payload_refuted : forall e acts v cp cm cc sw st s ev, Forall packet_ok acts -> cbc_ok e ->
  run e (NewDataSubscriber v cp cm cc sw st) acts = Ok (s, ev) -> Forall (Forall (fun b => bb_Buffer b = None)) (blocks ev).
Proof. intros e acts v cp cm cc sw st s ev F Bc R. exact (proj2 (run_good e acts _ s ev F Bc (new_good v cp cm cc sw st) R)). Qed.
Print Assumptions C30_payload_refuted.
(** Without loss or reordering every block is delivered once, in order, with its
    signal ID, and confirmed once.  Missing: payloads, other arrival orders. *)
Theorem C30_in_order_partial : forall e s cmd unused k l, cbc_ok e -> reachable e s -> connected s = true -> validated s = true -> length unused = 4%nat ->
  bufferBlockExpected s = k mod 2 ^ 32 -> bufferBlockCache s = [] ->
  Forall (fun x => let '(slot, index, _) := snd x in (slot = 0 \/ slot = 1) /\ (1 <? Version s = false -> slot = 0) /\ is_i32 index) l ->
  exists s' ev, run e s (block_packets (Version s) cmd unused k (map (fun x => let '(slot, index, payload) := snd x in (fst x, (slot, index mod 2 ^ 32, payload))) l)) = Ok (s', ev) /\
    blocks ev = map (fun x => let '(slot, index, _) := snd x in [mkBlock (signalID_of (sc_sic (cache_at s slot)) index) None]) l /\
    sent ev = map (fun k => frame 8 (be_put 4 k)) (numbers k (length l)).
Proof.
  intros e s cmd z k l Bc R C V Lz Ek Ec F.
  exact (blocks_in_order e cmd z l s k (conj C (conj V (reachable_good e s Bc R))) Lz Ek Ec F).
Qed.
Print Assumptions C30_in_order_partial.
(** Two blocks that swap places: the early one is confirmed but never delivered, and two
    blocks that were never sent (zero signal, no payload) are delivered instead. *)
Theorem C30_reordered_block_refuted : forall e s p1 p2 cmd unused i1 i2 b1 b2, cbc_ok e -> reachable e s -> connected s = true -> validated s = true ->
  length unused = 4%nat -> bufferBlockExpected s = 0 -> bufferBlockCache s = [] -> is_i32 i1 -> is_i32 i2 ->
  exists s' ev, run e s [APacket p1 (response 0x88 cmd unused (block_message (Version s) 1 0 (i1 mod 2 ^ 32) b1));
                         APacket p2 (response 0x88 cmd unused (block_message (Version s) 0 0 (i2 mod 2 ^ 32) b2))] = Ok (s', ev) /\
    blocks ev = [[mkBlock (signalID_of (sc_sic (cache_at s 0)) i2) None; zeroBlock; zeroBlock]] /\ sent ev = [frame 8 (be_put 4 1); frame 8 (be_put 4 0)].
Proof.
  intros e s p1 p2 cmd z i1 i2 b1 b2 Bc R C V Lz E0 Ec I1 I2.
  assert (L : live s) by (split; [exact C|split; [exact V|apply (reachable_good e s Bc R)]]).
  destruct (act_block e p1 s cmd z 1 0 i1 b1 L Lz ltac:(unfold is_u32; lia) (or_introl eq_refl) (fun _ => eq_refl) I1) as (s1 & A1 & L1 & F1 & C1 & X1 & Y1).
  rewrite E0 in A1, X1, Y1. cbn [Z.eqb] in A1, X1, Y1. rewrite Ec in Y1.
  assert (V1 : Version s1 = Version s) by (unfold fixed in F1; congruence).
  destruct (act_block e p2 s1 cmd z 0 0 i2 b2 L1 Lz ltac:(unfold is_u32; lia) (or_introl eq_refl) (fun _ => eq_refl) I2) as (s2 & A2 & L2 & F2 & C2 & X2 & Y2).
  rewrite V1, X1 in A2. cbn [Z.eqb] in A2.
  assert (length (bufferBlockCache s1) = 2%nat) as N.
  { change (u32 (1 - 0) + 1) with 2 in Y1. unfold len in Y1. cbn [length Z.of_nat] in Y1. lia. }
  rewrite N in A2. exists s2. eexists. split; [cbn [run]; rewrite A1; cbn [bind]; rewrite A2; cbn [bind]; reflexivity|].
  unfold block_of. rewrite C1. split; reflexivity.
Qed.
Print Assumptions C30_reordered_block_refuted.
(** A repeated block makes the subscriber build a queue of 2^32 - 1 + 1 entries. *)
Theorem C30_duplicate_block_refuted : forall e s p1 p2 cmd unused i b, cbc_ok e -> reachable e s -> connected s = true -> validated s = true ->
  length unused = 4%nat -> bufferBlockExpected s = 0 -> bufferBlockCache s = [] -> is_i32 i ->
  let p := response 0x88 cmd unused (block_message (Version s) 0 0 (i mod 2 ^ 32) b) in
  exists s' ev, run e s [APacket p1 p; APacket p2 p] = Ok (s', ev) /\ len (bufferBlockCache s') = 2 ^ 32.
Proof.
  intros e s p1 p2 cmd z i b Bc R C V Lz E0 Ec I1 p. unfold p. clear p.
  assert (L : live s) by (split; [exact C|split; [exact V|apply (reachable_good e s Bc R)]]).
  destruct (act_block e p1 s cmd z 0 0 i b L Lz ltac:(unfold is_u32; lia) (or_introl eq_refl) (fun _ => eq_refl) I1) as (s1 & A1 & L1 & F1 & C1 & X1 & Y1).
  rewrite E0 in A1, X1, Y1. cbn [Z.eqb] in A1, X1, Y1. change (u32 (0 + 1)) with 1 in X1. rewrite Ec in Y1.
  assert (V1 : Version s1 = Version s) by (unfold fixed in F1; congruence).
  destruct (act_block e p2 s1 cmd z 0 0 i b L1 Lz ltac:(unfold is_u32; lia) (or_introl eq_refl) (fun _ => eq_refl) I1) as (s2 & A2 & L2 & F2 & C2 & X2 & Y2).
  rewrite V1, X1 in A2. rewrite X1 in Y2. cbn [Z.eqb] in A2, Y2. rewrite Y1 in Y2.
  exists s2. eexists. split; [cbn [run]; rewrite A1; cbn [bind]; rewrite A2; cbn [bind]; reflexivity|].
  rewrite Y2. reflexivity.
Qed.
Print Assumptions C30_duplicate_block_refuted.
Example C30_nonvacuous :
  blocks (events (run ex_env ex_new (AConnect true :: ex_update :: block_packets 2 0 zz 0 [(None, (0, 7, [1; 2])); (None, (0, 8, [3]))]))) =
    [[mkBlock (repeat 1 16) None]; [mkBlock (repeat 2 16) None]] /\
  exists s, reachable ex_env s /\ connected s = true /\ validated s = true /\ bufferBlockExpected s = 0 /\ bufferBlockCache s = [].
Proof.
  split; [vm_compute; reflexivity|]. destruct ex_connected as (s & ev & H & C & V & _ & _ & _ & E & B & _ & _ & _ & R & _). exists s. auto.
Qed.

(** ** C31: signal index caches *)
(** Packets for a slot are decoded with the table last installed there, whatever
    happens in between (updates of the other slot included). *)
Theorem C31_packet_uses_its_cache : forall e s pool0 cmd0 z0 slot rs body acts s1 ev1 pool cmd z ss,
  cbc_ok e -> reachable e s -> connected s = true -> validated s = true -> length z0 = 4%nat -> is_cache_update e s slot rs body ->
  Forall packet_ok acts -> forallb (fun a => negb (updates_slot (Version s) slot a)) acts = true ->
  run e s (APacket pool0 (response 0x83 cmd0 z0 (cache_update (Version s) slot body)) :: acts) = Ok (s1, ev1) ->
  length z = 4%nat -> connected s1 = true -> validated s1 = true -> keyIVs s1 = None ->
  is_i64 (fst (baseTimes s1)) -> is_i64 (snd (baseTimes s1)) -> rs <> [] -> Forall sample_ok ss -> len ss < 2 ^ 32 ->
  let cfg := mkCfg (table_signal rs) (s_IncludeTime (subscription s)) (s_UseMillisecondResolution (subscription s)) (baseTimes s1) in
  exists s2 ms, act e s1 (APacket pool (response 0x82 cmd z (data_packet false slot (len ss) (concat (map (encode_sample cfg) ss))))) =
    Ok (s2, [EvMeasurements ms]) /\ Forall2 (received cfg) ss ms.
Proof. intros e s pool0 cmd0 z0 slot rs body acts s1 ev1 pool cmd z ss Bc R C V. exact (generation_ok e s pool0 cmd0 z0 slot rs body acts s1 ev1 pool cmd z ss Bc (conj C (conj V (reachable_good e s Bc R)))). Qed.
Print Assumptions C31_packet_uses_its_cache.
(** A well-formed update is installed, confirmed and becomes the active cache. *)
Theorem C31_update_installed : forall e s pool cmd z slot rs body, cbc_ok e -> reachable e s -> connected s = true -> validated s = true -> length z = 4%nat ->
  is_cache_update e s slot rs body ->
  exists s', act e s (APacket pool (response 0x83 cmd z (cache_update (Version s) slot body))) =
      Ok (s', (if 1 <? Version s then [EvSend (frame 0xA [])] else []) ++ [EvSubscriptionUpdated (active s')]) /\
    active s' = cache_of rs /\ sc_decoder (cache_at s' slot) = None.
Proof.
  intros e s pool cmd z slot rs body Bc R C V Lz U.
  destruct (act_cache_update e pool s cmd z slot rs body (conj C (conj V (reachable_good e s Bc R))) Lz U) as (s' & H & H1 & H2 & _).
  exists s'. unfold active. rewrite H2, H1. auto.
Qed.
Print Assumptions C31_update_installed.
(** Any other update message leaves every cache as it was; any update that changes the
    active cache reports the new one; nothing but an update changes it. *)
Theorem C31_active_is_latest : forall e s a s' ev, packet_ok a -> cbc_ok e -> act e s a = Ok (s', ev) ->
  if updates_cache a then
    (active s' = active s /\ forall i, sc_sic (cache_at s' i) = sc_sic (cache_at s i)) \/ (exists c, active s' = c /\ In (EvSubscriptionUpdated c) ev)
  else active s' = active s.
Proof.
  intros e s a s' ev F Bc H. destruct (updates_cache a) eqn:U; [eapply update_active; eassumption|eapply act_active; eassumption].
Qed.
Print Assumptions C31_active_is_latest.
Example C31_nonvacuous : exists s, reachable ex_env s /\ connected s = true /\ validated s = true /\ is_cache_update ex_env s 0 ex_rs ex_cache /\
  forallb (fun a => negb (updates_slot 2 0 a)) [APacket None (response 0x83 2 zz (cache_update 2 1 ex_cache)); AUnsubscribe] = true.
Proof.
  destruct ex_connected as (s & ev & H & C & V & _ & _ & _ & E & B & _ & _ & _ & R & _ & Cc & Sw). exists s. do 3 (split; [assumption|]). split; [|reflexivity].
  exists 0, (repeat 9 16), []. rewrite Sw, Cc. cbv zeta.
  split. { repeat constructor; cbn; unfold is_i32, is_u64, bytes_ok; try lia; repeat constructor; lia. }
  split; [reflexivity|]. split; [reflexivity|]. split; [vm_compute; reflexivity|]. split; [vm_compute; split; discriminate|]. split; [reflexivity|]. left. reflexivity.
Qed.

(** ** C32: base times *)
Theorem C32_base_times : forall e s pool0 cmd0 z0 index b0 b1 acts s1 ev1 pool cmd z ci ss,
  cbc_ok e -> reachable e s -> connected s = true -> validated s = true -> length z0 = 4%nat -> is_i64 b0 -> is_i64 b1 ->
  Forall packet_ok acts -> forallb (fun a => negb (has_base_times a)) acts = true ->
  run e s (APacket pool0 (response 0x84 cmd0 z0 (base_time_message index b0 b1)) :: acts) = Ok (s1, ev1) ->
  length z = 4%nat -> ci = 0 \/ ci = 1 -> connected s1 = true -> validated s1 = true -> keyIVs s1 = None ->
  Count (sc_sic (cache_at s1 ci)) <> 0 -> Forall sample_ok ss -> len ss < 2 ^ 32 ->
  let cfg := mkCfg (signalID_of (sc_sic (cache_at s1 ci))) (s_IncludeTime (subscription s)) (s_UseMillisecondResolution (subscription s)) (b0, b1) in
  exists s2 ms, act e s1 (APacket pool (response 0x82 cmd z (data_packet false ci (len ss) (concat (map (encode_sample cfg) ss))))) =
    Ok (s2, [EvMeasurements ms]) /\ Forall2 (received cfg) ss ms.
Proof.
  intros e s pool0 cmd0 z0 index b0 b1 acts s1 ev1 pool cmd z ci ss Bc R C V.
  exact (base_times_ok e s pool0 cmd0 z0 index b0 b1 acts s1 ev1 pool cmd z ci ss Bc (conj C (conj V (reachable_good e s Bc R)))).
Qed.
Print Assumptions C32_base_times.
Definition ex_cfg1 : cm_config := mkCfg (fun _ => []) true false (637000000000000000, 637000000600000000).
Example C32_nonvacuous :
  map (map m_Timestamp) (delivered (events (run ex_env ex_new [AConnect true; ex_update;
    APacket None (response 0x84 0 zz (base_time_message 1 637000000000000000 637000000600000000)); ASubscribe; APacket None (response 0x80 2 zz [79; 75]);
    APacket None (response 0x82 0 zz (data_packet false 0 2 (concat (map (encode_sample ex_cfg1) ex_ss))))]))) =
  [[637000000000012345; 637000000600000001]].
Proof. vm_compute. reflexivity. Qed.

(** ** C33: validation *)
(** A new subscriber starts validated, so on its first connection any response is
    processed: here a buffer of measurements from a peer that never spoke STTP. *)
Theorem C33_first_connection_refuted : forall e v cp cm cc sw st pool cmd unused count, length unused = 4%nat -> is_u32 count ->
  exists s ev, run e (NewDataSubscriber v cp cm cc sw st) [AConnect true; APacket pool (response 0x82 cmd unused (data_packet false 0 count []))] = Ok (s, ev) /\
    delivered ev = [destination pool count].
Proof.
  intros e v cp cm cc sw st pool cmd z count Lz U.
  destruct (connect_succeeds _ (new_good v cp cm cc sw st)) as (s & ev & H & Hv). pose proof (connect_eq _ _ _ _ H eq_refl) as Q. destruct (Hv eq_refl) as (f & ->).
  destruct Q as (Q1 & _ & _ & _ & _ & Q2 & _ & Q3 & _ & _ & Q4 & _).
  destruct (nothing_parsed e s pool cmd z 0 count [] Q1 Q2 Lz Q4 (or_introl eq_refl) U) as (s' & E).
  { unfold cache_at. cbn [Z.eqb]. rewrite Q3. reflexivity. }
  exists s'. eexists. split; [cbn [run]; cbn [act] in H |- *; rewrite H; cbn [bind]; cbn [act] in E; rewrite E; cbn [bind]; reflexivity|]. reflexivity.
Qed.
Print Assumptions C33_first_connection_refuted.
(** After a disconnection the next connection is validated: until a plausible first
    response arrives, every complete packet only yields an error and termination. *)
Theorem C33_reconnection_partial : forall e s ps, cbc_ok e -> reachable e s -> 2 <= Version s ->
  Forall (fun pp => (6 <= length (snd pp))%nat /\ ~ plausible (code_of (snd pp)) (command_of (snd pp))) ps ->
  exists s' ev, run e s ([ADisconnect; AConnect true] ++ map (fun pp => APacket (fst pp) (snd pp)) ps) = Ok (s', ev) /\
    exists f, ev = EvTerminated :: EvSend f :: EvEstablished :: concat (map (fun _ => [EvError; EvTerminate]) ps).
Proof.
  intros e s ps Bc R Vs F. pose proof (reachable_good e s Bc R) as G.
  set (s0 := set_subscribed (set_validated (set_connected s false) false) false). assert (G0 : good s0) by exact G.
  destruct (connect_succeeds s0 G0) as (s2 & ev & H & Hv). destruct (Hv eq_refl) as (f & ->). pose proof (connect_eq s0 true s2 _ H eq_refl) as Q.
  destruct Q as (Q1 & _ & _ & _ & _ & Q2 & Q3 & _).
  destruct (run_refused e ps s2 Q2 ltac:(rewrite Q3; exact Vs) Q1 F) as (n & E).
  eexists. eexists. split.
  - cbn [app run act]. unfold disconnect. cbn [bind done]. fold s0. rewrite H. cbn [bind]. rewrite E. unfold emit. cbn [bind done]. reflexivity.
  - exists f. reflexivity.
Qed.
Print Assumptions C33_reconnection_partial.
Example C33_nonvacuous :
  events (run ex_env ex_new ([AConnect true; ADisconnect; AConnect true] ++ [APacket None (response 0x83 2 zz (cache_update 2 0 ex_cache)); APacket None (repeat 72 9)])) =
  events (run ex_env ex_new [AConnect true; ADisconnect; AConnect true]) ++ [EvError; EvTerminate; EvError; EvTerminate] /\
  ~ plausible (code_of (repeat 72 9)) (command_of (repeat 72 9)).
Proof. split; [vm_compute; reflexivity|]. cbn. unfold plausible. lia. Qed.

(** ** C34: subscription state *)
Theorem C34_becomes_subscribed : forall e s a s' ev, packet_ok a -> cbc_ok e -> act e s a = Ok (s', ev) -> subscribed s = false -> subscribed s' = true ->
  exists p, packet_of a = Some p /\ code_of p = 0x80 /\ command_of p = 2.
Proof. exact become_true. Qed.
Print Assumptions C34_becomes_subscribed.
Theorem C34_becomes_unsubscribed : forall e s a s' ev, packet_ok a -> cbc_ok e -> act e s a = Ok (s', ev) -> subscribed s = true -> subscribed s' = false ->
  a = ADisconnect \/ (connected s = false /\ exists d, a = AConnect d) \/ exists p, packet_of a = Some p /\ code_of p = 0x80 /\ command_of p = 3.
Proof. exact become_false. Qed.
Print Assumptions C34_becomes_unsubscribed.
Theorem C34_acknowledged : forall e s pool m unused d, connected s = true -> validated s = true -> length unused = 4%nat -> m = 2 \/ m = 3 ->
  exists s', act e s (APacket pool (response 0x80 m unused d)) = Ok (s', [EvStatus m d]) /\ subscribed s' = (m =? 2).
Proof. exact acknowledged. Qed.
Print Assumptions C34_acknowledged.
Theorem C34_disconnected_unsubscribed : forall e s, cbc_ok e -> reachable e s -> connected s = false -> subscribed s = false.
Proof.
  intros e s Bc (v & cp & cm & cc & sw & st & acts & ev & F & R) C. exact (run_conn e acts (NewDataSubscriber v cp cm cc sw st) s ev F Bc (fun _ => eq_refl) R C).
Qed.
Print Assumptions C34_disconnected_unsubscribed.
Example C34_nonvacuous : match run ex_env ex_new [AConnect true; ASubscribe; APacket None (response 0x80 2 zz [])] with Ok (s, _) => subscribed s = true | _ => False end /\
  match run ex_env ex_new [AConnect true; ASubscribe; APacket None (response 0x80 2 zz []); AUnsubscribe; APacket None (response 0x80 3 zz [])] with Ok (s, _) => subscribed s = false | _ => False end.
Proof. split; vm_compute; reflexivity. Qed.

(** ** C35: byte counters *)
(** From a successful connection on, the counters are the bytes received since, while
    the packets of a connection that is being validated are at most 8198 bytes long
    (longer ones are refused unread). *)
Theorem C35_counters : forall e s d s0 ev0 acts s' ev, connected s = false -> act e s (AConnect d) = Ok (s0, ev0) -> d = true ->
  Forall packet_ok acts -> cbc_ok e -> forallb in_session acts = true -> (validated s = true \/ Forall small acts) -> run e s0 acts = Ok (s', ev) ->
  cmdBytes s' = sum (map command_bytes acts) mod 2 ^ 64 /\ dataBytes s' = sum (map datagram_bytes acts) mod 2 ^ 64.
Proof.
  intros e s d s0 ev0 acts s' ev C A -> F Bc K V R. cbn [act] in A. pose proof (connect_eq s true s0 ev0 A C) as Q.
  destruct Q as (Q1 & _ & Q2 & Q3 & _ & Q4 & _).
  destruct (run_bytes e acts s0 s' ev F Bc K Q1 ltac:(rewrite Q4; exact V) ltac:(rewrite Q2; unfold is_u64; lia) ltac:(rewrite Q3; unfold is_u64; lia) R) as (H1 & H2).
  rewrite H1, H2, Q2, Q3. split; reflexivity.
Qed.
Print Assumptions C35_counters.
Theorem C35_start_at_zero : forall e s d s' ev, connected s = false -> act e s (AConnect d) = Ok (s', ev) -> cmdBytes s' = 0 /\ dataBytes s' = 0 /\ measTotal s' = 0.
Proof. intros e s d s' ev C A. cbn [act] in A. pose proof (connect_eq s d s' ev A C). tauto. Qed.
Print Assumptions C35_start_at_zero.
Example C35_nonvacuous : match run ex_env ex_new [AConnect true; ex_update; AUdp None (response 0x82 0 zz (data_packet false 0 0 [])); ADisconnect; AConnect true; APacket None (response 0x80 6 zz [])] with
  Ok (s, _) => cmdBytes s = 10 /\ dataBytes s = 0 | _ => False end.
Proof. vm_compute. split; reflexivity. Qed.

(** ** C71: confirmations *)
Theorem C71_confirmations : forall e s pool code cmd unused d s' ev, cbc_ok e -> reachable e s -> connected s = true -> validated s = true -> length unused = 4%nat ->
  act e s (APacket pool (response code cmd unused d)) = Ok (s', ev) -> sent ev = confirmation (Version s) code d ev.
Proof. intros e s pool code cmd z d s' ev Bc R C V Lz H. exact (confirmations e pool s code cmd z d s' ev (reachable_good e s Bc R) C V Lz H). Qed.
Print Assumptions C71_confirmations.
Example C71_nonvacuous : 
  skipn 1 (sent (events (run ex_env ex_new [AConnect true; ex_update; APacket None (response 0x89 0 zz [1; 2; 3; 4; 72; 105]); APacket None (response 0x83 2 zz [0])]))) =
  [frame 0xA []; frame 7 [1; 2; 3; 4]].
Proof. vm_compute. reflexivity. Qed.

(** ** C72: encryption *)
Theorem C72_encryption_transparent : forall e s pool0 cmd0 z0 first ek ei ok oi flags data pool cmd z,
  connected s = true -> validated s = true -> keyIVs s = None -> length z0 = 4%nat -> length z = 4%nat ->
  len (cipher_message first ek ei ok oi) < 2 ^ 32 -> 0 <= flags < 256 -> Z.land flags 10 <> 0 ->
  let key := if 0 <? Z.land flags 4 then ok else ek in
  let iv := if 0 <? Z.land flags 4 then oi else ei in
  len key = 16 \/ len key = 24 \/ len key = 32 -> len iv = 16 -> len data mod 16 = 0 ->
  exists s1, act e s (APacket pool0 (response 0x85 cmd0 z0 (cipher_message first ek ei ok oi))) = Ok (s1, [EvInfo]) /\
  match act e s (APacket pool (response 0x82 cmd z (flags :: cbc e key iv data))) with
  | Ok (_, ev) => exists s2, act e s1 (APacket pool (response 0x82 cmd z (flags :: data))) = Ok (s2, ev)
  | Err => act e s1 (APacket pool (response 0x82 cmd z (flags :: data))) = Err
  | Panic => act e s1 (APacket pool (response 0x82 cmd z (flags :: data))) = Panic
  end.
Proof. exact encryption_transparent. Qed.
Print Assumptions C72_encryption_transparent.
(** With a cipher that adds the first key byte, both keys are used as flagged. *)
Definition ex_cipher : env := mkEnv (fun b => Some b) (fun k _ d => map (fun x => (x + hd 0 k) mod 256) d).
Example C72_nonvacuous :
  let plain := be_put 4 1 ++ encode_sample ex_cfg0 (mkSample 7 5 0 637000000000012345 0) in
  map (map m_Value) (delivered (events (run ex_cipher ex_new [AConnect true; ex_update;
    APacket None (response 0x85 0 zz (cipher_message 0 (repeat 1 16) (repeat 0 16) (repeat 2 32) (repeat 0 16)));
    APacket None (response 0x82 0 zz (2 :: map (fun x => (x - 1) mod 256) plain ++ repeat 255 11));
    APacket None (response 0x82 0 zz (6 :: map (fun x => (x - 2) mod 256) plain ++ repeat 254 11))]))) = [[5]; [5]].
Proof. vm_compute. reflexivity. Qed.

(** ** C73: a new connection starts clean *)
(** False: the signal index caches (with their TSSC decoders), the base times and the
    queue of buffer blocks of the old connection survive. *)
Theorem C73_stale_state_refuted : forall e s, cbc_ok e -> reachable e s ->
  exists s2 ev, run e s [ADisconnect; AConnect true] = Ok (s2, ev) /\
  (forall i, cache_at s2 i = cache_at s i) /\ cacheIndex s2 = cacheIndex s /\ baseTimes s2 = baseTimes s /\ bufferBlockCache s2 = bufferBlockCache s.
Proof. intros e s Bc R. exact (reconnect_keeps e s (reachable_good e s Bc R)). Qed.
Print Assumptions C73_stale_state_refuted.
(** Its effect: data on a new connection, before any table arrives there, is attributed
    to signals of the old connection's table. *)
Theorem C73_misattributed_data_refuted :
  map (map m_SignalID) (delivered (events (run ex_env ex_new [AConnect true; ex_update; ADisconnect; AConnect true; APacket None (response 0x80 6 zz []);
    APacket None (response 0x82 0 zz (data_packet false 0 2 (concat (map (encode_sample ex_cfg0) ex_ss))))]))) = [[repeat 1 16; repeat 2 16]].
Proof. vm_compute. reflexivity. Qed.
Print Assumptions C73_misattributed_data_refuted.

(** ** C74: data is delivered only while subscribed *)
Theorem C74_data_while_unsubscribed_refuted : forall e s pool cmd unused ci count, connected s = true -> validated s = true -> subscribed s = false ->
  length unused = 4%nat -> keyIVs s = None -> ci = 0 \/ ci = 1 -> is_u32 count -> Count (sc_sic (cache_at s ci)) = 0 ->
  exists s', act e s (APacket pool (response 0x82 cmd unused (data_packet false ci count []))) = Ok (s', [EvMeasurements (destination pool count)]).
Proof. intros e s pool cmd z ci count C V _ Lz K Ci U N. exact (nothing_parsed e s pool cmd z ci count [] C V Lz K Ci U N). Qed.
Print Assumptions C74_data_while_unsubscribed_refuted.
Example C74_nonvacuous : exists s, reachable ex_env s /\ connected s = true /\ validated s = true /\ subscribed s = false /\ keyIVs s = None /\ Count (sc_sic (cache_at s 0)) = 0.
Proof. destruct ex_connected as (s & ev & H & C & V & K & N & _ & _ & _ & _ & _ & S & R & _). exists s. auto 10. Qed.

(** ** C75: message contents reach the callbacks unchanged *)
Theorem C75_messages : forall e s pool cmd unused d, cbc_ok e -> reachable e s -> connected s = true -> validated s = true -> length unused = 4%nat ->
  (exists s', act e s (APacket pool (response 0x80 1 unused d)) =
     Ok (s', if CompressMetadata s then match gunzip e d with Some m => [EvInfo; EvInfo; EvMetadata m] | None => [EvInfo; EvError] end else [EvInfo; EvMetadata d])) /\
  (forall hash m, length hash = 4%nat -> d = hash ++ m ->
     exists s', act e s (APacket pool (response 0x89 cmd unused d)) = Ok (s', [EvStatus 0x89 m; EvNotification m; EvSend (frame 7 hash)])) /\
  (forall t x, 0 <= t < 2 ^ 64 -> d = be_put 8 t ++ x -> exists s', act e s (APacket pool (response 0x86 cmd unused d)) = Ok (s', [EvDataStartTime t])) /\
  (exists s', act e s (APacket pool (response 0x87 cmd unused d)) = Ok (s', [EvProcessingComplete d])).
Proof.
  intros e s pool cmd z d Bc R C V Lz. split; [apply metadata_ok; assumption|].
  split; [intros h m Lh ->; apply notification_ok; try assumption; apply (reachable_good e s Bc R)|].
  split; [intros t x U ->; apply start_time_ok; assumption|apply complete_ok; assumption].
Qed.
Print Assumptions C75_messages.
Example C75_nonvacuous : skipn 2 (events (run ex_env ex_new [AConnect true; APacket None (response 0x80 1 zz [60; 62]); APacket None (response 0x86 0 zz (be_put 8 637000000000000000))])) =
  [EvInfo; EvMetadata [60; 62]; EvDataStartTime 637000000000000000].
Proof. vm_compute. reflexivity. Qed.

(** ** C82: refused connections *)
(** A failure response to Connect or DefineOperationalModes marks the connection as
    refused, one to another command does not; its text is reported. *)
Theorem C82_failure_response : forall e s pool cmd unused d, connected s = true -> validated s = true -> length unused = 4%nat ->
  exists s', act e s (APacket pool (response 0x81 cmd unused d)) =
      Ok (s', if ((cmd =? 0) || (cmd =? 6)) && (len d =? 0) then [] else [EvError]) /\
    connectionRefused s' = (cmd =? 0) || (cmd =? 6) || connectionRefused s.
Proof. exact failed_response. Qed.
Print Assumptions C82_failure_response.
(** The mark of a session says whether it received such a response. *)
Theorem C82_refused_iff : forall e s s0 ev0 acts s' ev, connected s = false -> act e s (AConnect true) = Ok (s0, ev0) ->
  Forall packet_ok acts -> cbc_ok e -> forallb in_session acts = true -> run e s0 acts = Ok (s', ev) ->
  (connectionRefused s' = true -> existsb refuses acts = true) /\
  (validated s = true -> existsb refuses acts = true -> connectionRefused s' = true).
Proof.
  intros e s s0 ev0 acts s' ev C A F Bc K R. cbn [act] in A. pose proof (connect_ref _ _ _ _ A C) as Q. pose proof (connect_eq _ _ _ _ A C) as (E1 & _ & _ & _ & _ & E2 & _).
  destruct (run_refuses e acts s0 s' ev F Bc K R) as (R1 & R2). rewrite Q, orb_false_r in *. split; [exact R1|].
  intros V X. rewrite R2; [exact X|exact E1|congruence].
Qed.
Print Assumptions C82_refused_iff.
Example C82_nonvacuous :
  let ends acts := match run ex_env ex_new acts with Ok (s, _) => Some (connectionRefused s) | _ => None end in
  ends [AConnect true; APacket None (response 0x81 6 zz [66])] = Some true /\
  ends [AConnect true; APacket None (response 0x81 2 zz [66])] = Some false /\
  ends [AConnect true; APacket None (response 0x81 6 zz [66]); ADisconnect; AConnect true] = Some false.
Proof. vm_compute. auto. Qed.
