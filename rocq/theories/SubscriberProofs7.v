(** Well-formed updates and buffer blocks. *)
From stdpp Require Import gmap.
From Coq Require Import Lia ZArith.
From Verif Require Import Base BaseProofs TicksModel GuidModel FormatModel FormatProofs CompactModel CompactSpec CompactProofs CacheModel CacheSpec CacheProofs FrameModel FrameSpec FrameProofs TsscModel TsscSpec TsscCode TsscCode2 TsscRead TsscProofs TsscProofs2 TsscProofs3 SubscriberModel SubscriberSpec SubscriberProofs SubscriberProofs2 SubscriberProofs3 SubscriberProofs4 SubscriberProofs5 SubscriberProofs6.
Open Scope Z_scope.
Ltac Zify.zify_post_hook ::= Z.div_mod_to_equations.

(** ** Cache updates *)
Definition live (s : sub) : Prop := connected s = true /\ validated s = true /\ good s.
Definition keep (s : sub) := (fixed s, baseTimes s, keyIVs s, (connected s, validated s, bufferBlockExpected s)).
Lemma set_cache_keep s i c : keep (set_cache s i c) = keep s.
Proof. unfold set_cache. destruct (i =? 0); reflexivity. Qed.
Lemma handle_cache_update e s slot rs body : good s -> connected s = true -> is_cache_update e s slot rs body ->
  exists s', handleUpdateSignalIndexCache e s (cache_update (Version s) slot body) =
      Ok (s', (if 1 <? Version s then [EvSend (frame 0xA [])] else []) ++ [EvSubscriptionUpdated (cache_of rs)]) /\
    cache_at s' slot = mkScache (cache_of rs) None /\ cacheIndex s' = slot /\
    (forall i, (i =? 0) <> (slot =? 0) -> cache_at s' i = cache_at s i) /\ keep s' = keep s /\ good s'.
Proof.
  intros (W & F) C (declared & owner & extra & U). cbv zeta in U. destruct U as (U1 & U2 & U3 & U4 & U5 & U6 & U7).
  unfold handleUpdateSignalIndexCache.
  assert (E1 : (if 1 <? Version s then let* b := idx (cache_update (Version s) slot body) 0 in let* d := slice_from (cache_update (Version s) slot body) 1 in Ok (if 0 <? b then 1 else 0, d)
                else Ok (0, cache_update (Version s) slot body)) = Ok (slot, body)).
  { unfold cache_update. destruct (1 <? Version s) eqn:V.
    - change (idx (slot :: body) 0) with (Ok slot). cbn [bind].
      pose proof (slice_from_app [slot] body) as Q. change (len [slot]) with 1 in Q. cbn [app] in Q. rewrite Q. cbn [bind].
      destruct U7 as [->|[-> _]]; reflexivity.
    - destruct U7 as [->|[_ U7]]; [reflexivity|lia]. }
  rewrite E1. cbn [bind]. cbv beta iota zeta.
  assert (E2 : (if CompressSignalIndexCache s then gunzip e body else Some body) = Some (cache_wire (SwapGuidEndianness s) declared owner rs extra)).
  { destruct (CompressSignalIndexCache s); [exact U6|subst; reflexivity]. }
  unfold bytes in E2 |- *. rewrite E2. rewrite (decode_wire _ _ _ _ _ _ U1 U3 U4 U5). cbn [d_reg d_sic].
  destruct (add_all (measurementRegistry s, NewSignalIndexCache) rs) as [reg c] eqn:A.
  assert (c = cache_of rs) as ->.
  { unfold cache_of. rewrite (add_all_sic_indep rs ∅ (measurementRegistry s)). rewrite A. reflexivity. }
  cbn [d_reg d_sic d_sub].
  set (s0 := set_subscriberID (set_measurementRegistry s reg) owner). set (s1 := set_cacheIndex (set_cache s0 slot (mkScache (cache_of rs) None)) slot).
  assert (K1 : keep s1 = keep s) by (change (keep s1) with (keep (set_cache s0 slot (mkScache (cache_of rs) None))); rewrite set_cache_keep; reflexivity).
  assert (G1 : good s1) by (apply (good_mask s); [unfold s1, set_cache; destruct (slot =? 0); reflexivity|split; assumption]).
  assert (A1 : forall i, cache_at s1 i = if Bool.eqb (i =? 0) (slot =? 0) then mkScache (cache_of rs) None else cache_at s i).
  { intros i. change (cache_at s1 i) with (cache_at (set_cache s0 slot (mkScache (cache_of rs) None)) i). rewrite cache_at_set. reflexivity. }
  assert (V1 : Version s1 = Version s) by (unfold keep, fixed in K1; congruence).
  assert (C1 : connected s1 = true) by (unfold keep in K1; congruence).
  assert (I1 : cacheIndex s1 = slot) by reflexivity.
  assert (X : exists s2, (if 1 <? Version s1 then send s1 sc_ConfirmUpdateSignalIndexCache [] else done s1 []) = Ok (s2, if 1 <? Version s then [EvSend (frame 0xA [])] else []) /\
              (forall i, cache_at s2 i = cache_at s1 i) /\ cacheIndex s2 = cacheIndex s1 /\ keep s2 = keep s1 /\ good s2).
  { rewrite V1. destruct (1 <? Version s).
    - destruct (send_ok s1 sc_ConfirmUpdateSignalIndexCache [] (proj1 G1)) as (wb & Lw & ->); [change (0 <= maxPacketSize - 5); unfold maxPacketSize; lia|].
      rewrite C1. exists (set_writeBuffer s1 wb). repeat split; try reflexivity; [exact Lw|exact (proj2 G1)].
    - exists s1. repeat split; try reflexivity; apply G1. }
  clearbody s1. destruct X as (s2 & X0 & X1 & X2 & X3 & X4). unfold step, done in X0 |- *. rewrite X0. cbn [bind]. exists s2. split; [reflexivity|].
  split; [rewrite X1, A1, Bool.eqb_reflx; reflexivity|]. split; [congruence|]. split; [|split; [congruence|exact X4]].
  intros i Ni. rewrite X1, A1. destruct (i =? 0), (slot =? 0); cbn [Bool.eqb]; congruence.
Qed.
Lemma act_cache_update e pool s cmd z slot rs body : live s -> length z = 4%nat -> is_cache_update e s slot rs body ->
  exists s', act e s (APacket pool (response 0x83 cmd z (cache_update (Version s) slot body))) =
      Ok (s', (if 1 <? Version s then [EvSend (frame 0xA [])] else []) ++ [EvSubscriptionUpdated (cache_of rs)]) /\
    cache_at s' slot = mkScache (cache_of rs) None /\ cacheIndex s' = slot /\
    (forall i, (i =? 0) <> (slot =? 0) -> cache_at s' i = cache_at s i) /\ keep s' = keep s /\ live s'.
Proof.
  intros (C & V & G) Lz U. destruct (act_response e pool s 0x83 cmd z (cache_update (Version s) slot body) C V Lz) as (n & ->).
  change (dispatch e pool (set_cmdBytes s n) 0x83 cmd) with (handleUpdateSignalIndexCache e (set_cmdBytes s n)).
  destruct (handle_cache_update e (set_cmdBytes s n) slot rs body (good_bytes s n G) C U) as (s' & H & H1 & H2 & H3 & H4 & H5).
  exists s'. split; [exact H|]. split; [exact H1|]. split; [exact H2|]. split; [exact H3|].
  change (keep (set_cmdBytes s n)) with (keep s) in H4. split; [exact H4|]. unfold keep in H4. split; [congruence|]. split; [congruence|exact H5].
Qed.
Lemma signalID_table rs i : len rs < 2 ^ 32 -> signalID_of (cache_of rs) i = table_signal rs i.
Proof.
  intros L. unfold signalID_of, table_signal. pose proof (lookups_ok rs i L) as H. cbv zeta in H.
  destruct (latest (by_index i) rs); destruct H as (_ & -> & _); reflexivity.
Qed.
Lemma encode_ext f1 f2 a b c ss : map (encode_sample (mkCfg f1 a b c)) ss = map (encode_sample (mkCfg f2 a b c)) ss.
Proof. apply map_ext. intros x. reflexivity. Qed.
Lemma received_ext f1 f2 a b c ss ms : (forall i, f1 i = f2 i) -> Forall2 (received (mkCfg f1 a b c)) ss ms -> Forall2 (received (mkCfg f2 a b c)) ss ms.
Proof.
  intros E F. induction F as [|s m ss ms R F IH]; constructor; [|exact IH]. destruct R as (R1 & R). split; [|exact R].
  rewrite R1. apply E.
Qed.
(** A packet sent for a table is decoded with that table whatever happens between,
    as long as its slot is not updated again. *)
Lemma generation_ok e s pool0 cmd0 z0 slot rs body acts s1 ev1 pool cmd z ss :
  cbc_ok e -> live s -> length z0 = 4%nat -> is_cache_update e s slot rs body ->
  Forall packet_ok acts -> forallb (fun a => negb (updates_slot (Version s) slot a)) acts = true ->
  run e s (APacket pool0 (response 0x83 cmd0 z0 (cache_update (Version s) slot body)) :: acts) = Ok (s1, ev1) ->
  length z = 4%nat -> connected s1 = true -> validated s1 = true -> keyIVs s1 = None ->
  is_i64 (fst (baseTimes s1)) -> is_i64 (snd (baseTimes s1)) -> rs <> [] -> Forall sample_ok ss -> len ss < 2 ^ 32 ->
  let cfg := mkCfg (table_signal rs) (s_IncludeTime (subscription s)) (s_UseMillisecondResolution (subscription s)) (baseTimes s1) in
  exists s2 ms, act e s1 (APacket pool (response 0x82 cmd z (data_packet false slot (len ss) (concat (map (encode_sample cfg) ss))))) =
    Ok (s2, [EvMeasurements ms]) /\ Forall2 (received cfg) ss ms.
Proof.
  intros Bc L Lz0 U F N R Lz C1 V1 K1 B0 B1 Nrs Fs Ls cfg.
  destruct (act_cache_update e pool0 s cmd0 z0 slot rs body L Lz0 U) as (s0 & A & A1 & A2 & A3 & A4 & A5).
  cbn [run] in R. rewrite A in R. cbn [bind] in R. unfold emit in R. destruct (run e s0 acts) as [[s1' ev2]| |] eqn:R2; cbn [bind] in R; try discriminate.
  injection R as -> _.
  assert (Sl : slot = 0 \/ slot = 1) by (destruct U as (d & o & x & U); cbv zeta in U; destruct U as (_ & _ & _ & _ & _ & _ & [->|[-> _]]); auto).
  assert (V0 : Version s0 = Version s) by (unfold keep, fixed in A4; congruence).
  assert (S1 : sc_sic (cache_at s1 slot) = cache_of rs).
  { rewrite (run_slot e acts slot s0 s1 ev2 F Bc Sl) by (rewrite ?V0; assumption). rewrite A1. reflexivity. }
  assert (P1 : subscription s1 = subscription s).
  { apply run_fixed in R2; [|assumption..]. unfold fixed in R2. unfold keep, fixed in A4. congruence. }
  assert (Lrs : len rs < 2 ^ 32) by (destruct U as (d & o & x & U); cbv zeta in U; tauto).
  destruct (compact_packet e pool s1 cmd z slot ss Lz Sl C1 V1 K1) as (s2 & ms & A6 & R6); try assumption.
  { rewrite S1. rewrite count_ok by exact Lrs. destruct rs as [|r rs']; [contradiction|].
    destruct (nodup (list_eq_dec Z.eq_dec) (map r_guid (r :: rs'))) eqn:E; [|cbn [length]; lia].
    exfalso. assert (In (r_guid r) (nodup (list_eq_dec Z.eq_dec) (map r_guid (r :: rs')))) by (apply nodup_In; left; reflexivity).
    rewrite E in H. exact H. }
  unfold data_action in A6. cbn [fst snd] in A6. exists s2, ms.
  unfold cfg_of in A6, R6. rewrite S1, P1 in A6, R6.
  unfold cfg. rewrite (encode_ext (table_signal rs) (signalID_of (cache_of rs))). split; [exact A6|].
  apply (received_ext (signalID_of (cache_of rs))); [|exact R6]. intros i. apply signalID_table, Lrs.
Qed.

(** ** Base times *)
Lemma act_base_update e pool s cmd z index b0 b1 : live s -> length z = 4%nat -> is_i64 b0 -> is_i64 b1 ->
  exists s', act e s (APacket pool (response 0x84 cmd z (base_time_message index b0 b1))) = Ok (s', [EvInfo]) /\ baseTimes s' = (b0, b1) /\
    fixed s' = fixed s /\ connected s' = true /\ validated s' = true /\ keyIVs s' = keyIVs s /\ (forall i, cache_at s' i = cache_at s i).
Proof.
  intros (C & V & G) Lz B0 B1. destruct (act_response e pool s 0x84 cmd z (base_time_message index b0 b1) C V Lz) as (n & ->).
  change (dispatch e pool (set_cmdBytes s n) 0x84 cmd) with (handleUpdateBaseTimes (set_cmdBytes s n)).
  unfold handleUpdateBaseTimes, base_time_message, be_u32, be_u64. rewrite be_get_put. cbn [bind]. cbv zeta.
  rewrite slice_from_at by (unfold len; rewrite be_put_length; reflexivity). cbn [bind]. rewrite be_get_put. cbn [bind].
  rewrite app_assoc. rewrite slice_from_at by (rewrite len_app; unfold len; rewrite !be_put_length; reflexivity). cbn [bind].
  rewrite <- (app_nil_r (be_put 8 (b1 mod 2 ^ 64))). rewrite be_get_put. cbn [bind]. change (8 * Z.of_nat 8) with 64.
  assert (I : forall x, is_i64 x -> i64 ((x mod 2 ^ 64) mod 2 ^ 64) = x).
  { intros x. unfold is_i64, i64. intros H. lia. }
  rewrite !I by assumption. destruct (i32 _ =? 0); (eexists; split; [reflexivity|]; repeat split; assumption).
Qed.
Lemma base_times_ok e s pool0 cmd0 z0 index b0 b1 acts s1 ev1 pool cmd z ci ss :
  cbc_ok e -> live s -> length z0 = 4%nat -> is_i64 b0 -> is_i64 b1 ->
  Forall packet_ok acts -> forallb (fun a => negb (has_base_times a)) acts = true ->
  run e s (APacket pool0 (response 0x84 cmd0 z0 (base_time_message index b0 b1)) :: acts) = Ok (s1, ev1) ->
  length z = 4%nat -> ci = 0 \/ ci = 1 -> connected s1 = true -> validated s1 = true -> keyIVs s1 = None ->
  Count (sc_sic (cache_at s1 ci)) <> 0 -> Forall sample_ok ss -> len ss < 2 ^ 32 ->
  let cfg := mkCfg (signalID_of (sc_sic (cache_at s1 ci))) (s_IncludeTime (subscription s)) (s_UseMillisecondResolution (subscription s)) (b0, b1) in
  exists s2 ms, act e s1 (APacket pool (response 0x82 cmd z (data_packet false ci (len ss) (concat (map (encode_sample cfg) ss))))) =
    Ok (s2, [EvMeasurements ms]) /\ Forall2 (received cfg) ss ms.
Proof.
  intros Bc L Lz0 B0 B1 F N R Lz Ci C1 V1 K1 Nc Fs Ls cfg.
  destruct (act_base_update e pool0 s cmd0 z0 index b0 b1 L Lz0 B0 B1) as (s0 & A & A1 & A2 & _).
  cbn [run] in R. rewrite A in R. cbn [bind] in R. unfold emit in R. destruct (run e s0 acts) as [[s1' ev2]| |] eqn:R2; cbn [bind] in R; try discriminate.
  injection R as -> _. pose proof (run_base _ _ _ _ _ F Bc N R2) as BT. apply run_fixed in R2; [|assumption..].
  assert (P1 : subscription s1 = subscription s) by (unfold fixed in *; congruence).
  destruct (compact_packet e pool s1 cmd z ci ss Lz Ci C1 V1 K1 Nc) as (s2 & ms & A6 & R6); try (rewrite BT, A1; assumption); try assumption.
  unfold data_action, cfg_of in A6. unfold cfg_of in R6. cbn [fst snd] in A6. rewrite P1, BT, A1 in A6, R6. exists s2, ms. auto.
Qed.

(** ** Buffer blocks *)
Lemma block_parts v seq slot index payload : is_u32 seq -> slot = 0 \/ slot = 1 -> (1 <? v = false -> slot = 0) -> is_i32 index ->
  let d := block_message v seq slot (index mod 2 ^ 32) payload in
  bb_seq d = seq /\ bb_slot v d = slot /\ bb_index v d = index /\ firstn 4 d = be_put 4 seq /\ (if 1 <? v then 9 else 8) <= len d.
Proof.
  intros Us Sl Sv Ui d. unfold d, block_message, bb_seq, bb_slot, bb_index.
  assert (F4 : forall r, firstn 4 (be_put 4 seq ++ r) = be_put 4 seq).
  { intros r. rewrite firstn_app, be_put_length, Nat.sub_diag, firstn_all2 by (rewrite be_put_length; lia). cbn [firstn]. apply app_nil_r. }
  assert (VS : be_val (be_put 4 seq) = seq) by (rewrite be_val_put; change (8 * Z.of_nat 4) with 32; unfold is_u32 in Us; apply Z.mod_small; lia).
  assert (S4 : forall r, skipn 4 (be_put 4 seq ++ r) = r).
  { intros r. rewrite skipn_app, be_put_length, Nat.sub_diag, skipn_all2 by (rewrite be_put_length; lia). reflexivity. }
  assert (VI : forall r, i32 (be_val (firstn 4 (be_put 4 (index mod 2 ^ 32) ++ r))) = index).
  { intros r. rewrite firstn_app, be_put_length, Nat.sub_diag, firstn_all2 by (rewrite be_put_length; lia). cbn [firstn]. rewrite app_nil_r.
    rewrite be_val_put. change (8 * Z.of_nat 4) with 32. unfold is_i32, i32 in *. lia. }
  rewrite F4, VS. split; [reflexivity|].
  assert (LB : forall v', (if 1 <? v' then 9 else 8) <= len (be_put 4 seq ++ (if 1 <? v' then [slot] else []) ++ be_put 4 (index mod 2 ^ 32) ++ payload)).
  { intros v'. rewrite !len_app. pose proof (len_nonneg payload). unfold len at 1 3. rewrite !be_put_length. destruct (1 <? v'); cbn [len length]; unfold len; cbn [length]; lia. }
  destruct (1 <? v) eqn:V.
  - assert (N4 : nth 4 (be_put 4 seq ++ [slot] ++ be_put 4 (index mod 2 ^ 32) ++ payload) 0 = slot).
    { rewrite app_nth2; rewrite be_put_length; [reflexivity|lia]. }
    rewrite N4. split; [destruct Sl; subst; reflexivity|].
    assert (S5 : forall r, skipn 5 (be_put 4 seq ++ [slot] ++ r) = r).
    { intros r. rewrite app_assoc, skipn_app, app_length, be_put_length, skipn_all2 by (rewrite app_length, be_put_length; cbn [length]; lia). reflexivity. }
    rewrite S5, VI. split; [reflexivity|]. split; [reflexivity|]. specialize (LB v). rewrite V in LB. exact LB.
  - rewrite (Sv eq_refl). split; [reflexivity|]. rewrite S4. cbn [app]. rewrite VI. split; [reflexivity|]. split; [reflexivity|]. specialize (LB v). rewrite V in LB. exact LB.
Qed.
Definition block_of (s : sub) (slot index : Z) : block := mkBlock (signalID_of (sc_sic (cache_at s slot)) index) None.
Lemma act_block e pool s cmd z seq slot index payload : live s -> length z = 4%nat ->
  is_u32 seq -> slot = 0 \/ slot = 1 -> (1 <? Version s = false -> slot = 0) -> is_i32 index ->
  exists s', act e s (APacket pool (response 0x88 cmd z (block_message (Version s) seq slot (index mod 2 ^ 32) payload))) =
     Ok (s', EvSend (frame 8 (be_put 4 seq)) ::
             (if seq =? bufferBlockExpected s then [EvBufferBlocks (block_of s slot index :: repeat zeroBlock (length (bufferBlockCache s)))] else [])) /\
    live s' /\ fixed s' = fixed s /\ (forall i, cache_at s' i = cache_at s i) /\
    bufferBlockExpected s' = (if seq =? bufferBlockExpected s then u32 (bufferBlockExpected s + 1) else bufferBlockExpected s) /\
    (if seq =? bufferBlockExpected s then bufferBlockCache s' = skipn 1 (bufferBlockCache s)
     else len (bufferBlockCache s') = Z.max (len (bufferBlockCache s)) (u32 (seq - bufferBlockExpected s) + 1)).
Proof.
  intros (C & V & G) Lz Us Sl Sv Ui.
  destruct (act_response e pool s 0x88 cmd z (block_message (Version s) seq slot (index mod 2 ^ 32) payload) C V Lz) as (n & ->).
  change (dispatch e pool (set_cmdBytes s n) 0x88 cmd) with (handleBufferBlock (set_cmdBytes s n)).
  destruct (block_parts (Version s) seq slot index payload Us Sl Sv Ui) as (P1 & P2 & P3 & P4 & P5). cbv zeta in *.
  set (d := block_message (Version s) seq slot (index mod 2 ^ 32) payload) in *. clearbody d.
  assert (Bb : bb_block (set_cmdBytes s n) d = block_of s slot index).
  { unfold bb_block, block_of. change (Version (set_cmdBytes s n)) with (Version s). rewrite P2, P3. reflexivity. }
  assert (Bs : bb_sent (set_cmdBytes s n) d = [EvSend (frame 8 (be_put 4 seq))]).
  { unfold bb_sent. change (connected (set_cmdBytes s n)) with (connected s). rewrite C, P4. reflexivity. }
  destruct (bb_ok (set_cmdBytes s n) d (good_bytes s n G) P5) as (wb & Lw & E).
  pose proof (handleBufferBlock_good (set_cmdBytes s n) d) as GG. rewrite E in GG |- *. clear E. rewrite P1, Bs, Bb in *.
  change (bufferBlockExpected (set_cmdBytes s n)) with (bufferBlockExpected s) in *. change (bufferBlockCache (set_cmdBytes s n)) with (bufferBlockCache s) in *.
  destruct (seq =? bufferBlockExpected s).
  - eexists. split; [reflexivity|]. split; [split; [exact C|split; [exact V|]]|].
    + eapply (proj1 (GG _ _ (good_bytes s n G) eq_refl)).
    + repeat split.
  - eexists. split; [reflexivity|]. split; [split; [exact C|split; [exact V|]]|].
    + eapply (proj1 (GG _ _ (good_bytes s n G) eq_refl)).
    + split; [reflexivity|]. split; [reflexivity|]. split; [reflexivity|].
      change (len (bb_stored (set_cmdBytes s n) d) = Z.max (len (bufferBlockCache s)) (u32 (seq - bufferBlockExpected s) + 1)).
      unfold bb_stored. cbv zeta. rewrite P1. change (bufferBlockExpected (set_cmdBytes s n)) with (bufferBlockExpected s). change (bufferBlockCache (set_cmdBytes s n)) with (bufferBlockCache s).
      pose proof (u32_range (seq - bufferBlockExpected s)) as UR. unfold is_u32 in UR. set (k := u32 (seq - bufferBlockExpected s)) in *. clearbody k.
      unfold len. rewrite upd_length by (rewrite app_length, repeat_length; lia). rewrite app_length, repeat_length. lia.
Qed.
Lemma blocks_in_order e cmd z l : forall s k, live s -> length z = 4%nat ->
  bufferBlockExpected s = k mod 2 ^ 32 -> bufferBlockCache s = [] ->
  Forall (fun x => let '(slot, index, _) := snd x in (slot = 0 \/ slot = 1) /\ (1 <? Version s = false -> slot = 0) /\ is_i32 index) l ->
  exists s' ev, run e s (block_packets (Version s) cmd z k (map (fun x => let '(slot, index, payload) := snd x in (fst x, (slot, index mod 2 ^ 32, payload))) l)) = Ok (s', ev) /\
    blocks ev = map (fun x => let '(slot, index, _) := snd x in [block_of s slot index]) l /\
    sent ev = map (fun k => frame 8 (be_put 4 k)) (numbers k (length l)).
Proof.
  induction l as [|[pool [[slot index] payload]] l IH]; intros s k L Lz Ek Ec F; [exists s, []; auto|].
  apply Forall_cons_1 in F as (F0 & F4). cbn [snd] in F0. destruct F0 as (F1 & F2 & F3).
  cbn [map block_packets snd fst run].
  assert (Uk : is_u32 (k mod 2 ^ 32)) by (unfold is_u32; lia).
  destruct (act_block e pool s cmd z (k mod 2 ^ 32) slot index payload L Lz Uk F1 F2 F3) as (s1 & A & L1 & X1 & X2 & X3 & X4).
  rewrite A. cbn [bind]. rewrite Ek, Z.eqb_refl in *. rewrite Ec in *. cbn [length repeat skipn] in *.
  assert (V1 : Version s1 = Version s) by (unfold fixed in X1; congruence).
  destruct (IH s1 (k + 1)) as (s' & ev & R & B & Sn); try assumption.
  { rewrite X3. unfold u32. apply Zplus_mod_idemp_l. }
  { rewrite V1. exact F4. }
  rewrite V1 in R. rewrite R. unfold emit. cbn [bind]. eexists _, _. split; [reflexivity|].
  rewrite blocks_app, sent_app, B, Sn. cbn [blocks sent flat_map app numbers length map]. split; [|reflexivity].
  f_equal. apply map_ext. intros [p [[sl ix] pl]]. cbn [snd]. unfold block_of. rewrite X2. reflexivity.
Qed.
