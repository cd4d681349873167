(** Confirmations, message contents and encrypted packets. *)
From stdpp Require Import gmap.
From Coq Require Import Lia ZArith ZifyBool ZifyNat.
From Verif Require Import Base BaseProofs TicksModel GuidModel FormatModel CompactModel CompactSpec CacheModel CacheSpec CacheProofs FrameModel FrameSpec FrameProofs TsscModel TsscSpec SubscriberModel SubscriberSpec SubscriberProofs SubscriberProofs2 SubscriberProofs3 SubscriberProofs4 SubscriberProofs5 SubscriberProofs6 SubscriberProofs7 SubscriberProofs8.
Open Scope Z_scope.
Ltac Zify.zify_post_hook ::= Z.div_mod_to_equations.

Lemma sent_app a b : sent (a ++ b) = sent a ++ sent b.
Proof. apply flat_map_app. Qed.
Lemma parseTSSC_sent s ci d room s' ms ev : parseTSSC s ci d room = Ok (s', ms, ev) -> sent ev = [].
Proof.
  unfold parseTSSC. cbv zeta. intros H. destruct (idx d 0) as [v| |]; try discriminate. cbn [bind] in H.
  destruct (negb (v =? 85)); [injection H as _ _ <-; reflexivity|].
  destruct (slice_from d 1) as [t| |]; try discriminate. cbn [bind] in H.
  destruct (be_u16 t) as [q| |]; try discriminate. cbn [bind] in H.
  match type of H with context [if ?x then [EvInfo] else []] => assert (E : sent (if x then [EvInfo] else []) = []) by (destruct x; reflexivity); set (e0 := if x then [EvInfo] else []) in *; clearbody e0 end.
  match type of H with (if ?b then _ else _) = _ => destruct b end; [injection H as _ _ <-; exact E|].
  destruct (slice_from d 3) as [body| |]; try discriminate. cbn [bind] in H.
  match type of H with (let '(_, _) := ?x in _) = _ => destruct x as [[m1 d1] x1] end.
  destruct x1; try discriminate; injection H as _ _ <-; [exact E|]. rewrite sent_app, E. reflexivity.
Qed.
Lemma handleDataPacket_sent e pool s d s' ev : handleDataPacket e pool s d = Ok (s', ev) -> sent ev = [].
Proof.
  unfold handleDataPacket. intros H. destruct (idx d 0) as [fl| |]; try discriminate. cbn [bind] in H. cbv zeta in H.
  destruct (_ && _); [injection H as _ <-; reflexivity|].
  destruct (slice_from d 1) as [d1| |]; try discriminate. cbn [bind] in H.
  match type of H with match ?x with _ => _ end = _ => destruct x as [d2| |] end; try discriminate; [|injection H as _ <-; reflexivity].
  destruct (be_u32 d2) as [c| |]; try discriminate. cbn [bind] in H.
  destruct (slice_from d2 4) as [b| |]; try discriminate. cbn [bind] in H.
  match type of H with bind ?x _ = _ => destruct x as [[[s1 ms] ev1]| |] eqn:P end; try discriminate. cbn [bind] in H. cbv beta iota in H.
  unfold done in H. injection H as _ <-. rewrite sent_app. cbn [sent flat_map app]. rewrite app_nil_r.
  destruct (0 <? Z.land fl df_Compressed); [eapply parseTSSC_sent; exact P|].
  unfold parseCompactMeasurements in P. cbv zeta in P. destruct (_ =? 0); [injection P as _ _ <-; reflexivity|].
  match type of P with (let '(_, _) := ?x in _) = _ => destruct x as [m1 x1] end. destruct x1; try discriminate; injection P as _ _ <-; reflexivity.
Qed.
Lemma handleUpdate_sent e s d s' ev : good s -> connected s = true -> handleUpdateSignalIndexCache e s d = Ok (s', ev) ->
  sent ev = if (1 <? Version s) && installed ev then [frame 0x0A []] else [].
Proof.
  intros (W & _) C H. unfold handleUpdateSignalIndexCache in H.
  match type of H with bind ?x _ = _ => destruct x as [[ci d1]| |] end; try discriminate. cbn [bind] in H. cbv beta zeta iota in H.
  match type of H with match ?x with _ => _ end = _ => destruct x as [d2|] end; [|injection H as _ <-; rewrite andb_false_r; reflexivity].
  match type of H with (let '(_, _) := ?x in _) = _ => destruct x as [dd r] end. cbv zeta in H.
  destruct r; try discriminate; [|injection H as _ <-; rewrite andb_false_r; reflexivity].
  set (s1 := set_cacheIndex _ ci) in H.
  assert (Q : Version s1 = Version s /\ connected s1 = connected s /\ writeBuffer s1 = writeBuffer s) by (unfold s1, set_cache; destruct (ci =? 0); repeat split).
  clearbody s1. destruct Q as (Q1 & Q2 & Q3). rewrite Q1 in H.
  destruct (1 <? Version s).
  - destruct (send_ok s1 sc_ConfirmUpdateSignalIndexCache []) as (wb & Lw & E); [congruence|vm_compute; discriminate|].
    rewrite E, Q2, C in H. cbn [bind] in H. cbv beta iota in H. unfold done in H. injection H as _ <-. reflexivity.
  - cbn [bind] in H. unfold done in H. cbn [bind] in H. injection H as _ <-. reflexivity.
Qed.
Lemma dispatch_sent e pool s0 code cmd d s' ev : good s0 -> connected s0 = true -> dispatch e pool s0 code cmd d = Ok (s', ev) ->
  sent ev = confirmation (Version s0) code d ev.
Proof.
  intros Gn Cn H.
  unfold dispatch in H. unfold confirmation.
  destruct (code =? sr_Succeeded) eqn:A0.
  { apply Z.eqb_eq in A0. subst code. change (sr_Succeeded =? 131) with false. change (sr_Succeeded =? 136) with false. change (sr_Succeeded =? 137) with false. cbv iota.
    unfold handleSucceeded in H. destruct (cmd =? _); [destruct (CompressMetadata s0); [destruct (gunzip e d)|]; injection H as _ <-; reflexivity|].
    destruct (cmd =? _); [injection H as _ <-; reflexivity|]. destruct (cmd =? _); [injection H as _ <-; reflexivity|]. destruct (_ || _); injection H as _ <-; reflexivity. }
  destruct (code =? sr_Failed) eqn:A1.
  { apply Z.eqb_eq in A1. subst code. cbn [Z.eqb sr_Failed]. unfold handleFailed in H. destruct (_ || _); [destruct (0 <? len d)|]; injection H as _ <-; reflexivity. }
  destruct (code =? sr_DataPacket) eqn:A2.
  { apply Z.eqb_eq in A2. subst code. rewrite (handleDataPacket_sent _ _ _ _ _ _ H). reflexivity. }
  destruct (code =? sr_DataStartTime) eqn:A3.
  { apply Z.eqb_eq in A3. subst code. unfold handleDataStartTime in H. destruct (be_u64 d); try discriminate. cbn [bind] in H. injection H as _ <-. reflexivity. }
  destruct (code =? sr_ProcessingComplete) eqn:A4.
  { apply Z.eqb_eq in A4. subst code. injection H as _ <-. reflexivity. }
  destruct (code =? sr_UpdateSignalIndexCache) eqn:A5.
  { apply Z.eqb_eq in A5. subst code. rewrite (handleUpdate_sent _ _ _ _ _ Gn Cn H). reflexivity. }
  destruct (code =? sr_UpdateBaseTimes) eqn:A6.
  { apply Z.eqb_eq in A6. subst code. unfold handleUpdateBaseTimes in H. destruct (be_u32 d); try discriminate. cbn [bind] in H. cbv zeta in H.
    destruct (slice_from d 4) as [d4| |]; try discriminate. cbn [bind] in H. destruct (be_u64 d4); try discriminate. cbn [bind] in H.
    destruct (slice_from d 12) as [d5| |]; try discriminate. cbn [bind] in H. destruct (be_u64 d5); try discriminate. cbn [bind] in H.
    match type of H with (if ?c then _ else _) = _ => destruct c; [discriminate|] end. injection H as _ <-. reflexivity. }
  destruct (code =? sr_UpdateCipherKeys) eqn:A7.
  { apply Z.eqb_eq in A7. subst code. unfold handleUpdateCipherKeys in H. destruct (sized_buffer d 1) as [[a i1]| |]; try discriminate. cbn [bind] in H. cbv beta iota in H.
    destruct (sized_buffer d i1) as [[b i2]| |]; try discriminate. cbn [bind] in H. cbv beta iota in H.
    destruct (sized_buffer d i2) as [[c i3]| |]; try discriminate. cbn [bind] in H. cbv beta iota in H.
    destruct (sized_buffer d i3) as [[f i4]| |]; try discriminate. cbn [bind] in H. cbv beta iota in H. injection H as _ <-. reflexivity. }
  destruct (code =? sr_ConfigurationChanged) eqn:A8.
  { apply Z.eqb_eq in A8. subst code. injection H as _ <-. reflexivity. }
  change (code =? 131) with (code =? sr_UpdateSignalIndexCache). rewrite A5. change (code =? 136) with (code =? sr_BufferBlock). change (code =? 137) with (code =? sr_Notify).
  destruct (code =? sr_BufferBlock) eqn:A9.
  { destruct (Z_lt_le_dec (len d) (if 1 <? Version s0 then 9 else 8)) as [Y|Y]; [rewrite bb_short in H by assumption; discriminate|].
    destruct (bb_ok s0 d Gn Y) as (wb & _ & E). rewrite E in H. unfold bb_sent in H. rewrite Cn in H.
    destruct (bb_seq d =? bufferBlockExpected s0); injection H as _ <-; reflexivity. }
  destruct (code =? sr_Notify) eqn:A10.
  { destruct (notify_crash s0 d Gn) as (N1 & N2). destruct (Z_lt_le_dec (len d) 4) as [Y|Y]; [rewrite N1 in H by exact Y; discriminate|].
    destruct (N2 Y) as (wb & _ & E). rewrite E, Cn in H. injection H as _ <-. reflexivity. }
  destruct (code =? sr_NoOP); injection H as _ <-; reflexivity.
Qed.
Lemma confirmations e pool s code cmd z d s' ev : good s -> connected s = true -> validated s = true -> length z = 4%nat ->
  act e s (APacket pool (response code cmd z d)) = Ok (s', ev) -> sent ev = confirmation (Version s) code d ev.
Proof.
  intros G C V Lz H. destruct (act_response e pool s code cmd z d C V Lz) as (n & E). rewrite E in H.
  exact (dispatch_sent e pool (set_cmdBytes s n) code cmd d s' ev (good_bytes s n G) C H).
Qed.

(** ** Message contents *)
Lemma metadata_ok e pool s z d : connected s = true -> validated s = true -> length z = 4%nat ->
  exists s', act e s (APacket pool (response 0x80 1 z d)) =
    Ok (s', if CompressMetadata s then match gunzip e d with Some m => [EvInfo; EvInfo; EvMetadata m] | None => [EvInfo; EvError] end else [EvInfo; EvMetadata d]).
Proof.
  intros C V Lz. destruct (act_response e pool s 0x80 1 z d C V Lz) as (n & ->). change (dispatch e pool (set_cmdBytes s n) 0x80 1) with (handleSucceeded e (set_cmdBytes s n) 1).
  unfold handleSucceeded. change (1 =? sc_MetadataRefresh) with true. cbv iota. change (CompressMetadata (set_cmdBytes s n)) with (CompressMetadata s).
  destruct (CompressMetadata s); [destruct (gunzip e d)|]; eexists; reflexivity.
Qed.
Lemma notification_ok e pool s cmd z h m : good s -> connected s = true -> validated s = true -> length z = 4%nat -> length h = 4%nat ->
  exists s', act e s (APacket pool (response 0x89 cmd z (h ++ m))) = Ok (s', [EvStatus 0x89 m; EvNotification m; EvSend (frame 7 h)]).
Proof.
  intros G C V Lz Lh. destruct (act_response e pool s 0x89 cmd z (h ++ m) C V Lz) as (n & ->).
  change (dispatch e pool (set_cmdBytes s n) 0x89 cmd) with (handleNotification (set_cmdBytes s n)).
  destruct (notify_crash (set_cmdBytes s n) (h ++ m) (good_bytes s n G)) as (_ & N). destruct N as (wb & _ & ->). { rewrite len_app. unfold len. lia. }
  change (connected (set_cmdBytes s n)) with (connected s). rewrite C.
  replace (skipn 4 (h ++ m)) with m by (rewrite skipn_app, <- Lh, skipn_all, Nat.sub_diag; reflexivity).
  replace (firstn 4 (h ++ m)) with h by (rewrite firstn_app, <- Lh, firstn_all, Nat.sub_diag; cbn; rewrite app_nil_r; reflexivity).
  eexists. reflexivity.
Qed.
Lemma start_time_ok e pool s cmd z t x : connected s = true -> validated s = true -> length z = 4%nat -> 0 <= t < 2 ^ 64 ->
  exists s', act e s (APacket pool (response 0x86 cmd z (be_put 8 t ++ x))) = Ok (s', [EvDataStartTime t]).
Proof.
  intros C V Lz U. destruct (act_response e pool s 0x86 cmd z (be_put 8 t ++ x) C V Lz) as (n & ->).
  change (dispatch e pool (set_cmdBytes s n) 0x86 cmd) with (handleDataStartTime (set_cmdBytes s n)).
  unfold handleDataStartTime, be_u64. rewrite be_get_put. change (2 ^ (8 * Z.of_nat 8)) with (2 ^ 64). rewrite Z.mod_small by exact U. cbn [bind]. eexists. reflexivity.
Qed.
Lemma complete_ok e pool s cmd z d : connected s = true -> validated s = true -> length z = 4%nat ->
  exists s', act e s (APacket pool (response 0x87 cmd z d)) = Ok (s', [EvProcessingComplete d]).
Proof. intros C V Lz. destruct (act_response e pool s 0x87 cmd z d C V Lz) as (n & ->). eexists. reflexivity. Qed.

(** ** Encrypted packets *)
Definition lift_bytes (n : Z) (r : step) : step := match r with Ok (s, ev) => Ok (set_cmdBytes s n, ev) | Err => Err | Panic => Panic end.
Lemma parseTSSC_bytes s n ci d room :
  parseTSSC (set_cmdBytes s n) ci d room =
  match parseTSSC s ci d room with Ok (s', ms, ev) => Ok (set_cmdBytes s' n, ms, ev) | Err => Err | Panic => Panic end.
Proof.
  assert (C : forall s0 i c, set_cache (set_cmdBytes s0 n) i c = set_cmdBytes (set_cache s0 i c) n) by (intros s0 i c; unfold set_cache; destruct (i =? 0); reflexivity).
  unfold parseTSSC. cbv zeta. change (cache_at (set_cmdBytes s n) ci) with (cache_at s ci). rewrite !C.
  destruct (idx d 0) as [v| |]; cbn [bind]; [|reflexivity|reflexivity]. destruct (negb (v =? 85)); [reflexivity|].
  destruct (slice_from d 1) as [t| |]; cbn [bind]; [|reflexivity|reflexivity]. destruct (be_u16 t) as [q| |]; cbn [bind]; [|reflexivity|reflexivity]. cbv zeta.
  rewrite !C.
  destruct (q =? 0); cbn [andb].
  - change (set_tsscResetRequested (set_cmdBytes ?x n) false) with (set_cmdBytes (set_tsscResetRequested x false) n).
    destruct (negb (_ =? q)); [reflexivity|]. destruct (slice_from d 3) as [b| |]; cbn [bind]; [|reflexivity|reflexivity].
    destruct (tssc_loop _ _ _ _) as [[ms t'] []]; rewrite ?C; reflexivity.
  - destruct (negb (_ =? q)); [reflexivity|]. destruct (slice_from d 3) as [b| |]; cbn [bind]; [|reflexivity|reflexivity].
    destruct (tssc_loop _ _ _ _) as [[ms t'] []]; rewrite ?C; reflexivity.
Qed.
Lemma parseCompact_bytes s n ci d room :
  parseCompactMeasurements (set_cmdBytes s n) ci d room =
  match parseCompactMeasurements s ci d room with Ok (s', ms, ev) => Ok (set_cmdBytes s' n, ms, ev) | Err => Err | Panic => Panic end.
Proof.
  unfold parseCompactMeasurements. cbv zeta. change (cache_at (set_cmdBytes s n) ci) with (cache_at s ci).
  destruct (Count _ =? 0); [reflexivity|]. change (subscription (set_cmdBytes s n)) with (subscription s). change (baseTimes (set_cmdBytes s n)) with (baseTimes s).
  destruct (parseCompact _ _ _) as [ms []]; reflexivity.
Qed.
Lemma handleDataPacket_bytes e pool s n d : handleDataPacket e pool (set_cmdBytes s n) d = lift_bytes n (handleDataPacket e pool s d).
Proof.
  unfold handleDataPacket. destruct (idx d 0) as [fl| |]; cbn [bind]; [|reflexivity|reflexivity]. cbv zeta.
  destruct (_ && _); [reflexivity|]. destruct (slice_from d 1) as [d1| |]; cbn [bind]; [|reflexivity|reflexivity].
  change (keyIVs (set_cmdBytes s n)) with (keyIVs s).
  match goal with |- match ?x with _ => _ end = _ => destruct x as [d2| |] end; [|reflexivity|reflexivity].
  destruct (be_u32 d2) as [c| |]; cbn [bind]; [|reflexivity|reflexivity]. cbv zeta.
  destruct (slice_from d2 4) as [b| |]; cbn [bind]; [|reflexivity|reflexivity].
  rewrite parseTSSC_bytes, parseCompact_bytes.
  destruct (0 <? Z.land fl df_Compressed).
  - destruct (parseTSSC _ _ _ _) as [[[s1 ms] ev]| |]; reflexivity.
  - destruct (parseCompactMeasurements _ _ _ _) as [[[s1 ms] ev]| |]; reflexivity.
Qed.
Lemma set_keyIVs_id s k : keyIVs s = k -> set_keyIVs s k = s.
Proof. destruct s; cbn; intros <-; reflexivity. Qed.
(** After the keys arrive, an encrypted packet has the effects its plaintext had before. *)
Lemma encryption_transparent e s pool0 cmd0 z0 first ek ei ok oi flags data pool cmd z :
  connected s = true -> validated s = true -> keyIVs s = None -> length z0 = 4%nat -> length z = 4%nat ->
  len (cipher_message first ek ei ok oi) < 2 ^ 32 -> 0 <= flags < 256 -> Z.land flags 10 <> 0 ->
  let key := if 0 <? Z.land flags 4 then ok else ek in
  let iv := if 0 <? Z.land flags 4 then oi else ei in
  len key = 16 \/ len key = 24 \/ len key = 32 -> len iv = 16 -> len data mod 16 = 0 ->
  exists s1, act e s (APacket pool0 (response 0x85 cmd0 z0 (cipher_message first ek ei ok oi))) = Ok (s1, [EvInfo]) /\
  match act e s (APacket pool (response 0x82 cmd z (flags :: cbc e key iv data))) with
  | Ok (_, ev) => exists s2, act e s1 (APacket pool (response 0x82 cmd z (flags :: data))) = Ok (s2, ev)
  | Err => act e s1 (APacket pool (response 0x82 cmd z (flags :: data))) = Err
  | Panic => act e s1 (APacket pool (response 0x82 cmd z (flags :: data))) = Panic
  end.
Proof.
  intros C V K Lz0 Lz Lm Lf Nf key iv Lk Li Ld.
  destruct (act_response e pool0 s 0x85 cmd0 z0 (cipher_message first ek ei ok oi) C V Lz0) as (n & ->).
  change (dispatch e pool0 (set_cmdBytes s n) 0x85 cmd0) with (handleUpdateCipherKeys (set_cmdBytes s n)). rewrite cipher_ok by exact Lm.
  set (s1 := set_keyIVs (set_cmdBytes s n) (Some (ek, ei, (ok, oi)))). exists s1. split; [reflexivity|].
  destruct (act_response e pool s 0x82 cmd z (flags :: cbc e key iv data) C V Lz) as (n1 & ->).
  destruct (act_response e pool s1 0x82 cmd z (flags :: data) C V Lz) as (n2 & ->).
  change (dispatch e pool (set_cmdBytes s n1) 0x82 cmd) with (handleDataPacket e pool (set_cmdBytes s n1)).
  change (dispatch e pool (set_cmdBytes s1 n2) 0x82 cmd) with (handleDataPacket e pool (set_cmdBytes s1 n2)).
  rewrite (encrypted_packet e pool (set_cmdBytes s1 n2) flags data (ek, ei) (ok, oi) eq_refl Nf).
  - replace (fst (if 0 <? Z.land flags 4 then (ok, oi) else (ek, ei))) with key by (unfold key; destruct (0 <? _); reflexivity).
    replace (snd (if 0 <? Z.land flags 4 then (ok, oi) else (ek, ei))) with iv by (unfold iv; destruct (0 <? _); reflexivity).
    change (set_keyIVs (set_cmdBytes s1 n2) None) with (set_cmdBytes (set_keyIVs s None) n2). rewrite (set_keyIVs_id s None K).
    rewrite !handleDataPacket_bytes. destruct (handleDataPacket e pool s _) as [[s2 ev]| |]; cbn [lift_bytes]; [eexists; reflexivity|reflexivity|reflexivity].
  - unfold key in Lk. destruct (0 <? Z.land flags 4); exact Lk.
  - unfold iv in Li. destruct (0 <? Z.land flags 4); exact Li.
  - exact Ld.
  - exact Lf.
Qed.

(** ** Reconnecting *)
Lemma reconnect_keeps e s : good s -> exists s2 ev, run e s [ADisconnect; AConnect true] = Ok (s2, ev) /\
  (forall i, cache_at s2 i = cache_at s i) /\ cacheIndex s2 = cacheIndex s /\ baseTimes s2 = baseTimes s /\ bufferBlockCache s2 = bufferBlockCache s.
Proof.
  intros G. set (s0 := set_subscribed (set_validated (set_connected s false) false) false).
  assert (G0 : good s0) by exact G. destruct (connect_succeeds s0 G0) as (s2 & ev & H & _). pose proof (connect_eq s0 true s2 ev H eq_refl) as Q.
  exists s2. eexists. split. { cbn [run act]. unfold disconnect. cbn [bind done]. fold s0. rewrite H. cbn [bind emit done]. reflexivity. }
  destruct Q as (_ & _ & _ & _ & _ & _ & _ & Q1 & Q2 & Q3 & _ & Q4 & _ & Q5). split; [|auto]. intros i. unfold cache_at. rewrite Q1, Q2. reflexivity.
Qed.
