(** Proofs about the subscriber model: counters, connection and subscription state,
    caches and base times over whole histories. *)
From stdpp Require Import gmap.
From Coq Require Import Lia ZArith.
From Verif Require Import Base BaseProofs TicksModel GuidModel FormatModel FormatProofs CompactModel CompactSpec CompactProofs CacheModel CacheSpec CacheProofs FrameModel FrameSpec FrameProofs TsscModel TsscSpec SubscriberModel SubscriberSpec SubscriberProofs.
Open Scope Z_scope.
Ltac Zify.zify_post_hook ::= Z.div_mod_to_equations.

Lemma mask_field {A} (f : sub -> A) s s' : (forall x, f (mask_all x) = f x) -> mask_all s' = mask_all s -> f s' = f s.
Proof. intros K H. rewrite <- (K s), <- (K s'), H. reflexivity. Qed.

(** ** C35 *)
Lemma process_validated e pool s p s' ev : bytes_ok p -> cbc_ok e -> validated s = true ->
  processServerResponse e pool s p = Ok (s', ev) -> validated s' = true.
Proof.
  intros Bp Bc V H. apply process_inv in H as (L & [(_ & -> & _)|(s1 & W & D)]); [exact V|].
  rewrite validate_spec, V in W. injection W as <-.
  apply dispatch_mask in D as (_ & D); [congruence|apply bytes_ok_skipn', Bp|exact Bc].
Qed.
Lemma u64_add a b : u64 (u64 a + b) = u64 (a + b).
Proof. unfold u64. apply Zplus_mod_idemp_l. Qed.
Lemma act_bytes e s a s' ev : packet_ok a -> cbc_ok e -> in_session a = true -> connected s = true ->
  (validated s = true \/ small a) -> is_u64 (cmdBytes s) -> is_u64 (dataBytes s) ->
  act e s a = Ok (s', ev) ->
  cmdBytes s' = u64 (cmdBytes s + command_bytes a) /\ dataBytes s' = u64 (dataBytes s + datagram_bytes a) /\
  connected s' = true /\ (validated s = true -> validated s' = true).
Proof.
  intros Bp Bc IS C V U1 U2 H.
  assert (Z1 : cmdBytes s = u64 (cmdBytes s + 0)) by (unfold is_u64 in *; unfold u64; rewrite Z.add_0_r, Z.mod_small by lia; reflexivity).
  assert (Z2 : dataBytes s = u64 (dataBytes s + 0)) by (unfold is_u64 in *; unfold u64; rewrite Z.add_0_r, Z.mod_small by lia; reflexivity).
  destruct a as [dial|pool p|pool p| | |]; try discriminate IS; cbn [act command_bytes datagram_bytes] in *; cbn [packet_ok packet_of] in Bp.
  - rewrite C in H. unfold receive in H.
    assert (R : exists b, readPayloadHeader s (len p) = (set_cmdBytes (set_validated s b) (u64 (cmdBytes s + 4)), true) /\ (validated s = true -> b = true)).
    { unfold readPayloadHeader. cbv zeta. change (validated (set_cmdBytes s _)) with (validated s). change (Version (set_cmdBytes s _)) with (Version s).
      destruct (validated s) eqn:W; cbn [negb].
      - exists true. split; [|auto]. destruct s. cbn in *. subst. reflexivity.
      - destruct (2 <=? Version s).
        + exists false. split; [|discriminate]. destruct V as [V|V]; [discriminate|]. cbn [small] in V.
          replace (len p <=? maxInitialPacketSize) with true by (unfold maxInitialPacketSize, responseHeaderSize; lia). destruct s. cbn in *. subst. reflexivity.
        + exists true. split; [destruct s; reflexivity|auto]. }
    destruct R as (b & R & Rb). rewrite R in H. cbn [readPacket] in H. unfold readPacket in H.
    pose proof (fun W => process_validated _ _ _ _ _ _ Bp Bc W H) as PV.
    apply process_mask in H; [|assumption..].
    pose proof (mask_field cmdBytes _ _ (fun _ => eq_refl) H) as H1. pose proof (mask_field dataBytes _ _ (fun _ => eq_refl) H) as H2.
    pose proof (mask_field connected _ _ (fun _ => eq_refl) H) as H3.
    rewrite H1, H2, H3. cbn. split; [rewrite u64_add; f_equal; lia|]. split; [exact Z2|]. split; [exact C|]. intros W. apply PV. exact (Rb W).
  - rewrite C in H. unfold receiveUdp in H.
    pose proof (fun W => process_validated _ _ _ _ _ _ Bp Bc W H) as PV.
    apply process_mask in H; [|assumption..].
    pose proof (mask_field cmdBytes _ _ (fun _ => eq_refl) H) as H1. pose proof (mask_field dataBytes _ _ (fun _ => eq_refl) H) as H2.
    pose proof (mask_field connected _ _ (fun _ => eq_refl) H) as H3.
    rewrite H1, H2, H3. cbn. auto.
  - unfold Subscribe in H. rewrite C in H. cbn [negb] in H. destruct (_ && _); [inv H; auto|].
    match type of H with bind ?x _ = _ => destruct x as [[s1 e1]| |] eqn:E1 end; try discriminate. cbn [bind] in H. cbv beta zeta iota in H.
    match type of H with bind ?x _ = _ => destruct x as [[s2 e2]| |] eqn:E2 end; try discriminate. cbn [bind] in H. inv H.
    assert (M : mask_send s1 = mask_send s).
    { destruct (subscribed s); [|inv E1; reflexivity]. unfold Unsubscribe in E1. destruct (_ || _); [inv E1; reflexivity|]. eapply send_mask, E1. }
    apply send_inv in E2 as (wb & -> & _).
    change (cmdBytes (set_tsscResetRequested (set_writeBuffer (set_measTotal s1 0) wb) true)) with (cmdBytes (mask_send s1)).
    change (dataBytes (set_tsscResetRequested (set_writeBuffer (set_measTotal s1 0) wb) true)) with (dataBytes (mask_send s1)).
    change (connected (set_tsscResetRequested (set_writeBuffer (set_measTotal s1 0) wb) true)) with (connected (mask_send s1)).
    change (validated (set_tsscResetRequested (set_writeBuffer (set_measTotal s1 0) wb) true)) with (validated (mask_send s1)).
    rewrite M. cbn. auto.
  - unfold Unsubscribe in H. destruct (_ || _); [inv H; auto|]. apply send_inv in H as (wb & -> & _). cbn. auto.
Qed.
Lemma run_bytes e acts : forall s s' ev, Forall packet_ok acts -> cbc_ok e -> forallb in_session acts = true -> connected s = true ->
  (validated s = true \/ Forall small acts) -> is_u64 (cmdBytes s) -> is_u64 (dataBytes s) ->
  run e s acts = Ok (s', ev) ->
  cmdBytes s' = u64 (cmdBytes s + sum (map command_bytes acts)) /\ dataBytes s' = u64 (dataBytes s + sum (map datagram_bytes acts)).
Proof.
  induction acts as [|a r IH]; intros s s' ev F Bc K C V U1 U2 H.
  - cbn [run] in H. inv H. cbn [map sum fold_right]. unfold is_u64 in *. unfold u64. rewrite !Z.add_0_r, !Z.mod_small by lia. auto.
  - apply run_cons in H as (s1 & e1 & e2 & A & R & ->). apply Forall_cons_1 in F as [F1 F2]. cbn [forallb] in K. apply andb_true_iff in K as [K1 K2].
    eapply act_bytes in A as (A1 & A2 & A3 & A4); eauto.
    + apply IH in R as [R1 R2]; auto.
      * rewrite R1, R2, A1, A2, !u64_add. cbn [map]. unfold sum. cbn [fold_right]. split; f_equal; lia.
      * destruct V as [V|V]; [auto|]. apply Forall_cons_1 in V as [_ V]. auto.
      * rewrite A1. apply u64_range.
      * rewrite A2. apply u64_range.
    + destruct V as [V|V]; [auto|]. apply Forall_cons_1 in V as [V _]. auto.
Qed.

(** ** C33 *)
Lemma receive_refused e pool s p : (6 <= length p)%nat -> validated s = false -> 2 <= Version s -> ~ plausible (code_of p) (command_of p) ->
  exists n, receive e pool s p = Ok (set_cmdBytes s n, [EvError; EvTerminate]).
Proof.
  intros L V W NP. unfold receive, readPayloadHeader. cbv zeta. change (validated (set_cmdBytes s _)) with (validated s).
  change (Version (set_cmdBytes s _)) with (Version s). rewrite V. cbn [negb].
  replace (2 <=? Version s) with true by lia.
  destruct (len p <=? maxInitialPacketSize); [|eexists; reflexivity].
  unfold readPacket. rewrite process_eq by exact L. rewrite validate_spec.
  change (validated (set_cmdBytes _ _)) with (validated s). change (Version (set_cmdBytes (set_cmdBytes s _) _)) with (Version s). rewrite V.
  replace (2 <=? Version s) with true by lia.
  destruct (_ || _) eqn:E; [apply plausible_dec in E; contradiction|]. eexists. reflexivity.
Qed.
Lemma run_refused e : forall ps s, validated s = false -> 2 <= Version s -> connected s = true ->
  Forall (fun pp => (6 <= length (snd pp))%nat /\ ~ plausible (code_of (snd pp)) (command_of (snd pp))) ps ->
  exists n, run e s (map (fun pp => APacket (fst pp) (snd pp)) ps) = Ok (set_cmdBytes s n, concat (map (fun _ => [EvError; EvTerminate]) ps)).
Proof.
  induction ps as [|[pool p] ps IH]; intros s V W C F.
  - exists (cmdBytes s). cbn. destruct s; reflexivity.
  - apply Forall_cons_1 in F as [[F1 F2] F3]. cbn [fst snd] in *. cbn [map run act fst snd]. rewrite C.
    destruct (receive_refused e pool s p F1 V W F2) as (n & ->). cbn [bind].
    destruct (IH (set_cmdBytes s n) V W C F3) as (n2 & ->). exists n2. unfold emit. cbn [bind]. destruct s; reflexivity.
Qed.

(** ** C34 *)
Lemma dispatch_subscribed e pool s c m d s' ev : bytes_ok d -> cbc_ok e ->
  dispatch e pool s c m d = Ok (s', ev) ->
  subscribed s' = (if c =? 0x80 then if m =? 2 then true else if m =? 3 then false else subscribed s else subscribed s).
Proof.
  intros Bd Bc. unfold dispatch. intros H. change sr_Succeeded with 0x80 in H.
  destruct (c =? 0x80).
  { apply handleSucceeded_mask in H as (_ & _ & H). exact H. }
  destruct (c =? sr_Failed).
  { apply handleFailed_mask in H as (H & _). change (subscribed (set_connectionRefused s' false) = subscribed (set_connectionRefused s false)). congruence. }
  destruct (c =? sr_DataPacket).
  { apply handleDataPacket_inv in H as [(-> & _)|(z & count & ci & body & s1 & ms & ev1 & _ & _ & P & -> & _)]; auto.
    assert (M : mask_data s1 = mask_data s) by (destruct z; [eapply parseTSSC_mask, P|apply parseCompactMeasurements_state in P; subst; reflexivity]).
    change (subscribed (mask_data s1) = subscribed (mask_data s)). congruence. }
  destruct (c =? sr_DataStartTime); [unfold handleDataStartTime in H; inv H; auto|].
  destruct (c =? sr_ProcessingComplete); [inv H; auto|].
  destruct (c =? sr_UpdateSignalIndexCache).
  { apply handleUpdateSignalIndexCache_mask in H. change (subscribed (mask_cache s') = subscribed (mask_cache s)). congruence. }
  destruct (c =? sr_UpdateBaseTimes).
  { apply handleUpdateBaseTimes_mask in H as (H & _). change (subscribed (mask_times s') = subscribed (mask_times s)). congruence. }
  destruct (c =? sr_UpdateCipherKeys).
  { apply handleUpdateCipherKeys_mask in H as (H & _). change (subscribed (set_keyIVs s' None) = subscribed (set_keyIVs s None)). congruence. }
  destruct (c =? sr_ConfigurationChanged); [inv H; auto|].
  destruct (c =? sr_BufferBlock).
  { apply handleBufferBlock_mask in H as (H & _). change (subscribed (mask_blocks s') = subscribed (mask_blocks s)). congruence. }
  destruct (c =? sr_Notify).
  { apply handleNotification_mask in H as (H & _). change (subscribed (mask_send s') = subscribed (mask_send s)). congruence. }
  destruct (c =? sr_NoOP); inv H; auto.
Qed.
(** Whether a packet gets past validation. *)
Lemma process_subscribed e pool s p s' ev : bytes_ok p -> cbc_ok e -> processServerResponse e pool s p = Ok (s', ev) ->
  (accepted s p /\ subscribed s' = after_success p (subscribed s)) \/ (~ accepted s p /\ s' = s /\ ev = [EvError; EvTerminate]).
Proof.
  intros Bp Bc H. apply process_inv in H as (L & [(V & -> & ->)|(s1 & V & D)]); rewrite validate_spec in V.
  - right. split; [|auto]. unfold accepted. destruct (validated s); [discriminate|].
    destruct (2 <=? Version s) eqn:W; [|discriminate]. cbn [andb] in V. destruct (_ || _) eqn:P; [discriminate|].
    intros [X|[X|X]]; [discriminate|lia|]. apply plausible_dec in X. congruence.
  - left. apply dispatch_subscribed in D; [|apply bytes_ok_skipn', Bp|exact Bc].
    assert (S1 : subscribed s1 = subscribed s).
    { destruct (validated s); [congruence|]. destruct (_ && _); [discriminate|]. injection V as <-. reflexivity. }
    split; [|rewrite D, S1; reflexivity].
    unfold accepted. destruct (validated s); [auto|]. destruct (2 <=? Version s) eqn:W; [|right; left; lia]. cbn [andb] in V.
    destruct (_ || _) eqn:P; [|discriminate]. apply plausible_dec in P. auto.
Qed.

(** ** Base times and cache slots *)
Lemma cache_at_set s ci c i : cache_at (set_cache s ci c) i = if Bool.eqb (i =? 0) (ci =? 0) then c else cache_at s i.
Proof. unfold cache_at, set_cache. destruct (i =? 0), (ci =? 0); reflexivity. Qed.
Lemma set_cache_same s ci : set_cache s ci (cache_at s ci) = s.
Proof. unfold set_cache, cache_at. destruct (ci =? 0); destruct s; reflexivity. Qed.
Lemma cache_at_cong s i j : (i =? 0) = (j =? 0) -> cache_at s i = cache_at s j.
Proof. unfold cache_at. intros ->. reflexivity. Qed.
Lemma parseTSSC_sic s ci d room s' ms ev : parseTSSC s ci d room = Ok (s', ms, ev) ->
  forall i, sc_sic (cache_at s' i) = sc_sic (cache_at s i).
Proof.
  intros P i. unfold parseTSSC in P. cbv zeta in P.
  assert (K : forall s0 x, sc_sic x = sc_sic (cache_at s ci) -> sc_sic (cache_at s0 i) = sc_sic (cache_at s i) ->
              sc_sic (cache_at (set_cache s0 ci x) i) = sc_sic (cache_at s i)).
  { intros s0 x X Y. rewrite cache_at_set. destruct (Bool.eqb (i =? 0) (ci =? 0)) eqn:B; [|exact Y].
    apply Bool.eqb_prop in B. rewrite X. f_equal. symmetry. apply cache_at_cong, B. }
  destruct (idx d 0) as [v| |]; try discriminate. cbn [bind] in P.
  destruct (negb (v =? 85)); [inv P; apply K; reflexivity|].
  destruct (slice_from d 1) as [t| |]; try discriminate. cbn [bind] in P.
  destruct (be_u16 t) as [seq| |]; try discriminate. cbn [bind] in P.
  set (s2 := if seq =? 0 then _ else _) in P.
  assert (K2 : sc_sic (cache_at s2 i) = sc_sic (cache_at s i)).
  { unfold s2. destruct (seq =? 0); [|apply K; reflexivity].
    assert (K3 : forall x b, cache_at (set_tsscResetRequested x b) i = cache_at x i) by reflexivity.
    rewrite K3. apply K; [reflexivity|]. apply K; reflexivity. }
  clearbody s2. destruct (negb _); [inv P; exact K2|].
  destruct (slice_from d 3) as [b3| |]; try discriminate. cbn [bind] in P.
  destruct (tssc_loop _ _ _ _) as [[? ?] x]. destruct x; try discriminate; inv P; apply K; auto.
Qed.

(** Fields a data packet does not change, and those only the named messages change. *)
Lemma dispatch_base e pool s c m d s' ev : bytes_ok d -> cbc_ok e -> (c =? 0x84) = false ->
  dispatch e pool s c m d = Ok (s', ev) -> baseTimes s' = baseTimes s.
Proof.
  intros Bd Bc N. unfold dispatch. intros H. change sr_UpdateBaseTimes with 0x84 in H. rewrite N in H.
  destruct (c =? sr_Succeeded).
  { apply handleSucceeded_mask in H as (H & _). change (baseTimes (set_subscribed s' false) = baseTimes (set_subscribed s false)). congruence. }
  destruct (c =? sr_Failed).
  { apply handleFailed_mask in H as (H & _). change (baseTimes (set_connectionRefused s' false) = baseTimes (set_connectionRefused s false)). congruence. }
  destruct (c =? sr_DataPacket).
  { apply handleDataPacket_inv in H as [(-> & _)|(z & count & ci & body & s1 & ms & ev1 & _ & _ & P & -> & _)]; auto.
    assert (M : mask_data s1 = mask_data s) by (destruct z; [eapply parseTSSC_mask, P|apply parseCompactMeasurements_state in P; subst; reflexivity]).
    change (baseTimes (mask_data s1) = baseTimes (mask_data s)). congruence. }
  destruct (c =? sr_DataStartTime); [unfold handleDataStartTime in H; inv H; auto|].
  destruct (c =? sr_ProcessingComplete); [inv H; auto|].
  destruct (c =? sr_UpdateSignalIndexCache).
  { apply handleUpdateSignalIndexCache_mask in H. change (baseTimes (mask_cache s') = baseTimes (mask_cache s)). congruence. }
  destruct (c =? sr_UpdateCipherKeys).
  { apply handleUpdateCipherKeys_mask in H as (H & _). change (baseTimes (set_keyIVs s' None) = baseTimes (set_keyIVs s None)). congruence. }
  destruct (c =? sr_ConfigurationChanged); [inv H; auto|].
  destruct (c =? sr_BufferBlock).
  { apply handleBufferBlock_mask in H as (H & _). change (baseTimes (mask_blocks s') = baseTimes (mask_blocks s)). congruence. }
  destruct (c =? sr_Notify).
  { apply handleNotification_mask in H as (H & _). change (baseTimes (mask_send s') = baseTimes (mask_send s)). congruence. }
  destruct (c =? sr_NoOP); inv H; auto.
Qed.

(** What a cache update does to the slots. *)
Lemma handleUpdateSignalIndexCache_slot e s d s' ev : handleUpdateSignalIndexCache e s d = Ok (s', ev) ->
  let ci := if 1 <? Version s then if 0 <? nth 0 d 0 then 1 else 0 else 0 in
  (forall i, (i =? 0) <> (ci =? 0) -> cache_at s' i = cache_at s i) /\
  ((cache_at s' ci = cache_at s ci /\ cacheIndex s' = cacheIndex s /\ ev = [EvError]) \/
   (exists c, cache_at s' ci = mkScache c None /\ cacheIndex s' = ci /\ In (EvSubscriptionUpdated c) ev)).
Proof.
  intros H. unfold handleUpdateSignalIndexCache in H. cbv zeta. set (ci := if 1 <? Version s then if 0 <? nth 0 d 0 then 1 else 0 else 0).
  assert (E : exists d', (if 1 <? Version s then let* b := idx d 0 in let* x := slice_from d 1 in Ok (if 0 <? b then 1 else 0, x) else Ok (0, d)) = Ok (ci, d') \/
                     (if 1 <? Version s then let* b := idx d 0 in let* x := slice_from d 1 in Ok (if 0 <? b then 1 else 0, x) else Ok (0, d)) = Panic).
  { unfold ci. destruct (1 <? Version s); [|exists d; auto]. destruct d as [|b r]; [exists []; right; reflexivity|].
    exists r. left. unfold idx. cbn [nth_error Z.ltb Z.to_nat]. cbn [bind]. 
    pose proof (slice_from_app [b] r) as Q. change (len [b]) with 1 in Q. cbn [app] in Q. rewrite Q. reflexivity. }
  destruct E as (d' & [E|E]); rewrite E in H; [|discriminate]. clear E. cbn [bind] in H. cbv zeta in H.
  destruct (if CompressSignalIndexCache s then gunzip e d' else Some d') as [d2|]; [|inv H; split; [reflexivity|left; auto]].
  destruct (decode _ _ _) as [ds r]. destruct r; [|inv H; split; [reflexivity|left; auto]|discriminate].
  match type of H with context [set_cacheIndex ?x ?y] => set (s1 := set_cacheIndex x y) in H end.
  assert (K : forall i, cache_at s1 i = if Bool.eqb (i =? 0) (ci =? 0) then mkScache (d_sic ds) None else cache_at s i).
  { intros i. unfold s1. match goal with |- cache_at (set_cacheIndex ?x ?y) i = _ => change (cache_at (set_cacheIndex x y) i) with (cache_at x i) end.
    rewrite cache_at_set. reflexivity. }
  assert (K2 : cacheIndex s1 = ci) by reflexivity. clearbody s1.
  assert (KK : forall s2, mask_send s2 = mask_send s1 -> (forall i, cache_at s2 i = cache_at s1 i) /\ cacheIndex s2 = cacheIndex s1).
  { intros s2 M. split; [intros i; change (cache_at (mask_send s2) i = cache_at (mask_send s1) i); congruence|].
    change (cacheIndex (mask_send s2) = cacheIndex (mask_send s1)). congruence. }
  match type of H with (let* (_, _) := ?x in _) = _ => destruct x as [[s2 ev2]| |] eqn:X end; try discriminate.
  cbn [bind] in H. inv H.
  assert (M : mask_send s2 = mask_send s1) by (destruct (1 <? Version s1); [eapply send_mask, X|inv X; reflexivity]).
  destruct (KK s2 M) as [K3 K4]. split.
  - intros i Ni. rewrite K3, K. destruct (i =? 0), (ci =? 0); cbn [Bool.eqb]; congruence.
  - right. exists (d_sic ds). rewrite K3, K, K4, K2. rewrite Bool.eqb_reflx. split; [reflexivity|]. split; [reflexivity|].
    apply in_or_app. right. left. reflexivity.
Qed.
