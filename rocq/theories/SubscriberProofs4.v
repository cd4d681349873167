(** Histories: what stays unchanged between the messages that change it. *)
From stdpp Require Import gmap.
From Coq Require Import Lia ZArith.
From Verif Require Import Base BaseProofs TicksModel GuidModel FormatModel FormatProofs CompactModel CompactSpec CompactProofs CacheModel CacheSpec CacheProofs FrameModel FrameSpec FrameProofs TsscModel TsscSpec TsscCode TsscCode2 TsscRead TsscProofs TsscProofs2 TsscProofs3 SubscriberModel SubscriberSpec SubscriberProofs SubscriberProofs2 SubscriberProofs3.
Open Scope Z_scope.
Ltac Zify.zify_post_hook ::= Z.div_mod_to_equations.

Definition mask_count (s : sub) := set_validated (set_dataBytes (set_cmdBytes s 0) 0) true.
Definition mask_local (s : sub) :=
  set_connected (set_subscribed (set_connectionRefused (set_measTotal (set_measurementRegistry (set_keyIVs (set_tsscResetRequested
    (set_bufferBlockExpected (set_writeBuffer (mask_count s) []) 0) false) None) ∅) 0) false) false) false.
Lemma packet_inv e s a p s' ev : packet_of a = Some p -> act e s a = Ok (s', ev) ->
  (mask_count s' = mask_count s /\ (ev = [] \/ ev = [EvError; EvTerminate])) \/
  (connected s = true /\ (6 <= length p)%nat /\
   exists pool s1, mask_count s1 = mask_count s /\ dispatch e pool s1 (code_of p) (command_of p) (skipn 6 p) = Ok (s', ev)).
Proof.
  intros E H.
  assert (K : forall pool s0, mask_count s0 = mask_count s -> processServerResponse e pool s0 p = Ok (s', ev) ->
    (mask_count s' = mask_count s /\ (ev = [] \/ ev = [EvError; EvTerminate])) \/
    ((6 <= length p)%nat /\
     exists pool s1, mask_count s1 = mask_count s /\ dispatch e pool s1 (code_of p) (command_of p) (skipn 6 p) = Ok (s', ev))).
  { intros pool s0 M P. apply process_inv in P as (L & [(V & -> & ->)|(s1 & V & D)]); [auto|].
    right. split; [exact L|]. exists pool, s1. split; [|exact D]. rewrite <- M. rewrite validate_spec in V.
    destruct (validated s0); [congruence|]. destruct (_ && _); [discriminate|]. injection V as <-. destruct s0; reflexivity. }
  destruct a as [d|pool q|pool q| | |]; try discriminate; cbn [packet_of] in E; injection E as ->; cbn [act] in H;
    (destruct (connected s) eqn:C; [|inv H; auto]).
  - unfold receive in H. destruct (readPayloadHeader s (len p)) as [s0 go] eqn:R.
    assert (M : mask_count s0 = mask_count s).
    { unfold readPayloadHeader in R. cbv zeta in R. destruct (negb _); [destruct (2 <=? _)|]; injection R as <- <-; destruct s; reflexivity. }
    destruct go; [|inv H; left; auto]. unfold readPacket in H. apply K in H; [|rewrite <- M; destruct s0; reflexivity].
    destruct H as [H|(L & H)]; auto.
  - unfold receiveUdp in H. apply K in H; [|destruct s; reflexivity]. destruct H as [H|(L & H)]; auto.
Qed.
Lemma send_local s c d s' ev : send s c d = Ok (s', ev) -> mask_local s' = mask_local s.
Proof. intros H. apply send_inv in H as (wb & -> & _). destruct s; reflexivity. Qed.
Lemma Unsubscribe_local s s' ev : Unsubscribe s = Ok (s', ev) -> mask_local s' = mask_local s.
Proof. unfold Unsubscribe. destruct (_ || _); intros H; [inv H; reflexivity|eapply send_local, H]. Qed.
Lemma mask_local_set_wb s x : mask_local (set_writeBuffer s x) = mask_local s. Proof. destruct s; reflexivity. Qed.
Lemma mask_local_setup s : mask_local (set_connected (set_connectionRefused (setupConnection s) false) true) = mask_local s.
Proof. destruct s; reflexivity. Qed.
Lemma mask_local_setup' s : mask_local (set_connectionRefused (setupConnection s) false) = mask_local s.
Proof. destruct s; reflexivity. Qed.
Lemma connect_local s d s' ev : connect s d = Ok (s', ev) -> mask_local s' = mask_local s.
Proof.
  unfold connect. intros H. destruct (connected s); [injection H as <- _; reflexivity|]. cbv zeta in H.
  rewrite <- (mask_local_setup' s).
  set (s0 := set_connectionRefused (setupConnection s) false) in *. clearbody s0.
  destruct d; [|injection H as <- _; reflexivity]. unfold establishConnection in H. cbv zeta in H.
  destruct (sendOperationalModes _) as [[s1 ev1]| |] eqn:X; try discriminate. cbn [bind] in H. injection H as <- _.
  unfold sendOperationalModes in X. apply send_local in X. rewrite X. destruct s0; reflexivity.
Qed.
Lemma Subscribe_local s s' ev : Subscribe s = Ok (s', ev) -> mask_local s' = mask_local s.
Proof.
  unfold Subscribe. intros H. destruct (negb (connected s)); [injection H as <- _; reflexivity|]. destruct (_ && _); [injection H as <- _; reflexivity|].
  match type of H with bind ?x _ = _ => destruct x as [[s1 ev1]| |] eqn:X end; try discriminate.
  assert (M1 : mask_local s1 = mask_local s) by (destruct (subscribed s); [eapply Unsubscribe_local, X|injection X as <- _; reflexivity]).
  cbn [bind] in H. cbv beta zeta iota in H.
  match type of H with bind ?x _ = _ => destruct x as [[s2 ev2]| |] eqn:Y end; try discriminate.
  cbn [bind] in H. cbv beta zeta iota in H. unfold done in H. injection H as <- _. apply send_local in Y. rewrite <- M1. 
  transitivity (mask_local s2); [destruct s2; reflexivity|]. rewrite Y. destruct s1; reflexivity.
Qed.
Lemma local_inv e s a s' ev : packet_of a = None -> act e s a = Ok (s', ev) -> mask_local s' = mask_local s.
Proof.
  intros E H. destruct a as [d|pool q|pool q| | |]; try discriminate; cbn [act] in H.
  - eapply connect_local, H.
  - eapply Subscribe_local, H.
  - eapply Unsubscribe_local, H.
  - unfold disconnect in H. injection H as <- _. destruct s; reflexivity.
Qed.

(** Fields that no action ever changes. *)
Definition fixed (s : sub) := (Version s, subscription s, (CompressPayloadData s, CompressMetadata s, CompressSignalIndexCache s, SwapGuidEndianness s)).
Lemma act_fixed e s a s' ev : packet_ok a -> cbc_ok e -> act e s a = Ok (s', ev) -> fixed s' = fixed s.
Proof.
  intros Bp Bc H. destruct (packet_of a) as [p|] eqn:E.
  - unfold packet_ok in Bp. rewrite E in Bp. apply (packet_inv _ _ _ _ _ _ E) in H as [(M & _)|(_ & _ & pool & s1 & M & D)].
    + change (fixed (mask_count s') = fixed (mask_count s)). congruence.
    + apply dispatch_mask in D as (D & _); [|apply bytes_ok_skipn', Bp|exact Bc].
      change (fixed (mask_all s') = fixed (mask_count s)). rewrite D, <- M. reflexivity.
  - apply (local_inv _ _ _ _ _ E) in H. change (fixed (mask_local s') = fixed (mask_local s)). congruence.
Qed.
Lemma run_fixed e acts : forall s s' ev, Forall packet_ok acts -> cbc_ok e -> run e s acts = Ok (s', ev) -> fixed s' = fixed s.
Proof.
  induction acts as [|a r IH]; intros s s' ev F Bc H; [cbn in H; inv H; reflexivity|].
  apply run_cons in H as (s1 & ev1 & ev2 & A & R & _). inversion F; subst. rewrite (IH _ _ _ H2 Bc R). eapply act_fixed; eassumption.
Qed.

(** ** Base times *)
Lemma act_base e s a s' ev : packet_ok a -> cbc_ok e -> has_base_times a = false -> act e s a = Ok (s', ev) -> baseTimes s' = baseTimes s.
Proof.
  intros Bp Bc N H. unfold has_base_times in N. destruct (packet_of a) as [p|] eqn:E.
  - unfold packet_ok in Bp. rewrite E in Bp. apply (packet_inv _ _ _ _ _ _ E) in H as [(M & _)|(_ & _ & pool & s1 & M & D)].
    + change (baseTimes (mask_count s') = baseTimes (mask_count s)). congruence.
    + apply dispatch_base in D; [|apply bytes_ok_skipn', Bp|exact Bc|exact N].
      rewrite D. change (baseTimes (mask_count s1) = baseTimes (mask_count s)). congruence.
  - apply (local_inv _ _ _ _ _ E) in H. change (baseTimes (mask_local s') = baseTimes (mask_local s)). congruence.
Qed.
Lemma run_base e acts : forall s s' ev, Forall packet_ok acts -> cbc_ok e -> forallb (fun a => negb (has_base_times a)) acts = true ->
  run e s acts = Ok (s', ev) -> baseTimes s' = baseTimes s.
Proof.
  induction acts as [|a r IH]; intros s s' ev F Bc N H; [cbn in H; inv H; reflexivity|].
  apply run_cons in H as (s1 & ev1 & ev2 & A & R & _). inversion F; subst. cbn [forallb] in N. apply andb_true_iff in N as [N1 N2].
  rewrite (IH _ _ _ H2 Bc N2 R). eapply act_base; try eassumption. destruct (has_base_times a); [discriminate|reflexivity].
Qed.

(** ** Cache slots *)
Lemma dispatch_slot e pool s c m d s' ev : bytes_ok d -> cbc_ok e -> (c =? 0x83) = false ->
  dispatch e pool s c m d = Ok (s', ev) -> (forall i, sc_sic (cache_at s' i) = sc_sic (cache_at s i)) /\ cacheIndex s' = cacheIndex s.
Proof.
  intros Bd Bc N. unfold dispatch. intros H. change sr_UpdateSignalIndexCache with 0x83 in H. rewrite N in H.
  assert (K : forall mk, (forall x i, cache_at (mk x) i = cache_at x i) -> (forall x, cacheIndex (mk x) = cacheIndex x) -> mk s' = mk s ->
            (forall i, sc_sic (cache_at s' i) = sc_sic (cache_at s i)) /\ cacheIndex s' = cacheIndex s).
  { intros mk K1 K2 E. split; [intros i; rewrite <- (K1 s'), <- (K1 s), E; reflexivity|rewrite <- (K2 s'), <- (K2 s), E; reflexivity]. }
  destruct (c =? sr_Succeeded).
  { apply handleSucceeded_mask in H as (H & _). apply (K (fun x => set_subscribed x false)); auto. }
  destruct (c =? sr_Failed).
  { apply handleFailed_mask in H as (H & _). apply (K (fun x => set_connectionRefused x false)); auto. }
  destruct (c =? sr_DataPacket).
  { apply handleDataPacket_inv in H as [(-> & _)|(z & count & ci & body & s1 & ms & ev1 & _ & _ & P & -> & _)]; auto. split.
    - intros i. change (cache_at (set_measTotal s1 _) i) with (cache_at s1 i).
      destruct z; [eapply parseTSSC_sic, P|apply parseCompactMeasurements_state in P; subst; reflexivity].
    - assert (M : mask_data s1 = mask_data s) by (destruct z; [eapply parseTSSC_mask, P|apply parseCompactMeasurements_state in P; subst; reflexivity]).
      change (cacheIndex (mask_data s1) = cacheIndex (mask_data s)). congruence. }
  destruct (c =? sr_DataStartTime); [unfold handleDataStartTime in H; inv H; auto|].
  destruct (c =? sr_ProcessingComplete); [inv H; auto|].
  destruct (c =? sr_UpdateBaseTimes).
  { apply handleUpdateBaseTimes_mask in H as (H & _). apply (K mask_times); auto. }
  destruct (c =? sr_UpdateCipherKeys).
  { apply handleUpdateCipherKeys_mask in H as (H & _). apply (K (fun x => set_keyIVs x None)); auto. }
  destruct (c =? sr_ConfigurationChanged); [inv H; auto|].
  destruct (c =? sr_BufferBlock).
  { apply handleBufferBlock_mask in H as (H & _). apply (K mask_blocks); auto. }
  destruct (c =? sr_Notify).
  { apply handleNotification_mask in H as (H & _). apply (K mask_send); auto. }
  destruct (c =? sr_NoOP); inv H; auto.
Qed.
Lemma cache_mask_count s s' i : mask_count s' = mask_count s -> cache_at s' i = cache_at s i /\ cacheIndex s' = cacheIndex s /\ Version s' = Version s.
Proof.
  intros M. change (cache_at (mask_count s') i = cache_at (mask_count s) i /\ cacheIndex (mask_count s') = cacheIndex (mask_count s) /\ Version (mask_count s') = Version (mask_count s)).
  rewrite M. auto.
Qed.
Lemma nth_skipn6 (p : bytes) : nth 0 (skipn 6 p) 0 = nth 6 p 0.
Proof. do 6 (destruct p as [|? p]; [reflexivity|]). destruct p; reflexivity. Qed.
Lemma act_slot e s a s' ev i : packet_ok a -> cbc_ok e -> i = 0 \/ i = 1 -> updates_slot (Version s) i a = false ->
  act e s a = Ok (s', ev) -> sc_sic (cache_at s' i) = sc_sic (cache_at s i).
Proof.
  intros Bp Bc Hi N H. unfold updates_slot in N. destruct (packet_of a) as [p|] eqn:E.
  - unfold packet_ok in Bp. rewrite E in Bp. apply (packet_inv _ _ _ _ _ _ E) in H as [(M & _)|(_ & L & pool & s1 & M & D)].
    + destruct (cache_mask_count s s' i M) as (-> & _). reflexivity.
    + destruct (cache_mask_count s s1 i M) as (<- & _ & V).
      destruct (code_of p =? 0x83) eqn:C.
      * cbn [andb] in N. apply Z.eqb_eq in C. rewrite C in D. change (handleUpdateSignalIndexCache e s1 (skipn 6 p) = Ok (s', ev)) in D.
        apply handleUpdateSignalIndexCache_slot in D. cbv zeta in D. destruct D as (D & _). rewrite D; [reflexivity|].
        rewrite V. destruct (1 <? Version s).
        -- rewrite nth_skipn6. destruct (0 <? nth 6 p 0), Hi; subst; cbn in *; congruence.
        -- destruct Hi; subst; cbn in *; congruence.
      * apply dispatch_slot in D as (D & _); [apply D|apply bytes_ok_skipn', Bp|exact Bc|exact C].
  - apply (local_inv _ _ _ _ _ E) in H. change (sc_sic (cache_at (mask_local s') i) = sc_sic (cache_at (mask_local s) i)). congruence.
Qed.
Lemma run_slot e acts i : forall s s' ev, Forall packet_ok acts -> cbc_ok e -> i = 0 \/ i = 1 ->
  forallb (fun a => negb (updates_slot (Version s) i a)) acts = true ->
  run e s acts = Ok (s', ev) -> sc_sic (cache_at s' i) = sc_sic (cache_at s i).
Proof.
  induction acts as [|a r IH]; intros s s' ev F Bc Hi N H; [cbn in H; inv H; reflexivity|].
  apply run_cons in H as (s1 & ev1 & ev2 & A & R & _). inversion F; subst. cbn [forallb] in N. apply andb_true_iff in N as [N1 N2].
  assert (V : Version s1 = Version s) by (apply act_fixed in A; [|assumption..]; unfold fixed in A; congruence).
  rewrite (IH s1 _ _ H2 Bc Hi) with (2 := R); [|rewrite V; exact N2].
  eapply act_slot; try eassumption. destruct (updates_slot (Version s) i a); [discriminate|reflexivity].
Qed.
(** The active cache changes only with an update message. *)
Lemma act_active e s a s' ev : packet_ok a -> cbc_ok e -> updates_cache a = false -> act e s a = Ok (s', ev) -> active s' = active s.
Proof.
  intros Bp Bc N H. unfold updates_cache in N. unfold active. destruct (packet_of a) as [p|] eqn:E.
  - unfold packet_ok in Bp. rewrite E in Bp. apply (packet_inv _ _ _ _ _ _ E) in H as [(M & _)|(_ & L & pool & s1 & M & D)].
    + destruct (cache_mask_count s s' (cacheIndex s') M) as (-> & -> & _). reflexivity.
    + destruct (cache_mask_count s s1 (cacheIndex s1) M) as (X & Y & _).
      apply dispatch_slot in D as (D1 & D2); [|apply bytes_ok_skipn', Bp|exact Bc|exact N]. rewrite D1, D2, X, Y. reflexivity.
  - apply (local_inv _ _ _ _ _ E) in H. change (sc_sic (cache_at (mask_local s') (cacheIndex (mask_local s'))) = sc_sic (cache_at (mask_local s) (cacheIndex (mask_local s)))). congruence.
Qed.
Lemma run_active e acts : forall s s' ev, Forall packet_ok acts -> cbc_ok e -> forallb (fun a => negb (updates_cache a)) acts = true ->
  run e s acts = Ok (s', ev) -> active s' = active s.
Proof.
  induction acts as [|a r IH]; intros s s' ev F Bc N H; [cbn in H; inv H; reflexivity|].
  apply run_cons in H as (s1 & ev1 & ev2 & A & R & _). inversion F; subst. cbn [forallb] in N. apply andb_true_iff in N as [N1 N2].
  rewrite (IH _ _ _ H2 Bc N2 R). eapply act_active; try eassumption. destruct (updates_cache a); [discriminate|reflexivity].
Qed.
(** An update either installs a new cache and makes it active, or reports an error
    and leaves both caches. *)
Lemma update_active e s a s' ev : packet_ok a -> cbc_ok e -> updates_cache a = true -> act e s a = Ok (s', ev) ->
  (active s' = active s /\ forall i, sc_sic (cache_at s' i) = sc_sic (cache_at s i)) \/
  (exists c, active s' = c /\ In (EvSubscriptionUpdated c) ev).
Proof.
  intros Bp Bc U H. unfold updates_cache in U. destruct (packet_of a) as [p|] eqn:E; [|discriminate].
  apply (packet_inv _ _ _ _ _ _ E) in H as [(M & _)|(_ & L & pool & s1 & M & D)]; unfold active.
  - left. destruct (cache_mask_count s s' (cacheIndex s') M) as (-> & -> & _). split; [reflexivity|]. intros i.
    destruct (cache_mask_count s s' i M) as (-> & _). reflexivity.
  - apply Z.eqb_eq in U. rewrite U in D. change (handleUpdateSignalIndexCache e s1 (skipn 6 p) = Ok (s', ev)) in D.
    apply handleUpdateSignalIndexCache_slot in D. cbv zeta in D. set (ci := if 1 <? Version s1 then _ else _) in D.
    destruct D as (D & [(D1 & D2 & _)|(c & D1 & D2 & D3)]).
    + left. assert (K : forall i, cache_at s' i = cache_at s i).
      { intros i. destruct (cache_mask_count s s1 i M) as (<- & _). destruct (Bool.bool_dec (i =? 0) (ci =? 0)) as [Q|Q]; [|apply D, Q].
        rewrite (cache_at_cong s' i ci Q), (cache_at_cong s1 i ci Q). exact D1. }
      split; [|intros i; rewrite K; reflexivity]. rewrite K, D2. destruct (cache_mask_count s s1 0 M) as (_ & -> & _). reflexivity.
    + right. exists c. split; [rewrite D2, D1; reflexivity|exact D3].
Qed.
