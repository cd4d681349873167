(** Proofs about the subscriber model. *)
From stdpp Require Import gmap.
From Coq Require Import Lia ZArith.
From Verif Require Import Base BaseProofs TicksModel GuidModel FormatModel FormatProofs CompactModel CompactSpec CompactProofs CacheModel CacheSpec CacheProofs FrameModel FrameSpec FrameProofs TsscModel TsscSpec TsscCode TsscCode2 TsscRead TsscProofs TsscProofs2 TsscProofs3 SubscriberModel SubscriberSpec.
Open Scope Z_scope.
Ltac Zify.zify_post_hook ::= Z.div_mod_to_equations.

(** ** Which fields a handler can change *)
Ltac inv1 H :=
  match type of H with
  | bind ?x _ = Ok _ => destruct x as [?| |] eqn:?; cbn [bind] in H; [|discriminate H|discriminate H]
  | Ok _ = Ok _ => first [injection H as <- <- <- | injection H as <- <-]
  | done _ _ = Ok _ => unfold done in H; injection H as <- <-
  | (if ?b then _ else _) = Ok _ => destruct b eqn:?
  | match ?x with _ => _ end = Ok _ => destruct x eqn:?; try discriminate H
  end.
Ltac inv H := repeat (cbv beta zeta iota in H; inv1 H).

Definition mask_send (s : sub) := set_writeBuffer s [].
Definition mask_cache (s : sub) :=
  set_writeBuffer (set_cacheIndex (set_cache1 (set_cache0 (set_subscriberID (set_measurementRegistry s ∅) [])
    (mkScache NewSignalIndexCache None)) (mkScache NewSignalIndexCache None)) 0) [].
Definition mask_times (s : sub) := set_baseTimes (set_timeIndex s 0) (0, 0).
Definition mask_data (s : sub) :=
  set_measTotal (set_tsscResetRequested (set_cache1 (set_cache0 s (mkScache NewSignalIndexCache None)) (mkScache NewSignalIndexCache None)) false) 0.
Definition mask_blocks (s : sub) := set_writeBuffer (set_bufferBlockExpected (set_bufferBlockCache s []) 0) [].

Lemma send_inv s c d s' ev : send s c d = Ok (s', ev) ->
  exists wb, s' = set_writeBuffer s wb /\
    ((connected s = false /\ wb = writeBuffer s /\ ev = []) \/
     (connected s = true /\ exists f, ev = [EvSend f] /\ SendServerCommandWithPayload true (writeBuffer s) c d = Ok (wb, Some f))).
Proof.
  unfold send. intros H. destruct (SendServerCommandWithPayload (connected s) (writeBuffer s) c d) as [[wb out]| |] eqn:E; try discriminate.
  cbn [bind] in H. injection H as <- <-. exists wb. split; [reflexivity|].
  destruct (connected s) eqn:C.
  - right. split; [reflexivity|]. unfold SendServerCommandWithPayload in *. cbn [negb] in *.
    destruct out as [f|]; [exists f; auto|]. exfalso.
    repeat match type of E with
    | bind ?x _ = Ok _ => destruct x as [?| |]; cbn [bind] in E; try discriminate E
    end.
  - left. cbn in E. injection E as <- <-. auto.
Qed.
Lemma send_mask s c d s' ev : send s c d = Ok (s', ev) -> mask_send s' = mask_send s.
Proof. intros H. apply send_inv in H as (wb & -> & _). destruct s; reflexivity. Qed.

Lemma set_cache_mask s ci c : mask_cache (set_cache s ci c) = mask_cache s.
Proof. unfold set_cache. destruct (ci =? 0); destruct s; reflexivity. Qed.
Lemma set_cache_mask_data s ci c : mask_data (set_cache s ci c) = mask_data s.
Proof. unfold set_cache. destruct (ci =? 0); destruct s; reflexivity. Qed.

Lemma handleUpdateSignalIndexCache_mask e s d s' ev :
  handleUpdateSignalIndexCache e s d = Ok (s', ev) -> mask_cache s' = mask_cache s.
Proof.
  unfold handleUpdateSignalIndexCache. intros H.
  destruct (if 1 <? Version s then _ else _) as [[ci d']| |]; try discriminate. cbn [bind] in H. cbv zeta in H.
  destruct (if CompressSignalIndexCache s then gunzip e d' else Some d') as [d2|]; [|inv H; reflexivity].
  destruct (decode _ _ _) as [ds r]. destruct r; [|inv H; destruct s; reflexivity|discriminate].
  set (s1 := set_cacheIndex _ _) in H.
  assert (M : mask_cache s1 = mask_cache s).
  { unfold s1, set_cache. destruct (ci =? 0); destruct s; reflexivity. }
  rewrite <- M. clearbody s1. clear M.
  destruct (1 <? Version _).
  - destruct (send s1 _ _) as [[s2 ev2]| |] eqn:E; try discriminate. cbn [bind] in H. inv H.
    apply send_inv in E as (wb & -> & _). destruct s1; reflexivity.
  - cbn [bind done] in H. inv H. reflexivity.
Qed.
Lemma parseTSSC_mask s ci d room s' ms ev : parseTSSC s ci d room = Ok (s', ms, ev) -> mask_data s' = mask_data s.
Proof.
  unfold parseTSSC. cbv zeta. intros H.
  destruct (idx d 0) as [v| |]; try discriminate. cbn [bind] in H.
  destruct (negb (v =? 85)); [inv H; apply set_cache_mask_data|].
  destruct (slice_from d 1) as [t| |]; try discriminate. cbn [bind] in H.
  destruct (be_u16 t) as [seq| |]; try discriminate. cbn [bind] in H.
  destruct (seq =? 0).
  - destruct (negb _); [inv H; etransitivity; [|apply set_cache_mask_data]; etransitivity; [|apply set_cache_mask_data]; reflexivity|].
    destruct (slice_from d 3) as [body| |]; try discriminate. cbn [bind] in H.
    destruct (tssc_loop _ _ _ _) as [[ms' d'] x]. destruct x; try discriminate; inv H; rewrite !set_cache_mask_data;
      (etransitivity; [|apply set_cache_mask_data]; etransitivity; [|apply set_cache_mask_data]; reflexivity).
  - destruct (negb _); [inv H; apply set_cache_mask_data|].
    destruct (slice_from d 3) as [body| |]; try discriminate. cbn [bind] in H.
    destruct (tssc_loop _ _ _ _) as [[ms' d'] x]. destruct x; try discriminate; inv H; rewrite !set_cache_mask_data; reflexivity.
Qed.
Lemma parseCompactMeasurements_state s ci d room s' ms ev : parseCompactMeasurements s ci d room = Ok (s', ms, ev) -> s' = s.
Proof.
  unfold parseCompactMeasurements. cbv zeta. intros H. destruct (Count _ =? 0); [inv H; reflexivity|].
  destruct (parseCompact _ _ _) as [ms' x]. destruct x; try discriminate; inv H; reflexivity.
Qed.

Definition quiet (ev : list event) : Prop :=
  delivered ev = [] /\ blocks ev = [] /\ sent ev = [].
Lemma delivered_app a b : delivered (a ++ b) = delivered a ++ delivered b.
Proof. apply flat_map_app. Qed.
Lemma blocks_app a b : blocks (a ++ b) = blocks a ++ blocks b.
Proof. apply flat_map_app. Qed.
Lemma sent_app a b : sent (a ++ b) = sent a ++ sent b.
Proof. apply flat_map_app. Qed.
Lemma quiet_app a b : quiet a -> quiet b -> quiet (a ++ b).
Proof. unfold quiet. rewrite delivered_app, blocks_app, sent_app. intros (-> & -> & ->) (-> & -> & ->). auto. Qed.
Lemma quiet_nil : quiet [].
Proof. repeat split. Qed.

Lemma tssc_loop_room f : forall c t room ms t' x, tssc_loop f c t room = (ms, t', x) -> (length ms <= room)%nat.
Proof.
  induction f as [|f IH]; intros c t room ms t' x H; cbn [tssc_loop] in H; [injection H as <- <- <-; cbn; lia|].
  destruct (TryGetMeasurement t) as [[m|] t1|t1|]; try (injection H as <- <- <-; cbn; lia).
  destruct room as [|r]; [injection H as <- <- <-; cbn; lia|].
  destruct (tssc_loop f c t1 r) as [[ms1 t2] x1] eqn:E. injection H as <- <- <-. apply IH in E. cbn [length]. lia.
Qed.
Lemma parseCompact_loop_room n : forall cfg d index ms x, parseCompact_loop cfg d n index = (ms, x) -> (length ms <= n)%nat.
Proof.
  induction n as [|n IH]; intros cfg d index ms x H; cbn [parseCompact_loop] in H; [injection H as <- <-; cbn; lia|].
  repeat match type of H with
  | match ?y with _ => _ end = _ => destruct y eqn:?; try (injection H as <- <-; cbn; lia)
  end;
  match goal with E : parseCompact_loop _ _ n _ = _ |- _ => apply IH in E; injection H as <- <-; cbn [length]; lia end.
Qed.
Lemma parseTSSC_room s ci d room s' ms ev : parseTSSC s ci d room = Ok (s', ms, ev) -> (length ms <= room)%nat /\ quiet ev.
Proof.
  unfold parseTSSC. cbv zeta. intros H.
  destruct (idx d 0) as [v| |]; try discriminate. cbn [bind] in H.
  destruct (negb (v =? 85)); [inv H; split; [cbn; lia|repeat split]|].
  destruct (slice_from d 1) as [t| |]; try discriminate. cbn [bind] in H.
  destruct (be_u16 t) as [seq| |]; try discriminate. cbn [bind] in H.
  set (evs := if _ && _ && _ then [EvInfo] else []) in H.
  assert (Q : quiet evs) by (unfold evs; destruct (_ && _ && _); repeat split). clearbody evs.
  destruct (negb _); [inv H; split; [cbn; lia|exact Q]|].
  destruct (slice_from d 3) as [body| |]; try discriminate. cbn [bind] in H.
  destruct (tssc_loop _ _ _ _) as [[ms' d'] x] eqn:L. apply tssc_loop_room in L.
  destruct x; try discriminate; inv H; (split; [exact L|]); [exact Q|apply quiet_app; [exact Q|repeat split]].
Qed.
Lemma parseCompactMeasurements_room s ci d room s' ms ev :
  parseCompactMeasurements s ci d room = Ok (s', ms, ev) -> (length ms <= room)%nat /\ quiet ev.
Proof.
  unfold parseCompactMeasurements. cbv zeta. intros H. destruct (Count _ =? 0); [inv H; split; [cbn; lia|repeat split]|].
  destruct (parseCompact _ _ _) as [ms' x] eqn:L. unfold parseCompact in L. apply parseCompact_loop_room in L.
  destruct x; try discriminate; inv H; split; auto; repeat split.
Qed.

Lemma destination_length pool count : 0 <= count -> len (destination pool count) = count.
Proof.
  intros H. unfold destination. destruct pool as [l|]; [destruct (len l <? count) eqn:E|]; unfold len in *.
  - rewrite repeat_length. lia.
  - rewrite firstn_length. lia.
  - rewrite repeat_length. lia.
Qed.

Lemma handleDataPacket_inv e pool s d s' ev : bytes_ok d -> (forall k iv x, bytes_ok (cbc e k iv x)) ->
  handleDataPacket e pool s d = Ok (s', ev) ->
  (s' = s /\ ev = [EvError; EvTerminate]) \/
  exists compressed count ci body s1 ms ev1,
    is_u32 count /\ (ci = 0 \/ ci = 1) /\
    (if compressed : bool then parseTSSC s ci body (length (destination pool count))
     else parseCompactMeasurements s ci body (length (destination pool count))) = Ok (s1, ms, ev1) /\
    s' = set_measTotal s1 (u64 (measTotal s1 + count)) /\
    ev = ev1 ++ [EvMeasurements (ms ++ skipn (length ms) (destination pool count))].
Proof.
  intros Bd Bc. unfold handleDataPacket. cbv zeta. intros H.
  destruct (idx d 0) as [flags| |]; try discriminate. cbn [bind] in H.
  destruct (_ && _); [inv H; left; auto|].
  destruct (slice_from d 1) as [d1| |] eqn:E1; try discriminate. cbn [bind] in H.
  assert (B1 : bytes_ok d1).
  { unfold slice_from in E1. destruct (_ || _); [discriminate|]. injection E1 as <-. apply bytes_ok_skipn', Bd. }
  match type of H with match ?x with _ => _ end = _ => destruct x as [d2| |] eqn:E2 end; [|inv H; left; auto|discriminate].
  assert (B2 : bytes_ok d2).
  { destruct (keyIVs s) as [[ev0 od]|]; [|congruence]. unfold decipherAES in E2.
    repeat match type of E2 with (if ?b then _ else _) = _ => destruct b; try discriminate end; injection E2 as <-; apply Bc. }
  unfold be_u32 in H. destruct (be_get 4 d2) as [count| |] eqn:E3; try discriminate. cbn [bind] in H.
  destruct (slice_from d2 4) as [body| |]; try discriminate. cbn [bind] in H.
  destruct (if 0 <? Z.land flags df_Compressed then _ else _) as [[[s1 ms] ev1]| |] eqn:E4; try discriminate.
  cbn [bind] in H. inv H. right.
  exists (0 <? Z.land flags df_Compressed), count, (if 0 <? Z.land flags df_CacheIndex then 1 else 0), body, s1, ms, ev1.
  split; [|split; [destruct (0 <? Z.land flags df_CacheIndex); auto|split; [exact E4|split; reflexivity]]].
  unfold be_get in E3. destruct (length d2 <? 4)%nat; [discriminate|]. injection E3 as <-.
  pose proof (be_val_bound (firstn 4 d2) (bytes_ok_firstn' 4 d2 B2)) as V.
  unfold is_u32. assert (L : len (firstn 4 d2) <= 4) by (unfold len; rewrite firstn_length; lia).
  assert (2 ^ (8 * len (firstn 4 d2)) <= 2 ^ 32) by (apply Z.pow_le_mono_r; lia). lia.
Qed.

(** ** Dispatch *)
Definition dispatch (e : env) (pool : option (list measurement)) (s : sub) (code command : Z) (data : bytes) : step :=
  if code =? sr_Succeeded then handleSucceeded e s command data
  else if code =? sr_Failed then handleFailed s command data
  else if code =? sr_DataPacket then handleDataPacket e pool s data
  else if code =? sr_DataStartTime then handleDataStartTime s data
  else if code =? sr_ProcessingComplete then done s [EvProcessingComplete data]
  else if code =? sr_UpdateSignalIndexCache then handleUpdateSignalIndexCache e s data
  else if code =? sr_UpdateBaseTimes then handleUpdateBaseTimes s data
  else if code =? sr_UpdateCipherKeys then handleUpdateCipherKeys s data
  else if code =? sr_ConfigurationChanged then done s [EvInfo; EvConfigurationChanged]
  else if code =? sr_BufferBlock then handleBufferBlock s data
  else if code =? sr_Notify then handleNotification s data
  else if code =? sr_NoOP then done s []
  else done s [EvError].

Lemma process_eq e pool s p : (6 <= length p)%nat ->
  processServerResponse e pool s p =
  match validate s (code_of p) (command_of p) with
  | None => done s [EvError; EvTerminate]
  | Some s1 => dispatch e pool s1 (code_of p) (command_of p) (skipn 6 p)
  end.
Proof.
  intros L. unfold processServerResponse. change responseHeaderSize with (Z.of_nat 6). rewrite slice_from_in by lia. cbn [bind].
  destruct p as [|c [|m r]]; cbn [length] in L; [lia|lia|]. reflexivity.
Qed.
Lemma process_short e pool s p : (length p < 6)%nat -> processServerResponse e pool s p = Panic.
Proof.
  intros L. unfold processServerResponse, slice_from, responseHeaderSize, len.
  replace ((6 <? 0) || (Z.of_nat (length p) <? 6)) with true by lia. reflexivity.
Qed.
Lemma process_inv e pool s p s' ev : processServerResponse e pool s p = Ok (s', ev) ->
  (6 <= length p)%nat /\
  ((validate s (code_of p) (command_of p) = None /\ s' = s /\ ev = [EvError; EvTerminate]) \/
   exists s1, validate s (code_of p) (command_of p) = Some s1 /\ dispatch e pool s1 (code_of p) (command_of p) (skipn 6 p) = Ok (s', ev)).
Proof.
  intros H. destruct (Nat.lt_ge_cases (length p) 6) as [L|L]; [rewrite process_short in H by exact L; discriminate|].
  split; [exact L|]. rewrite process_eq in H by exact L. destruct (validate _ _ _) as [s1|]; [right; exists s1; auto|left]. inv H. auto.
Qed.
Lemma response_code c m z d : code_of (response c m z d) = c /\ command_of (response c m z d) = m.
Proof. split; reflexivity. Qed.
Lemma response_data c m z d : length z = 4%nat -> skipn 6 (response c m z d) = d /\ (6 <= length (response c m z d))%nat.
Proof.
  intros H. unfold response. split.
  - change 6%nat with (2 + 4)%nat. rewrite <- H. change (skipn (2 + length z) (c :: m :: z ++ d)) with (skipn (length z) (z ++ d)).
    rewrite skipn_app, skipn_all, Nat.sub_diag. reflexivity.
  - cbn [length]. rewrite app_length. lia.
Qed.

Lemma validate_spec s c m :
  validate s c m =
  if validated s then Some s
  else if (2 <=? Version s) && negb ((c =? 0xFF) || ((m =? 6) && ((c =? 0x80) || (c =? 0x81)))) then None
  else Some (set_validated s true).
Proof.
  unfold validate. destruct (validated s); [reflexivity|]. cbn [negb].
  change sr_NoOP with 0xFF. change sc_DefineOperationalModes with 6. change sr_Succeeded with 0x80. change sr_Failed with 0x81.
  destruct (2 <=? Version s), (c =? 0xFF), (m =? 6), (c =? 0x80), (c =? 0x81); reflexivity.
Qed.
Lemma plausible_dec c m : (c =? 0xFF) || ((m =? 6) && ((c =? 0x80) || (c =? 0x81))) = true <-> plausible c m.
Proof.
  unfold plausible. rewrite orb_true_iff, andb_true_iff, orb_true_iff, !Z.eqb_eq. reflexivity.
Qed.
Lemma validate_Some s c m s1 : validate s c m = Some s1 -> set_validated s1 true = set_validated s true.
Proof.
  rewrite validate_spec. destruct (validated s); [congruence|]. destruct (_ && _); [discriminate|]. intros [= <-]. destruct s; reflexivity.
Qed.

(** The other handlers. *)
Lemma handleSucceeded_mask e s m d s' ev : handleSucceeded e s m d = Ok (s', ev) ->
  set_subscribed s' false = set_subscribed s false /\ quiet ev /\
  subscribed s' = (if m =? 2 then true else if m =? 3 then false else subscribed s).
Proof.
  unfold handleSucceeded. change sc_MetadataRefresh with 1. change sc_Subscribe with 2. change sc_Unsubscribe with 3.
  intros H. destruct (m =? 1) eqn:E1.
  - assert (E2 : (m =? 2) = false) by lia. assert (E3 : (m =? 3) = false) by lia. rewrite E2, E3.
    destruct (CompressMetadata s); [destruct (gunzip e d)|]; inv H; repeat split.
  - destruct (m =? 2); [inv H; destruct s; repeat split|]. destruct (m =? 3); [inv H; destruct s; repeat split|].
    destruct (_ || _); inv H; repeat split.
Qed.
Lemma handleFailed_mask s m d s' ev : handleFailed s m d = Ok (s', ev) ->
  set_connectionRefused s' false = set_connectionRefused s false /\ quiet ev.
Proof.
  unfold handleFailed. intros H. destruct (_ || _); [destruct (0 <? len d)|]; inv H; destruct s; repeat split.
Qed.
Lemma handleUpdateBaseTimes_mask s d s' ev : handleUpdateBaseTimes s d = Ok (s', ev) -> mask_times s' = mask_times s /\ quiet ev.
Proof.
  unfold handleUpdateBaseTimes. intros H. inv H; [discriminate|]. destruct s; repeat split.
Qed.
Lemma handleUpdateCipherKeys_mask s d s' ev : handleUpdateCipherKeys s d = Ok (s', ev) ->
  set_keyIVs s' None = set_keyIVs s None /\ quiet ev.
Proof.
  unfold handleUpdateCipherKeys. intros H. 
  repeat (destruct (sized_buffer _ _) as [[? ?]| |]; try discriminate; cbn [bind] in H). inv H. destruct s; repeat split.
Qed.
Lemma send_quiet s c d s' ev : send s c d = Ok (s', ev) -> delivered ev = [] /\ blocks ev = [].
Proof. intros H. apply send_inv in H as (wb & _ & [(_ & _ & ->)|(_ & f & -> & _)]); repeat split. Qed.
Lemma handleUpdateSignalIndexCache_quiet e s d s' ev :
  handleUpdateSignalIndexCache e s d = Ok (s', ev) -> delivered ev = [] /\ blocks ev = [].
Proof.
  unfold handleUpdateSignalIndexCache. intros H.
  destruct (if 1 <? Version s then _ else _) as [[ci d']| |]; try discriminate. cbn [bind] in H. cbv zeta in H.
  destruct (if CompressSignalIndexCache s then gunzip e d' else Some d') as [d2|]; [|inv H; repeat split].
  destruct (decode _ _ _) as [ds r]. destruct r; [|inv H; repeat split|discriminate].
  set (s1 := set_cacheIndex _ _) in H. clearbody s1.
  destruct (1 <? Version _).
  - destruct (send s1 _ _) as [[s2 ev2]| |] eqn:E; try discriminate. cbn [bind] in H. inv H.
    apply send_quiet in E as [E1 E2]. rewrite delivered_app, blocks_app, E1, E2. repeat split.
  - cbn [bind done] in H. inv H. repeat split.
Qed.
Lemma handleNotification_mask s d s' ev : handleNotification s d = Ok (s', ev) ->
  mask_send s' = mask_send s /\ delivered ev = [] /\ blocks ev = [].
Proof.
  unfold handleNotification, emit. intros H. destruct (slice_from d 4) as [m| |]; try discriminate. cbn [bind] in H.
  destruct (slice d 0 4) as [h| |]; try discriminate. cbn [bind] in H.
  destruct (send s _ h) as [[s1 e1]| |] eqn:E; try discriminate. cbn [bind] in H. inv H.
  split; [eapply send_mask, E|]. apply send_quiet in E as [E1 E2].
  split; [exact E1|exact E2].
Qed.
Lemma handleBufferBlock_mask s d s' ev : handleBufferBlock s d = Ok (s', ev) ->
  mask_blocks s' = mask_blocks s /\ delivered ev = [].
Proof.
  unfold handleBufferBlock. intros H. unfold be_u32 in H. destruct (be_get 4 d) as [seq| |]; try discriminate. cbn [bind] in H. cbv zeta in H.
  destruct (if 1 <? Version s then _ else _) as [ci| |]; try discriminate. cbn [bind] in H.
  destruct (negb _); [inv H; repeat split|].
  destruct (slice d 0 4) as [c| |]; try discriminate. cbn [bind] in H.
  destruct (send s _ c) as [[s1 e1]| |] eqn:E; try discriminate. cbn [bind] in H.
  destruct (slice_from d _) as [d2| |]; try discriminate. cbn [bind] in H.
  destruct (be_get 4 d2) as [si| |]; try discriminate. cbn [bind] in H.
  assert (M : mask_blocks s1 = mask_blocks s) by (apply send_inv in E as (wb & -> & _); destruct s; reflexivity).
  apply send_quiet in E as [E1 E2]. rewrite <- M. clear M.
  destruct (seq =? bufferBlockExpected s1).
  - inv H. rewrite delivered_app, E1. split; [destruct s1; reflexivity|reflexivity].
  - destruct (upd _ _ _) as [c'| |]; try discriminate. cbn [bind] in H. inv H. split; [destruct s1; reflexivity|exact E1].
Qed.

(** A handler's effect on fields outside its own, in one statement. *)
Definition mask_all (s : sub) : sub :=
  mask_send (mask_cache (mask_times (mask_data (mask_blocks (set_keyIVs (set_connectionRefused (set_subscribed (set_validated s true) false) false) None))))).
Lemma dispatch_mask e pool s c m d s' ev : bytes_ok d -> (forall k iv x, bytes_ok (cbc e k iv x)) ->
  dispatch e pool s c m d = Ok (s', ev) -> mask_all s' = mask_all s /\ validated s' = validated s.
Proof.
  intros Bd Bc. unfold dispatch. intros H.
  assert (Same : forall s0 : sub, s0 = s -> mask_all s0 = mask_all s /\ validated s0 = validated s) by (intros ? ->; auto).
  destruct (c =? sr_Succeeded).
  { apply handleSucceeded_mask in H as (H & _). split; [change (mask_all (set_subscribed s' false) = mask_all (set_subscribed s false)); congruence|].
    change (validated (set_subscribed s' false) = validated (set_subscribed s false)). congruence. }
  destruct (c =? sr_Failed).
  { apply handleFailed_mask in H as (H & _). split; [change (mask_all (set_connectionRefused s' false) = mask_all (set_connectionRefused s false)); congruence|].
    change (validated (set_connectionRefused s' false) = validated (set_connectionRefused s false)). congruence. }
  destruct (c =? sr_DataPacket).
  { apply handleDataPacket_inv in H as [(-> & _)|(z & count & ci & body & s1 & ms & ev1 & _ & _ & P & -> & _)]; auto.
    assert (M : mask_data s1 = mask_data s) by (destruct z; [eapply parseTSSC_mask, P|apply parseCompactMeasurements_state in P; subst; reflexivity]).
    split.
    - change (mask_all (mask_data s1) = mask_all (mask_data s)). congruence.
    - change (validated (mask_data s1) = validated (mask_data s)). congruence. }
  destruct (c =? sr_DataStartTime); [unfold handleDataStartTime in H; inv H; auto|].
  destruct (c =? sr_ProcessingComplete); [inv H; auto|].
  destruct (c =? sr_UpdateSignalIndexCache).
  { apply handleUpdateSignalIndexCache_mask in H. split.
    - change (mask_all (mask_cache s') = mask_all (mask_cache s)). congruence.
    - change (validated (mask_cache s') = validated (mask_cache s)). congruence. }
  destruct (c =? sr_UpdateBaseTimes).
  { apply handleUpdateBaseTimes_mask in H as (H & _). split.
    - change (mask_all (mask_times s') = mask_all (mask_times s)). congruence.
    - change (validated (mask_times s') = validated (mask_times s)). congruence. }
  destruct (c =? sr_UpdateCipherKeys).
  { apply handleUpdateCipherKeys_mask in H as (H & _). split.
    - change (mask_all (set_keyIVs s' None) = mask_all (set_keyIVs s None)). congruence.
    - change (validated (set_keyIVs s' None) = validated (set_keyIVs s None)). congruence. }
  destruct (c =? sr_ConfigurationChanged); [inv H; auto|].
  destruct (c =? sr_BufferBlock).
  { apply handleBufferBlock_mask in H as (H & _). split.
    - change (mask_all (mask_blocks s') = mask_all (mask_blocks s)). congruence.
    - change (validated (mask_blocks s') = validated (mask_blocks s)). congruence. }
  destruct (c =? sr_Notify).
  { apply handleNotification_mask in H as (H & _). split.
    - change (mask_all (mask_send s') = mask_all (mask_send s)). congruence.
    - change (validated (mask_send s') = validated (mask_send s)). congruence. }
  destruct (c =? sr_NoOP); inv H; auto.
Qed.
Lemma process_mask e pool s p s' ev : bytes_ok p -> (forall k iv x, bytes_ok (cbc e k iv x)) ->
  processServerResponse e pool s p = Ok (s', ev) -> mask_all s' = mask_all s.
Proof.
  intros Bp Bc H. apply process_inv in H as (L & [(_ & -> & _)|(s1 & V & D)]); [reflexivity|].
  apply dispatch_mask in D as (D & _); [|apply bytes_ok_skipn', Bp|exact Bc]. rewrite D. apply validate_Some in V.
  change (mask_all (set_validated s1 true) = mask_all (set_validated s true)). congruence.
Qed.

(** ** Histories *)
Lemma run_cons e s a r s' ev : run e s (a :: r) = Ok (s', ev) ->
  exists s1 ev1 ev2, act e s a = Ok (s1, ev1) /\ run e s1 r = Ok (s', ev2) /\ ev = ev1 ++ ev2.
Proof.
  cbn [run]. destruct (act e s a) as [[s1 ev1]| |] eqn:A; try discriminate. cbn [bind]. unfold emit.
  destruct (run e s1 r) as [[s2 ev2]| |] eqn:R; try discriminate. cbn [bind]. intros [= <- <-]. exists s1, ev1, ev2. auto.
Qed.
Lemma run_app e l1 : forall s l2, run e s (l1 ++ l2) = (let* (s1, ev) := run e s l1 in emit ev (run e s1 l2)).
Proof.
  induction l1 as [|a l1 IH]; intros s l2; cbn [run app].
  - cbn [done bind]. unfold emit. destruct (run e s l2) as [[? ?]| |]; reflexivity.
  - destruct (act e s a) as [[s1 ev1]| |]; [|reflexivity..]. cbn [bind]. rewrite IH. unfold emit.
    destruct (run e s1 l1) as [[s2 ev2]| |]; [|reflexivity..]. cbn [bind].
    destruct (run e s2 l2) as [[s3 ev3]| |]; [|reflexivity..]. cbn [bind]. rewrite app_assoc. reflexivity.
Qed.

(** ** C29 *)
Lemma total_len_app {A} (a b : list (list A)) : total_len (a ++ b) = total_len a + total_len b.
Proof. induction a as [|x a IH]; cbn [app total_len fold_right] in *; [reflexivity|]. unfold total_len in *. lia. Qed.
Lemma dispatch_total e pool s c m d s' ev : bytes_ok d -> cbc_ok e -> is_u64 (measTotal s) ->
  dispatch e pool s c m d = Ok (s', ev) -> measTotal s' = (measTotal s + total_len (delivered ev)) mod 2 ^ 64.
Proof.
  intros Bd Bc U. unfold dispatch. intros H.
  assert (Z0 : measTotal s = (measTotal s + 0) mod 2 ^ 64) by (unfold is_u64 in U; rewrite Z.add_0_r, Z.mod_small by lia; reflexivity).
  assert (Same : forall s0 : sub, measTotal s0 = measTotal s -> delivered ev = [] -> measTotal s0 = (measTotal s + total_len (delivered ev)) mod 2 ^ 64)
    by (intros ? -> ->; exact Z0).
  destruct (c =? sr_Succeeded).
  { apply handleSucceeded_mask in H as (H & (Q & _) & _). apply Same, Q. change (measTotal (set_subscribed s' false) = measTotal (set_subscribed s false)). congruence. }
  destruct (c =? sr_Failed).
  { apply handleFailed_mask in H as (H & (Q & _)). apply Same, Q. change (measTotal (set_connectionRefused s' false) = measTotal (set_connectionRefused s false)). congruence. }
  destruct (c =? sr_DataPacket).
  { apply handleDataPacket_inv in H as [(-> & ->)|(z & count & ci & body & s1 & ms & ev1 & Cn & _ & P & -> & ->)]; auto.
    assert (M : measTotal s1 = measTotal s /\ (length ms <= length (destination pool count))%nat /\ quiet ev1).
    { destruct z.
      - split; [|eapply parseTSSC_room, P]. unfold parseTSSC in P. cbv zeta in P.
        assert (K : forall s0 i x, measTotal (set_cache s0 i x) = measTotal s0) by (intros; unfold set_cache; destruct (i =? 0); reflexivity).
        destruct (idx body 0) as [v| |]; try discriminate. cbn [bind] in P.
        destruct (negb (v =? 85)); [inv P; apply K|].
        destruct (slice_from body 1) as [t| |]; try discriminate. cbn [bind] in P.
        destruct (be_u16 t) as [seq| |]; try discriminate. cbn [bind] in P.
        set (s2 := if seq =? 0 then _ else _) in P.
        assert (K2 : measTotal s2 = measTotal s).
        { unfold s2. destruct (seq =? 0); [|apply K].
          assert (K3 : forall x b, measTotal (set_tsscResetRequested x b) = measTotal x) by reflexivity. rewrite K3, !K. reflexivity. }
        clearbody s2. destruct (negb _); [inv P; exact K2|].
        destruct (slice_from body 3) as [b3| |]; try discriminate. cbn [bind] in P.
        destruct (tssc_loop _ _ _ _) as [[? ?] x]. destruct x; try discriminate; inv P; rewrite K; exact K2.
      - pose proof P as P'. apply parseCompactMeasurements_state in P'. subst. split; [reflexivity|]. eapply parseCompactMeasurements_room, P. }
    destruct M as (M1 & M2 & (Q & _)). rewrite delivered_app, Q. cbn [delivered flat_map app].
    cbn [total_len fold_right]. unfold len at 1. rewrite app_length, skipn_length.
    replace (Z.of_nat (length ms + (length (destination pool count) - length ms))) with (len (destination pool count)) by (unfold len; lia).
    rewrite destination_length by (unfold is_u32 in Cn; lia). rewrite Z.add_0_r, <- M1. reflexivity. }
  destruct (c =? sr_DataStartTime); [unfold handleDataStartTime in H; inv H; auto|].
  destruct (c =? sr_ProcessingComplete); [inv H; auto|].
  destruct (c =? sr_UpdateSignalIndexCache).
  { pose proof (handleUpdateSignalIndexCache_quiet _ _ _ _ _ H) as [Q _]. apply handleUpdateSignalIndexCache_mask in H. apply Same, Q.
    change (measTotal (mask_cache s') = measTotal (mask_cache s)). congruence. }
  destruct (c =? sr_UpdateBaseTimes).
  { apply handleUpdateBaseTimes_mask in H as (H & (Q & _)). apply Same, Q. change (measTotal (mask_times s') = measTotal (mask_times s)). congruence. }
  destruct (c =? sr_UpdateCipherKeys).
  { apply handleUpdateCipherKeys_mask in H as (H & (Q & _)). apply Same, Q. change (measTotal (set_keyIVs s' None) = measTotal (set_keyIVs s None)). congruence. }
  destruct (c =? sr_ConfigurationChanged); [inv H; auto|].
  destruct (c =? sr_BufferBlock).
  { apply handleBufferBlock_mask in H as (H & Q). apply Same, Q. change (measTotal (mask_blocks s') = measTotal (mask_blocks s)). congruence. }
  destruct (c =? sr_Notify).
  { apply handleNotification_mask in H as (H & Q & _). apply Same, Q. change (measTotal (mask_send s') = measTotal (mask_send s)). congruence. }
  destruct (c =? sr_NoOP); inv H; auto.
Qed.
Lemma process_total e pool s p s' ev : bytes_ok p -> cbc_ok e -> is_u64 (measTotal s) ->
  processServerResponse e pool s p = Ok (s', ev) -> measTotal s' = (measTotal s + total_len (delivered ev)) mod 2 ^ 64.
Proof.
  intros Bp Bc U H. apply process_inv in H as (L & [(_ & -> & ->)|(s1 & V & D)]).
  - cbn. unfold is_u64 in U. rewrite Z.add_0_r, Z.mod_small by lia. reflexivity.
  - assert (M : measTotal s1 = measTotal s) by (apply validate_Some in V; change (measTotal (set_validated s1 true) = measTotal (set_validated s true)); congruence).
    rewrite <- M in *. eapply dispatch_total; [apply bytes_ok_skipn', Bp|eassumption..].
Qed.
Lemma act_total e s a s' ev : packet_ok a -> cbc_ok e -> is_u64 (measTotal s) -> counts_on a = true ->
  act e s a = Ok (s', ev) -> measTotal s' = (measTotal s + total_len (delivered ev)) mod 2 ^ 64.
Proof.
  intros Bp Bc U K H.
  assert (Z0 : measTotal s = (measTotal s + 0) mod 2 ^ 64) by (unfold is_u64 in U; rewrite Z.add_0_r, Z.mod_small by lia; reflexivity).
  destruct a as [dial|pool p|pool p| | |]; try discriminate K; cbn [act] in H; cbn [packet_ok packet_of] in Bp.
  - destruct (connected s); [|inv H; exact Z0]. unfold receive, readPayloadHeader in H. cbv zeta in H.
    destruct (negb _); [destruct (2 <=? _)|].
    + destruct (_ <=? maxInitialPacketSize); [|inv H; exact Z0].
      unfold readPacket in H. eapply process_total in H; eauto.
    + unfold readPacket in H. eapply process_total in H; eauto.
    + unfold readPacket in H. eapply process_total in H; eauto.
  - destruct (connected s); [|inv H; exact Z0]. unfold receiveUdp in H. eapply process_total in H; eauto.
  - unfold Unsubscribe in H. destruct (_ || _); [inv H; exact Z0|]. pose proof (send_quiet _ _ _ _ _ H) as [Q _].
    apply send_inv in H as (wb & -> & _). rewrite Q. exact Z0.
  - unfold disconnect in H. inv H. exact Z0.
Qed.
Lemma run_total e acts : forall s s' ev, Forall packet_ok acts -> cbc_ok e -> is_u64 (measTotal s) -> forallb counts_on acts = true ->
  run e s acts = Ok (s', ev) -> measTotal s' = (measTotal s + total_len (delivered ev)) mod 2 ^ 64.
Proof.
  induction acts as [|a r IH]; intros s s' ev F Bc U K H.
  - cbn [run] in H. inv H. cbn. unfold is_u64 in U. rewrite Z.add_0_r, Z.mod_small by lia. reflexivity.
  - apply run_cons in H as (s1 & e1 & e2 & A & R & ->). apply Forall_cons_1 in F as [F1 F2]. cbn [forallb] in K. apply andb_true_iff in K as [K1 K2].
    eapply act_total in A; eauto. apply IH in R; auto; [|unfold is_u64; rewrite A; lia].
    rewrite R, A, delivered_app, total_len_app. rewrite Zplus_mod_idemp_l. f_equal. lia.
Qed.
