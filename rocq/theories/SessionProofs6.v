(** The callbacks that packets cause; the subscription settings in force. *)
From Coq Require Import String Lia ZArith.
From stdpp Require Import gmap.
From Verif Require ConnectorModel.
From Verif Require Import Base BaseProofs GuidModel FormatModel FormatSpec FormatProofs StrModel CalModel ExprModel TableModel XmlModel XmlSpec XmlProofs2.
From Verif Require Import CompactModel CacheModel FrameModel FrameSpec FrameProofs SubscriberModel SubscriberSpec SubscriberProofs SubscriberProofs4 SubscriberProofs5 SubscriberProofs6 SubscriberProofs7 SubscriberProofs8 SubscriberProofs9.
From Verif Require Import SessionModel SessionSpec SessionProofs SessionProofs2 SessionProofs3 SessionProofs4 SessionProofs5.
Open Scope list_scope.
Open Scope Z_scope.

Definition tasks (ev : list event) : list task := flat_map task_of ev.
Lemma tasks_app a b : tasks (a ++ b) = tasks a ++ tasks b. Proof. apply flat_map_app. Qed.
Lemma parseTSSC_tasks s ci d room s' ms ev : parseTSSC s ci d room = Ok (s', ms, ev) -> tasks ev = [].
Proof.
  unfold parseTSSC. cbv zeta. intros H. destruct (idx d 0) as [v| |]; try discriminate. cbn [bind] in H.
  destruct (negb (v =? 85)); [injection H as _ _ <-; reflexivity|].
  destruct (slice_from d 1) as [t| |]; try discriminate. cbn [bind] in H.
  destruct (be_u16 t) as [q| |]; try discriminate. cbn [bind] in H.
  match type of H with context [if ?x then [EvInfo] else []] => assert (E : tasks (if x then [EvInfo] else []) = []) by (destruct x; reflexivity); set (e0 := if x then [EvInfo] else []) in *; clearbody e0 end.
  match type of H with (if ?b then _ else _) = _ => destruct b end; [injection H as _ _ <-; exact E|].
  destruct (slice_from d 3) as [body| |]; try discriminate. cbn [bind] in H.
  match type of H with (let '(_, _) := ?x in _) = _ => destruct x as [[m1 d1] x1] end.
  destruct x1; try discriminate; injection H as _ _ <-; [exact E|]. rewrite tasks_app, E. reflexivity.
Qed.
Lemma handleDataPacket_tasks e pool s d s' ev : handleDataPacket e pool s d = Ok (s', ev) -> tasks ev = [].
Proof.
  unfold handleDataPacket. intros H. destruct (idx d 0) as [fl| |]; try discriminate. cbn [bind] in H. cbv zeta in H.
  destruct (_ && _); [injection H as _ <-; reflexivity|].
  destruct (slice_from d 1) as [d1| |]; try discriminate. cbn [bind] in H.
  match type of H with match ?x with _ => _ end = _ => destruct x as [d2| |] end; try discriminate; [|injection H as _ <-; reflexivity].
  destruct (be_u32 d2) as [c| |]; try discriminate. cbn [bind] in H.
  destruct (slice_from d2 4) as [b| |]; try discriminate. cbn [bind] in H.
  match type of H with bind ?x _ = _ => destruct x as [[[s1 ms] ev1]| |] eqn:P end; try discriminate. cbn [bind] in H. cbv beta iota in H.
  unfold done in H. injection H as _ <-. rewrite tasks_app. cbn [tasks flat_map app]. rewrite app_nil_r.
  destruct (0 <? Z.land fl df_Compressed); [eapply parseTSSC_tasks; exact P|].
  unfold parseCompactMeasurements in P. cbv zeta in P. destruct (_ =? 0); [injection P as _ _ <-; reflexivity|].
  match type of P with (let '(_, _) := ?x in _) = _ => destruct x as [m1 x1] end. destruct x1; try discriminate; injection P as _ _ <-; reflexivity.
Qed.
Lemma send_tasks s c d s' ev : good s -> send s c d = Ok (s', ev) -> tasks ev = [].
Proof. intros G H. apply send_len in H as (wb & _ & -> & ->); [|apply G]. destruct (connected s); reflexivity. Qed.
Lemma handleUpdate_tasks e s d s' ev : good s -> handleUpdateSignalIndexCache e s d = Ok (s', ev) -> tasks ev = [].
Proof.
  intros G H. unfold handleUpdateSignalIndexCache in H.
  match type of H with bind ?x _ = _ => destruct x as [[ci d1]| |] end; try discriminate. cbn [bind] in H. cbv beta zeta iota in H.
  match type of H with match ?x with _ => _ end = _ => destruct x as [d2|] end; [|injection H as _ <-; reflexivity].
  match type of H with (let '(_, _) := ?x in _) = _ => destruct x as [dd r] end. cbv zeta in H.
  destruct r; try discriminate; [|injection H as _ <-; reflexivity].
  set (s1 := set_cacheIndex _ ci) in H. assert (G1 : good s1) by (apply (good_mask s); [unfold s1, set_cache; destruct (ci =? 0); reflexivity|exact G]). clearbody s1.
  match type of H with bind ?x _ = _ => destruct x as [[s2 ev1]| |] eqn:P end; try discriminate. cbn [bind] in H. unfold done in H. injection H as _ <-. rewrite tasks_app. cbn [tasks flat_map task_of app]. rewrite app_nil_r.
  destruct (1 <? _); [exact (send_tasks _ _ _ _ _ G1 P)|injection P as _ <-; reflexivity].
Qed.
Definition dispatch_callbacks (e : env) (compressed : bool) (code cmd : Z) (d : bytes) : list task :=
  if (code =? 0x80) && (cmd =? 1) then
    if compressed then match gunzip e d with Some m => [TMetadata m] | None => [] end else [TMetadata d]
  else if code =? 0x87 then [TProcessingComplete d]
  else if code =? 0x8A then [TConfigurationChanged] else [].
Lemma dispatch_tasks e pool s0 code cmd d s' ev : good s0 -> connected s0 = true -> dispatch e pool s0 code cmd d = Ok (s', ev) ->
  tasks ev = dispatch_callbacks e (CompressMetadata s0) code cmd d.
Proof.
  intros Gn Cn H. unfold dispatch in H. unfold dispatch_callbacks.
  destruct (code =? sr_Succeeded) eqn:A0.
  { apply Z.eqb_eq in A0. subst code. change (sr_Succeeded =? 128) with true. change (sr_Succeeded =? 135) with false. change (sr_Succeeded =? 138) with false. cbv iota. cbn [andb].
    unfold handleSucceeded in H. change sc_MetadataRefresh with 1 in H. destruct (cmd =? 1); [destruct (CompressMetadata s0); [destruct (gunzip e d)|]; injection H as _ <-; reflexivity|].
    destruct (cmd =? _); [injection H as _ <-; reflexivity|]. destruct (cmd =? _); [injection H as _ <-; reflexivity|]. destruct (_ || _); injection H as _ <-; reflexivity. }
  change sr_Succeeded with 128 in A0. rewrite A0. cbn [andb].
  destruct (code =? sr_Failed) eqn:A1.
  { apply Z.eqb_eq in A1. subst code. cbn [Z.eqb sr_Failed]. unfold handleFailed in H. destruct (_ || _); [destruct (0 <? len d)|]; injection H as _ <-; reflexivity. }
  destruct (code =? sr_DataPacket) eqn:A2.
  { apply Z.eqb_eq in A2. subst code. rewrite (handleDataPacket_tasks _ _ _ _ _ _ H). reflexivity. }
  destruct (code =? sr_DataStartTime) eqn:A3.
  { apply Z.eqb_eq in A3. subst code. unfold handleDataStartTime in H. destruct (be_u64 d); try discriminate. cbn [bind] in H. injection H as _ <-. reflexivity. }
  destruct (code =? sr_ProcessingComplete) eqn:A4.
  { apply Z.eqb_eq in A4. subst code. injection H as _ <-. reflexivity. }
  change sr_ProcessingComplete with 135 in A4. rewrite A4.
  destruct (code =? sr_UpdateSignalIndexCache) eqn:A5.
  { apply Z.eqb_eq in A5. subst code. rewrite (handleUpdate_tasks _ _ _ _ _ Gn H). reflexivity. }
  destruct (code =? sr_UpdateBaseTimes) eqn:A6.
  { apply Z.eqb_eq in A6. subst code. unfold handleUpdateBaseTimes in H. destruct (be_u32 d); try discriminate. cbn [bind] in H. cbv zeta in H.
    destruct (slice_from d 4) as [d4| |]; try discriminate. cbn [bind] in H. destruct (be_u64 d4); try discriminate. cbn [bind] in H.
    destruct (slice_from d 12) as [d5| |]; try discriminate. cbn [bind] in H. destruct (be_u64 d5); try discriminate. cbn [bind] in H.
    match type of H with (if ?c then _ else _) = _ => destruct c; [discriminate|] end. injection H as _ <-. reflexivity. }
  destruct (code =? sr_UpdateCipherKeys) eqn:A7.
  { apply Z.eqb_eq in A7. subst code. unfold handleUpdateCipherKeys in H. destruct (sized_buffer d 1) as [[a i1]| |]; try discriminate. cbn [bind] in H. cbv beta iota in H.
    destruct (sized_buffer d i1) as [[b i2]| |]; try discriminate. cbn [bind] in H. cbv beta iota in H.
    destruct (sized_buffer d i2) as [[c i3]| |]; try discriminate. cbn [bind] in H. cbv beta iota in H.
    destruct (sized_buffer d i3) as [[f i4]| |]; try discriminate. cbn [bind] in H. cbv beta iota in H. injection H as _ <-. reflexivity. }
  destruct (code =? sr_ConfigurationChanged) eqn:A8.
  { apply Z.eqb_eq in A8. subst code. injection H as _ <-. reflexivity. }
  change sr_ConfigurationChanged with 138 in A8. rewrite A8.
  destruct (code =? sr_BufferBlock) eqn:A9.
  { destruct (Z_lt_le_dec (len d) (if 1 <? Version s0 then 9 else 8)) as [Y|Y]; [rewrite bb_short in H by assumption; discriminate|].
    destruct (bb_ok s0 d Gn Y) as (wb & _ & E). rewrite E in H. unfold bb_sent in H. rewrite Cn in H.
    destruct (bb_seq d =? bufferBlockExpected s0); injection H as _ <-; reflexivity. }
  destruct (code =? sr_Notify) eqn:A10.
  { destruct (notify_crash s0 d Gn) as (N1 & N2). destruct (Z_lt_le_dec (len d) 4) as [Y|Y]; [rewrite N1 in H by exact Y; discriminate|].
    destruct (N2 Y) as (wb & _ & E). rewrite E, Cn in H. injection H as _ <-. reflexivity. }
  destruct (code =? sr_NoOP); injection H as _ <-; reflexivity.
Qed.
Lemma packet_tasks e a s p s' ev : packet_of a = Some p -> good s -> act e s a = Ok (s', ev) ->
  tasks ev = [] \/ tasks ev = dispatch_callbacks e (CompressMetadata s) (code_of p) (command_of p) (skipn 6 p).
Proof.
  intros E G H. apply (packet_inv _ _ _ _ _ _ E) in H as [(_ & [-> | ->])|(C' & _ & pool & s1 & M & D)]; [left; reflexivity..|right].
  assert (G1 : good s1) by (apply (good_mask s); [|exact G]; change (mask_wb (mask_count s1) = mask_wb (mask_count s)); congruence).
  assert (C1 : connected s1 = true) by (change (connected (mask_count s1) = true); rewrite M; exact C').
  rewrite (dispatch_tasks _ _ _ _ _ _ _ _ G1 C1 D). f_equal. change (CompressMetadata (mask_count s1) = CompressMetadata (mask_count s)). congruence.
Qed.

(** ** Steps that start no callback and leave the subscription settings alone *)

Definition by_settings (st : settings) (f : bytes) : Prop := command_byte f = 2 -> f = subscribe_request st.
Definition subs (s : session) (k : sstep) : Prop := forall s' ev, k = Ok (s', ev) ->
  good (sn_ds s') /\ subscription (sn_ds s') = subscription (sn_ds s) /\ Forall (by_settings (subscription (sn_ds s))) (frames ev).
Definition still (s : session) (k : sstep) : Prop := subs s k /\ forall s' ev, k = Ok (s', ev) -> sn_pending s' = sn_pending s /\ metadata_seen ev = [].
Lemma by_other st c d : c <> 2 -> by_settings st (frame c d).
Proof. intros N H. rewrite command_frame in H. contradiction. Qed.
Lemma subs_andthen s k f : subs s k -> (forall s', good (sn_ds s') -> subs s' (f s')) -> subs s (andthen k f).
Proof.
  intros H1 H2 s' ev H. apply andthen_inv in H as (s1 & ev1 & ev2 & K & F & ->). destruct (H1 _ _ K) as (G & S & Q). destruct (H2 s1 G _ _ F) as (G' & S' & Q').
  split; [exact G'|]. split; [congruence|]. rewrite frames_app. apply Forall_app. split; [exact Q|]. rewrite <- S. exact Q'.
Qed.
Lemma still_andthen s k f : still s k -> (forall s', good (sn_ds s') -> still s' (f s')) -> still s (andthen k f).
Proof.
  intros (H1 & H1') H2. split; [apply subs_andthen; [exact H1|intros s' G; apply (H2 s' G)]|]. intros s' ev H. apply andthen_inv in H as (s1 & ev1 & ev2 & K & F & ->).
  destruct (H1 _ _ K) as (G & _). destruct (H1' _ _ K) as (P & M). destruct (proj2 (H2 s1 G) _ _ F) as (P' & M'). split; [congruence|]. rewrite metadata_seen_app, M, M'. reflexivity.
Qed.
Lemma still_says s ev : good (sn_ds s) -> frames ev = [] -> metadata_seen ev = [] -> still s (says ev s).
Proof. intros G F M. split; intros s' ev' [= <- <-]; [|split; [reflexivity|exact M]]. split; [exact G|]. split; [reflexivity|]. rewrite F. constructor. Qed.
Lemma still_quiet s : good (sn_ds s) -> still s (quiet s).
Proof. intros G. exact (still_says s [] G eq_refl eq_refl). Qed.
Lemma subs_lift s k P : low (sn_ds s) P k -> (forall f, P f -> by_settings (subscription (sn_ds s)) f) -> subs s (lift s k).
Proof.
  intros L R s' ev H. apply lift_inv in H as (d & ev1 & K & -> & ->). destruct (L _ _ K) as (L1 & _ & L3 & L4 & _). split; [exact L1|]. split; [exact (proj2 (fixed_fields _ _ L3))|].
  rewrite frames_user. eapply List.Forall_impl; [|exact L4]. exact R.
Qed.
Lemma still_lift s k P : low (sn_ds s) P k -> (forall f, P f -> by_settings (subscription (sn_ds s)) f) -> (forall d ev, k = Ok (d, ev) -> tasks ev = []) -> still s (lift s k).
Proof.
  intros L R T. split; [exact (subs_lift s k P L R)|]. intros s' ev H. apply lift_inv in H as (d & ev1 & K & -> & ->). split; [|apply metadata_user].
  change (sn_pending s ++ tasks ev1 = sn_pending s). rewrite (T _ _ K). apply app_nil_r.
Qed.
Lemma still_send s c d : good (sn_ds s) -> c <> 2 -> still s (lift s (send (sn_ds s) c d)).
Proof. intros G N. apply (still_lift s _ _ (low_send _ c d G)); [intros f <-; apply by_other, N|]. intros d' ev. apply send_tasks, G. Qed.
Lemma still_Subscribe s : good (sn_ds s) -> still s (lift s (Subscribe (sn_ds s))).
Proof.
  intros G. apply (still_lift s _ _ (low_Subscribe _ G)); [intros f [->| ->]; [apply by_other; discriminate|intros _; reflexivity]|].
  intros d ev H. apply Subscribe_exact in H as (_ & _ & _ & _ & _ & _ & ->); [|exact G]. destruct (may_subscribe _); [|reflexivity]. destruct (_ && _); reflexivity.
Qed.
Lemma still_Unsubscribe s : good (sn_ds s) -> still s (lift s (Unsubscribe (sn_ds s))).
Proof.
  intros G. apply (still_lift s _ _ (low_Unsubscribe _ G)); [intros f <-; apply by_other; discriminate|]. intros d ev. unfold Unsubscribe. destruct (_ || _); [intros [= <- <-]; reflexivity|apply send_tasks, G].
Qed.
Lemma still_handleConnect s : good (sn_ds s) -> still s (handleConnect s).
Proof.
  intros G. apply still_andthen; [apply still_says; auto|]. intros s' G'. destruct (c_AutoRequestMetadata _); [apply still_send; [exact G'|discriminate]|]. destruct (c_AutoSubscribe _); [apply still_Subscribe, G'|apply still_quiet, G'].
Qed.
Lemma still_established s : good (sn_ds s) -> still s (established s).
Proof.
  intros G. apply still_andthen.
  - split.
    + intros s' ev H. apply lift_inv in H as (d & ev1 & K & -> & ->). apply establish_exact in K as (G' & F & _ & _ & _ & _ & _ & ->); [|exact G].
      split; [exact G'|]. split; [exact (proj2 (fixed_fields _ _ F))|]. rewrite frames_user. cbn [sent flat_map app]. repeat constructor. apply by_other. discriminate.
    + intros s' ev H. apply lift_inv in H as (d & ev1 & K & -> & ->). apply establish_exact in K as (_ & _ & _ & _ & _ & _ & _ & ->); [|exact G]. split; [apply app_nil_r|apply metadata_user].
  - intros s' G'. destruct (sn_handler s'); [apply still_handleConnect, G'|apply still_quiet, G'].
Qed.
Lemma still_Disconnect s : good (sn_ds s) -> still s (Disconnect s).
Proof.
  intros G. split; intros s' ev H; apply lift_inv in H as (d & ev1 & K & -> & ->); unfold disconnect, done in K; injection K as <- <-.
  - split; [exact G|]. split; [reflexivity|constructor].
  - split; [apply app_nil_r|reflexivity].
Qed.
(** What a step keeps if it begins in another state with the same parts. *)
Lemma still_from s s0 k : sn_pending s0 = sn_pending s -> subscription (sn_ds s0) = subscription (sn_ds s) -> still s0 k -> still s k.
Proof. intros P S (H1 & H2). split; intros s' ev H; [rewrite <- S; exact (H1 _ _ H)|rewrite <- P; exact (H2 _ _ H)]. Qed.
Lemma after_dials_still s evs : good (sn_ds s) -> good (sn_ds (after_dials s evs)) /\ sn_pending (after_dials s evs) = sn_pending s /\ subscription (sn_ds (after_dials s evs)) = subscription (sn_ds s).
Proof. intros G. unfold after_dials. destruct (existsb _ _); [|auto]. split; [exact G|split; reflexivity]. Qed.
Lemma still_seen s t evs : good (sn_ds s) -> still s (says (map (seen t) evs) s).
Proof. intros G. apply still_says; [exact G|apply seen_frames|]. induction evs as [|[] evs IH]; [reflexivity|exact IH..]. Qed.
Lemma still_connect s host port dials : good (sn_ds s) -> still s (session_connect s host port dials).
Proof.
  intros G. unfold session_connect. cbv zeta. apply (still_from s (with_connector s (ConnectorModel.Settings (c_MaxRetries (sn_config s)) (c_RetryInterval (sn_config s)) (c_MaxRetryInterval (sn_config s))) (host ++ [58] ++ FormatInt port))); [reflexivity..|].
  set (s1 := with_connector s _ _). assert (G1 : good (sn_ds s1)) by exact G. clearbody s1. destruct (sn_cancel s1); [apply still_says; auto|].
  set (s2 := if c_AutoReconnect _ then _ else _). assert (G2 : good (sn_ds s2)) by (unfold s2; destruct (c_AutoReconnect _); exact G1). apply (still_from s1 s2); [unfold s2; destruct (c_AutoReconnect _); reflexivity..|]. clearbody s2.
  destruct (ConnectorModel.Connect _ _ _) as [[evs st] a]. destruct (after_dials_still s2 evs G2) as (G3 & P3 & S3).
  apply (still_from s2 (with_attempt (after_dials s2 evs) a)); [exact P3|exact S3|].
  apply still_andthen; [apply still_seen; exact G3|]. intros s4 G4. destruct st.
  - apply still_andthen; [apply still_andthen; [apply still_established, G4|intros; apply still_handleConnect; assumption]|]. intros s5 G5. apply still_says; auto.
  - apply still_says; auto.
  - apply still_andthen; [apply still_Disconnect, G4|]. intros s5 G5. apply still_says; auto.
  - apply still_quiet, G4.
Qed.
Definition is_packet (a : sact) : option bytes := match a with SPacket _ p | SUdp _ p => Some p | _ => None end.
Definition other_action (a : sact) : Prop := match a with SPacket _ _ | SUdp _ _ | SSubscribe _ _ | STask _ => False | _ => True end.
Lemma still_step E a s : other_action a -> good (sn_ds s) -> still s (sact_step E s a).
Proof.
  intros A G. destruct a as [a c d|a c ok| | |cn d|pool p|pool p|f u| | | |i]; try contradiction; cbn [sact_step].
  - unfold Dial. destruct (_ || _); [apply still_says; auto|]. destruct (parse_address a) as [[host port]|]; [|apply still_says; auto].
    apply (still_from s (configure s c)); [destruct c; reflexivity..|]. apply still_connect. destruct c; exact G.
  - unfold Listen. destruct (_ || _); [apply still_says; auto|]. destruct (parse_address a) as [[host port]|]; [|apply still_says; auto].
    set (s1 := if ok then _ else _). apply (still_from s s1); [unfold s1; destruct c, ok; reflexivity..|]. apply still_says; auto. unfold s1. destruct c, ok; exact G.
  - unfold Accept. destruct (negb _); [apply still_quiet, G|]. destruct (connected _); [apply still_says; auto|].
    apply (still_from s (setup s)); [reflexivity..|]. apply still_established. exact G.
  - unfold Lost. destruct (negb _); [apply still_quiet, G|]. apply still_andthen.
    + split; intros s' ev H; apply lift_inv in H as (d & ev1 & K & -> & ->); unfold disconnect, done in K; injection K as <- <-; [split; [exact G|split; [reflexivity|constructor]]|split; [apply app_nil_r|reflexivity]].
    + intros s' G'. set (s1 := with_reconnecting s' _). apply (still_from s' s1); [reflexivity..|]. apply still_quiet. exact G'.
  - unfold Reconnect. destruct (_ || _ || _); [apply still_quiet, G|]. destruct (ConnectorModel.reconnect _ _ _ _ _) as [[evs st] a]. destruct (after_dials_still s evs G) as (G3 & P3 & S3).
    set (s1 := with_reconnecting (with_attempt (after_dials s evs) a) false). apply (still_from s s1); [exact P3|exact S3|]. assert (G1 : good (sn_ds s1)) by exact G3. clearbody s1.
    apply still_andthen; [apply still_seen, G1|]. intros s4 G4. destruct st.
    + apply still_andthen; [apply still_established, G4|]. intros; apply still_handleConnect; assumption.
    + destruct evs; [apply still_says; auto|]. apply still_andthen; [apply still_Disconnect, G4|]. intros s5 G5. apply still_says; auto.
    + apply still_Disconnect, G4.
    + apply still_quiet, G4.
  - apply still_Unsubscribe, G.
  - apply still_send; [exact G|discriminate].
  - apply still_Disconnect, G.
Qed.
(** A received packet. *)
Definition low_act (a : sact) : option action := match a with SPacket pool p => Some (APacket pool p) | SUdp pool p => Some (AUdp pool p) | _ => None end.
Lemma packet_step E a s p s' ev : is_packet a = Some p -> spacket_ok a -> cbc_ok (se_env E) -> good (sn_ds s) -> sact_step E s a = Ok (s', ev) ->
  subs s (sact_step E s a) /\ metadata_seen ev = [] /\
  (sn_pending s' = sn_pending s \/ sn_pending s' = sn_pending s ++ callbacks E (CompressMetadata (sn_ds s)) p).
Proof.
  intros A Bp Bc G H.
  assert (K : exists b, packet_of b = Some p /\ packet_ok b /\ sact_step E s a = if connected (sn_ds s) then lift s (act (se_env E) (sn_ds s) b) else quiet s).
  { destruct a as [ | | | | |pool p'|pool p'| | | | | ]; try discriminate; injection A as ->; [exists (APacket pool p)|exists (AUdp pool p)]; (split; [reflexivity|]; split; [exact Bp|]; cbn [sact_step act]; destruct (connected (sn_ds s)); reflexivity). }
  destruct K as (b & K1 & K2 & K3). rewrite K3 in *. destruct (connected (sn_ds s)); [|injection H as <- <-; split; [apply still_quiet, G|split; [reflexivity|left; reflexivity]]].
  split; [|].
  - apply (subs_lift s _ _ (low_packet _ _ _ _ K1 K2 Bc G)). intros f C H2. unfold confirms in C. rewrite H2 in C. destruct C as [C|[C|[C|[]]]]; discriminate.
  - apply lift_inv in H as (d & ev1 & H & -> & ->). split; [apply metadata_user|]. cbn [sn_pending with_pending with_ds]. fold (tasks ev1).
    destruct (packet_tasks _ _ _ _ _ _ K1 G H) as [->| ->]; [left; apply app_nil_r|right; reflexivity].
Qed.
(** A callback. *)
Lemma still_load E s ds : good (sn_ds s) -> still s (loadMeasurementMetadata E s ds).
Proof.
  intros G. split; intros s' ev H; apply load_steps in H as (_ & P & F & M & (reg & D) & _); rewrite ?F, ?M.
  - rewrite D. split; [exact G|]. split; [reflexivity|constructor].
  - auto.
Qed.
Lemma still_summary E s ds : good (sn_ds s) -> still s (showMetadataSummary E s ds).
Proof. intros G. split; intros s' ev H; apply summary_steps in H as (-> & F & M); rewrite ?F, ?M; [|auto]. split; [exact G|]. split; [reflexivity|constructor]. Qed.
Lemma subs_metadata E s d : good (sn_ds s) -> subs s (handleMetadataReceived E s d) /\ forall s' ev, handleMetadataReceived E s d = Ok (s', ev) -> sn_pending s' = sn_pending s.
Proof.
  intros G. unfold handleMetadataReceived. match goal with |- context [bind ?x _] => destruct x as [[parsed ds]| |] end; [|split; intros s' ev H; discriminate..]. cbn [bind].
  set (k := andthen (if parsed then _ else _) _). assert (K : still s k).
  { apply still_andthen; [destruct parsed; [apply still_load, G|apply still_says; auto]|]. intros s1 G1. apply still_summary, G1. }
  assert (T : forall s1, good (sn_ds s1) -> subs s1 (andthen (says [UMetadata ds] s1) (fun s => if c_AutoRequestMetadata (sn_config s) && c_AutoSubscribe (sn_config s) then lift s (Subscribe (sn_ds s)) else quiet s)) /\
    forall s' ev, andthen (says [UMetadata ds] s1) (fun s => if c_AutoRequestMetadata (sn_config s) && c_AutoSubscribe (sn_config s) then lift s (Subscribe (sn_ds s)) else quiet s) = Ok (s', ev) -> sn_pending s' = sn_pending s1).
  { intros s1 G1. set (f := fun s : session => _). assert (T : forall s2, good (sn_ds s2) -> still s2 (f s2)) by (intros s2 G2; unfold f; destruct (_ && _); [apply still_Subscribe, G2|apply still_quiet, G2]). clearbody f. split.
    - apply subs_andthen; [|intros s2 G2; apply T, G2]. intros s' ev [= <- <-]. split; [exact G1|]. split; [reflexivity|constructor].
    - intros s' ev H. apply andthen_inv in H as (s2 & e1 & e2 & [= <- <-] & H & ->). exact (proj1 (proj2 (T _ G1) _ _ H)). }
  split.
  - apply subs_andthen; [apply K|]. intros s1 G1. apply T, G1.
  - intros s' ev H. apply andthen_inv in H as (s2 & e1 & e2 & H1 & H2 & ->). destruct (proj1 K _ _ H1) as (G2 & _). destruct (proj2 K _ _ H1) as (P & _). rewrite (proj2 (T s2 G2) _ _ H2). exact P.
Qed.
Lemma task_step E s k s' ev : good (sn_ds s) -> run_task E s k = Ok (s', ev) ->
  subs s (run_task E s k) /\ sn_pending s' = sn_pending s /\
  match k with TMetadata m => exists ds, metadata_seen ev = [ds] /\ shown E m ds | _ => metadata_seen ev = [] end.
Proof.
  intros G H. destruct k as [m| |m]; cbn [run_task] in *.
  - destruct (subs_metadata E s m G) as (A & B). split; [exact A|]. split; [exact (B _ _ H)|]. apply handle_steps in H as (ds & M & H & _); [|exact G]. exists ds. split; [exact M|].
    destruct H as [(H & _)|(H & -> & _)]; [left; exact H|right; split; [exact H|reflexivity]].
  - set (k := andthen _ _) in *. assert (K : still s k).
    { apply still_andthen; [apply still_says; auto|]. intros s1 G1. destruct (c_AutoRequestMetadata _); [apply still_send; [exact G1|discriminate]|apply still_quiet, G1]. }
    split; [apply K|]. exact (proj2 K _ _ H).
  - assert (K : still s (says [UStatus; UReadComplete] s)) by (apply still_says; auto). split; [apply K|]. exact (proj2 K _ _ H).
Qed.
Lemma still_session_Subscribe s filter u s' ev : good (sn_ds s) -> session_Subscribe s filter u = Ok (s', ev) ->
  good (sn_ds s') /\ sn_pending s' = sn_pending s /\ metadata_seen ev = [] /\ subscription (sn_ds s') = subscription_of (subscription (sn_ds s)) filter (settings_given u) /\
  Forall (by_settings (subscription (sn_ds s'))) (frames ev).
Proof.
  intros G H. unfold session_Subscribe in H. cbv zeta in H. fold (settings_given u) in H. set (s1 := with_ds s _) in H. assert (K : still s1 (if connected (sn_ds s1) then lift s1 (Subscribe (sn_ds s1)) else quiet s1)).
  { assert (G1 : good (sn_ds s1)) by exact G. destruct (connected _); [apply still_Subscribe, G1|apply still_quiet, G1]. }
  destruct (proj1 K _ _ H) as (G' & S & F). destruct (proj2 K _ _ H) as (P & M). split; [exact G'|]. split; [exact P|]. split; [exact M|]. split; [exact S|]. rewrite S. exact F.
Qed.

(** ** What one action does to the callbacks and to the metadata that the user sees *)

Lemma action_cases E a s s' ev : cbc_ok (se_env E) -> spacket_ok a -> good (sn_ds s) -> sact_step E s a = Ok (s', ev) ->
  good (sn_ds s') /\ ((forall f u, a <> SSubscribe f u) -> subscription (sn_ds s') = subscription (sn_ds s) /\ Forall (by_settings (subscription (sn_ds s))) (frames ev)) /\
  ((metadata_seen ev = [] /\ (sn_pending s' = sn_pending s \/ exists p, is_packet a = Some p /\ sn_pending s' = sn_pending s ++ callbacks E (CompressMetadata (sn_ds s)) p)) \/
   (exists i k, a = STask i /\ nth_error (sn_pending s) i = Some k /\ sn_pending s' = firstn i (sn_pending s) ++ skipn (S i) (sn_pending s) /\
      match k with TMetadata m => exists ds, metadata_seen ev = [ds] /\ shown E m ds | _ => metadata_seen ev = [] end)).
Proof.
  intros Bc Bp G H. destruct (is_packet a) as [p|] eqn:A.
  { pose proof (packet_step E a s p s' ev A Bp Bc G H) as (S & M & P). destruct (S _ _ H) as (G' & S1 & S2). split; [exact G'|]. split; [auto|]. left. split; [exact M|]. destruct P as [P|P]; [left; exact P|right; exists p; auto]. }
  assert (O : other_action a -> good (sn_ds s') /\ ((forall f u, a <> SSubscribe f u) -> subscription (sn_ds s') = subscription (sn_ds s) /\ Forall (by_settings (subscription (sn_ds s))) (frames ev)) /\ metadata_seen ev = [] /\ sn_pending s' = sn_pending s).
  { intros O. destruct (still_step E a s O G) as (S & P). destruct (S _ _ H) as (G' & S1 & S2), (P _ _ H) as (P1 & M). auto 6. }
  assert (O' : other_action a \/ (exists f u, a = SSubscribe f u) \/ exists i, a = STask i) by (destruct a; try discriminate; eauto; left; exact I).
  destruct O' as [O'|[(f & u & ->)|(i & ->)]]; [destruct (O O') as (O1 & O2 & O3 & O4); split; [exact O1|]; split; [exact O2|]; left; auto|..]; clear O.
  - cbn [sact_step] in H. apply still_session_Subscribe in H as (G' & P & M & _); [|exact G]. split; [exact G'|]. split; [intros N; exfalso; exact (N f u eq_refl)|]. left. split; [exact M|left; exact P].
  - cbn [sact_step] in H. destruct (nth_error (sn_pending s) i) as [k|] eqn:N.
    + apply task_step in H as H'; [|exact G]. destruct H' as (S & P & K). destruct (S _ _ H) as (G' & S1 & S2). split; [exact G'|]. split; [auto|]. right. exists i, k. repeat split; auto.
    + injection H as <- <-. split; [exact G|]. split; [intros _; split; [reflexivity|constructor]|]. left. split; [reflexivity|left; reflexivity].
Qed.
