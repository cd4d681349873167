(** Single messages: which crash, and what well-formed ones do. *)
From stdpp Require Import gmap.
From Coq Require Import Lia ZArith.
From Verif Require Import Base BaseProofs TicksModel GuidModel FormatModel FormatProofs CompactModel CompactSpec CompactProofs CacheModel CacheSpec CacheProofs FrameModel FrameSpec FrameProofs TsscModel TsscSpec TsscCode TsscCode2 TsscRead TsscProofs TsscProofs2 TsscProofs3 SubscriberModel SubscriberSpec SubscriberProofs SubscriberProofs2 SubscriberProofs3 SubscriberProofs4 SubscriberProofs5.
Open Scope Z_scope.
Ltac Zify.zify_post_hook ::= Z.div_mod_to_equations.

(** ** C13 *)
Lemma slice_from_nat {A} (l : list A) (n : nat) : slice_from l (Z.of_nat n) = if (length l <? n)%nat then Panic else Ok (skipn n l).
Proof.
  unfold slice_from, len. replace (Z.of_nat n <? 0) with false by lia. cbn [orb].
  destruct (length l <? n)%nat eqn:E; [replace (Z.of_nat (length l) <? Z.of_nat n) with true by lia; reflexivity|].
  replace (Z.of_nat (length l) <? Z.of_nat n) with false by lia. rewrite Nat2Z.id. reflexivity.
Qed.
Lemma be_get_if n (l : bytes) : be_get n l = if (length l <? n)%nat then Panic else Ok (be_val (firstn n l)).
Proof. reflexivity. Qed.
Lemma base_crash s d : (len d < 20 -> handleUpdateBaseTimes s d = Panic) /\ (20 <= len d -> exists x, handleUpdateBaseTimes s d = Ok x).
Proof.
  unfold handleUpdateBaseTimes, be_u32, be_u64. change 4 with (Z.of_nat 4). change 12 with (Z.of_nat 12).
  rewrite !slice_from_nat, !be_get_if. unfold len. split; intros L.
  - destruct (length d <? 4)%nat eqn:E1; [reflexivity|]. cbn [bind]. rewrite be_get_if, skipn_length.
    destruct (length d - 4 <? 8)%nat eqn:E2; [reflexivity|]. cbn [bind].
    destruct (length d <? 12)%nat eqn:E3; [reflexivity|]. cbn [bind]. rewrite be_get_if, skipn_length.
    replace (length d - 12 <? 8)%nat with true by lia. reflexivity.
  - replace (length d <? 4)%nat with false by lia. cbn [bind]. rewrite be_get_if, skipn_length.
    replace (length d - 4 <? 8)%nat with false by lia. cbn [bind].
    replace (length d <? 12)%nat with false by lia. cbn [bind]. rewrite be_get_if, skipn_length.
    replace (length d - 12 <? 8)%nat with false by lia. cbn [bind]. destruct (i32 _ =? 0); eexists; reflexivity.
Qed.
Lemma notify_crash s d : good s -> (len d < 4 -> handleNotification s d = Panic) /\
  (4 <= len d -> exists wb, len wb = maxPacketSize /\
     handleNotification s d = Ok (set_writeBuffer s wb, [EvStatus 0x89 (skipn 4 d); EvNotification (skipn 4 d)] ++
                                   if connected s then [EvSend (frame 7 (firstn 4 d))] else [])).
Proof.
  intros (W & _). unfold handleNotification. change 4 with (Z.of_nat 4) at 2 5. rewrite slice_from_nat. unfold len at 1. split; intros L.
  - replace (length d <? 4)%nat with true by lia. reflexivity.
  - unfold len in L. replace (length d <? 4)%nat with false by lia. cbn [bind]. rewrite slice0 by (unfold len; lia). change (Z.to_nat 4) with 4%nat. cbn [bind].
    destruct (send_ok s sc_ConfirmNotification (firstn 4 d) W) as (wb & Lw & E). { unfold len, maxPacketSize. rewrite firstn_length. lia. }
    exists wb. split; [exact Lw|]. unfold emit. rewrite E. cbn [bind]. reflexivity.
Qed.
Lemma start_crash s d : (len d < 8 -> handleDataStartTime s d = Panic) /\ (8 <= len d -> handleDataStartTime s d = Ok (s, [EvDataStartTime (be_val (firstn 8 d))])).
Proof.
  unfold handleDataStartTime, be_u64, len. split; intros L; [rewrite be_get_panic by lia; reflexivity|rewrite be_get_ok by lia; reflexivity].
Qed.
Lemma succeeded_ok e s m d : exists x, handleSucceeded e s m d = Ok x.
Proof.
  unfold handleSucceeded. destruct (m =? _); [destruct (CompressMetadata s); [destruct (gunzip e d)|]; eexists; reflexivity|].
  destruct (m =? _); [eexists; reflexivity|]. destruct (m =? _); [eexists; reflexivity|]. destruct (_ || _); eexists; reflexivity.
Qed.
Lemma failed_ok s m d : exists x, handleFailed s m d = Ok x.
Proof. unfold handleFailed. destruct (_ || _); eexists; reflexivity. Qed.
Lemma dispatch_crash e pool s c m d n : good s -> data_needed (Version s) c = Some n ->
  (len d < n -> dispatch e pool s c m d = Panic) /\ (n <= len d -> exists x, dispatch e pool s c m d = Ok x).
Proof.
  intros G N. unfold data_needed in N. pose proof (len_nonneg d) as Ld.
  destruct ((c =? 0x82) || (c =? 0x83) || (c =? 0x85)) eqn:E; [discriminate|].
  apply orb_false_iff in E as (E & E5). apply orb_false_iff in E as (E2 & E3). unfold dispatch.
  change sr_DataPacket with 0x82. change sr_UpdateSignalIndexCache with 0x83. change sr_UpdateCipherKeys with 0x85. rewrite E2, E3, E5.
  destruct (c =? sr_Succeeded) eqn:A. { apply Z.eqb_eq in A. subst c. cbn in N. injection N as <-. split; [lia|intros _; apply succeeded_ok]. }
  destruct (c =? sr_Failed) eqn:A1. { apply Z.eqb_eq in A1. subst c. cbn in N. injection N as <-. split; [lia|intros _; apply failed_ok]. }
  destruct (c =? sr_DataStartTime) eqn:A2.
  { apply Z.eqb_eq in A2. subst c. cbn in N. injection N as <-. destruct (start_crash s d) as (S1 & S2). split; [exact S1|]. intros L. eexists. apply S2, L. }
  destruct (c =? sr_ProcessingComplete) eqn:A3. { apply Z.eqb_eq in A3. subst c. cbn in N. injection N as <-. split; [lia|intros _; eexists; reflexivity]. }
  change sr_UpdateBaseTimes with 0x84. destruct (c =? 0x84). { injection N as <-. apply base_crash. }
  destruct (c =? sr_ConfigurationChanged) eqn:A4. { apply Z.eqb_eq in A4. subst c. cbn in N. injection N as <-. split; [lia|intros _; eexists; reflexivity]. }
  change sr_DataStartTime with 0x86 in A2. rewrite A2 in N. change sr_BufferBlock with 0x88. destruct (c =? 0x88).
  { injection N as <-. split; intros L; [apply bb_short; assumption|]. destruct (bb_ok s d G L) as (wb & _ & ->). destruct (bb_seq d =? bufferBlockExpected s); eexists; reflexivity. }
  change sr_Notify with 0x89. destruct (c =? 0x89).
  { injection N as <-. destruct (notify_crash s d G) as (S1 & S2). split; [exact S1|]. intros L. destruct (S2 L) as (wb & _ & ->). eexists. reflexivity. }
  injection N as <-. split; [lia|]. intros _. destruct (c =? sr_NoOP); eexists; reflexivity.
Qed.
Lemma good_bytes s n : good s -> good (set_cmdBytes s n).
Proof. intros G. apply (good_mask s); [reflexivity|exact G]. Qed.
Lemma response_crash e pool s c m z d n : good s -> connected s = true -> validated s = true -> length z = 4%nat ->
  data_needed (Version s) c = Some n ->
  (act e s (APacket pool (response c m z d)) = Panic <-> len d < n).
Proof.
  intros G C V Lz N. destruct (act_response e pool s c m z d C V Lz) as (k & ->).
  destruct (dispatch_crash e pool (set_cmdBytes s k) c m d n (good_bytes s k G) N) as (D1 & D2).
  split; [|exact D1]. intros P. destruct (Z_lt_le_dec (len d) n) as [L|L]; [exact L|]. destruct (D2 L) as (x & X). congruence.
Qed.
Lemma short_packet_crash e pool s p : connected s = true -> (length p < 6)%nat ->
  act e s (APacket pool p) = Panic /\ act e s (AUdp pool p) = Panic.
Proof.
  intros C L. cbn [act]. rewrite C. split.
  - unfold receive, readPayloadHeader. cbv zeta. set (s0 := set_cmdBytes s _).
    assert (LL : (len p <=? maxInitialPacketSize) = true) by (unfold len, maxInitialPacketSize, responseHeaderSize; lia).
    unfold readPacket. destruct (negb (validated s0)); [destruct (2 <=? Version s0); [rewrite LL|]|]; apply process_short, L.
  - unfold receiveUdp. apply process_short, L.
Qed.

(** ** Cipher keys *)
Lemma sized_blob pre b rest : len (pre ++ blob b) < 2 ^ 32 ->
  sized_buffer (pre ++ blob b ++ rest) (len pre) = Ok (b, len (pre ++ blob b)).
Proof.
  intros L. unfold sized_buffer. rewrite slice_from_app. cbn [bind]. unfold be_u32, blob.
  rewrite <- app_assoc. rewrite be_get_put. cbn [bind]. cbv zeta. change (8 * Z.of_nat 4) with 32.
  assert (LL : len (pre ++ blob b) = len pre + 4 + len b) by (unfold blob; rewrite !len_app; unfold len; rewrite be_put_length; lia).
  pose proof (len_nonneg pre). pose proof (len_nonneg b).
  rewrite Z.mod_small by lia. unfold u32 at 1 3. rewrite Z.mod_small by lia.
  replace (pre ++ be_put 4 (len b) ++ b ++ rest) with ((pre ++ be_put 4 (len b)) ++ b ++ rest) by (rewrite <- app_assoc; reflexivity).
  rewrite slice_from_at by (rewrite len_app; unfold len at 3; rewrite be_put_length; lia). cbn [bind].
  assert (FF : firstn (Z.to_nat (len b)) (b ++ rest) = b) by (unfold len; rewrite Nat2Z.id, firstn_app, Nat.sub_diag, firstn_all; cbn [firstn]; apply app_nil_r).
  rewrite FF. unfold len at 1. rewrite Nat2Z.id, Nat.sub_diag. cbn [repeat]. rewrite app_nil_r.
  f_equal. f_equal. fold (blob b). unfold u32. rewrite Z.mod_small; lia.
Qed.
Lemma cipher_ok s first ek ei ok oi : len (cipher_message first ek ei ok oi) < 2 ^ 32 ->
  handleUpdateCipherKeys s (cipher_message first ek ei ok oi) = Ok (set_keyIVs s (Some ((ek, ei), (ok, oi))), [EvInfo]).
Proof.
  intros L. unfold handleUpdateCipherKeys, cipher_message in *.
  change (first :: blob ek ++ blob ei ++ blob ok ++ blob oi) with ([first] ++ blob ek ++ blob ei ++ blob ok ++ blob oi) in *.
  rewrite !len_app in L. pose proof (len_nonneg (blob ek)). pose proof (len_nonneg (blob ei)). pose proof (len_nonneg (blob ok)). pose proof (len_nonneg (blob oi)).
  change (sized_buffer ([first] ++ blob ek ++ blob ei ++ blob ok ++ blob oi) 1) with (sized_buffer ([first] ++ blob ek ++ blob ei ++ blob ok ++ blob oi) (len [first])).
  rewrite sized_blob by (rewrite len_app; lia). cbn [bind].
  rewrite (app_assoc [first] (blob ek)). rewrite sized_blob by (rewrite !len_app; lia). cbn [bind].
  rewrite (app_assoc ([first] ++ blob ek) (blob ei)). rewrite sized_blob by (rewrite !len_app; lia). cbn [bind].
  rewrite (app_assoc (([first] ++ blob ek) ++ blob ei) (blob ok)).
  rewrite <- (app_nil_r (blob oi)). rewrite sized_blob by (rewrite !len_app; lia). cbn [bind]. reflexivity.
Qed.
Lemma parseTSSC_keys s k ci d room :
  parseTSSC (set_keyIVs s k) ci d room =
  match parseTSSC s ci d room with Ok (s', ms, ev) => Ok (set_keyIVs s' k, ms, ev) | Err => Err | Panic => Panic end.
Proof.
  assert (C : forall s0 i c, set_cache (set_keyIVs s0 k) i c = set_keyIVs (set_cache s0 i c) k) by (intros s0 i c; unfold set_cache; destruct (i =? 0); reflexivity).
  unfold parseTSSC. cbv zeta. change (cache_at (set_keyIVs s k) ci) with (cache_at s ci). rewrite !C.
  destruct (idx d 0) as [v| |]; cbn [bind]; [|reflexivity|reflexivity]. destruct (negb (v =? 85)); [reflexivity|].
  destruct (slice_from d 1) as [t| |]; cbn [bind]; [|reflexivity|reflexivity]. destruct (be_u16 t) as [q| |]; cbn [bind]; [|reflexivity|reflexivity]. cbv zeta.
  rewrite !C.
  destruct (q =? 0); cbn [andb].
  - change (set_tsscResetRequested (set_keyIVs ?x k) false) with (set_keyIVs (set_tsscResetRequested x false) k).
    destruct (negb (_ =? q)); [reflexivity|]. destruct (slice_from d 3) as [b| |]; cbn [bind]; [|reflexivity|reflexivity].
    destruct (tssc_loop _ _ _ _) as [[ms t'] []]; rewrite ?C; reflexivity.
  - destruct (negb (_ =? q)); [reflexivity|]. destruct (slice_from d 3) as [b| |]; cbn [bind]; [|reflexivity|reflexivity].
    destruct (tssc_loop _ _ _ _) as [[ms t'] []]; rewrite ?C; reflexivity.
Qed.
Lemma parseCompact_keys s k ci d room :
  parseCompactMeasurements (set_keyIVs s k) ci d room =
  match parseCompactMeasurements s ci d room with Ok (s', ms, ev) => Ok (set_keyIVs s' k, ms, ev) | Err => Err | Panic => Panic end.
Proof.
  unfold parseCompactMeasurements. cbv zeta. change (cache_at (set_keyIVs s k) ci) with (cache_at s ci).
  destruct (Count _ =? 0); [reflexivity|]. change (subscription (set_keyIVs s k)) with (subscription s). change (baseTimes (set_keyIVs s k)) with (baseTimes s).
  destruct (parseCompact _ _ _) as [ms []]; reflexivity.
Qed.
(** An encrypted packet is handled as its plaintext, with the key its flag selects. *)
Lemma encrypted_packet e pool s flags data even odd : keyIVs s = Some (even, odd) ->
  Z.land flags 10 <> 0 ->
  let k := if 0 <? Z.land flags 4 then odd else even in
  len (fst k) = 16 \/ len (fst k) = 24 \/ len (fst k) = 32 -> len (snd k) = 16 -> len data mod 16 = 0 -> 0 <= flags < 256 ->
  handleDataPacket e pool s (flags :: data) =
  match handleDataPacket e pool (set_keyIVs s None) (flags :: cbc e (fst k) (snd k) data) with
  | Ok (s', ev) => Ok (set_keyIVs s' (Some (even, odd)), ev) | Err => Err | Panic => Panic end.
Proof.
  intros K N k Lk Li Ld Lf. unfold handleDataPacket. rewrite K. change (keyIVs (set_keyIVs s None)) with (@None ((bytes * bytes) * (bytes * bytes))).
  change (idx (flags :: data) 0) with (Ok flags). change (idx (flags :: cbc e (fst k) (snd k) data) 0) with (Ok flags). cbn [bind]. cbv zeta.
  pose proof (slice_from_app [flags] data) as Q1. change (len [flags]) with 1 in Q1. cbn [app] in Q1.
  pose proof (slice_from_app [flags] (cbc e (fst k) (snd k) data)) as Q2. change (len [flags]) with 1 in Q2. cbn [app] in Q2. rewrite Q1, Q2. cbn [bind].
  change df_CipherIndex with 4. fold k. unfold decipherAES.
  replace ((len (fst k) =? 16) || (len (fst k) =? 24) || (len (fst k) =? 32)) with true by lia.
  replace (len (snd k) =? 16) with true by lia. replace (len data mod 16 =? 0) with true by lia. cbn [negb].
  assert (NB : negb (0 <? Z.land flags df_Compressed) && negb (0 <? Z.land flags df_Compact) = false).
  { destruct (0 <? Z.land flags df_Compressed) eqn:A; [reflexivity|]. destruct (0 <? Z.land flags df_Compact) eqn:B; [reflexivity|]. exfalso.
    assert (T : forallb (fun f => (Z.land f 10 =? 0) || (0 <? Z.land f df_Compressed) || (0 <? Z.land f df_Compact)) (map Z.of_nat (seq 0 256)) = true) by (vm_compute; reflexivity).
    rewrite forallb_forall in T. specialize (T flags).
    assert (In flags (map Z.of_nat (seq 0 256))) by (apply in_map_iff; exists (Z.to_nat flags); rewrite in_seq; lia).
    apply T in H. rewrite A, B in H. rewrite !orb_false_r in H. apply Z.eqb_eq in H. contradiction. }
  rewrite NB.
  assert (SK : forall x, set_keyIVs (set_measTotal (set_keyIVs x None) 0) None = set_keyIVs (set_measTotal x 0) None) by reflexivity.
  destruct (be_u32 (cbc e (fst k) (snd k) data)) as [count| |]; cbn [bind]; [|reflexivity|reflexivity]. cbv zeta.
  destruct (slice_from (cbc e (fst k) (snd k) data) 4) as [body| |]; cbn [bind]; [|reflexivity|reflexivity].
  set (ci := if 0 <? Z.land flags df_CacheIndex then 1 else 0). set (room := length (destination pool count)).
  assert (KS : forall s1, keyIVs s1 = Some (even, odd) -> set_keyIVs (set_keyIVs s1 None) (Some (even, odd)) = s1) by (intros s1 H1; destruct s1; cbn in H1; subst; reflexivity).
  destruct (0 <? Z.land flags df_Compressed).
  - rewrite parseTSSC_keys. destruct (parseTSSC s ci body room) as [[[s1 ms] ev]| |] eqn:P; cbn [bind]; [|reflexivity|reflexivity].
    cbv beta iota zeta. unfold done. f_equal. f_equal. apply parseTSSC_mask in P.
    assert (keyIVs s1 = Some (even, odd)) by (change (keyIVs (mask_data s1) = Some (even, odd)); rewrite P; exact K).
    change (measTotal (set_keyIVs s1 None)) with (measTotal s1).
    change (set_measTotal s1 (u64 (measTotal s1 + count)) = set_measTotal (set_keyIVs (set_keyIVs s1 None) (Some (even, odd))) (u64 (measTotal s1 + count))).
    rewrite KS by assumption. reflexivity.
  - rewrite parseCompact_keys. destruct (parseCompactMeasurements s ci body room) as [[[s1 ms] ev]| |] eqn:P; cbn [bind]; [|reflexivity|reflexivity].
    cbv beta iota zeta. unfold done. f_equal. f_equal. apply parseCompactMeasurements_state in P. subst s1.
    change (measTotal (set_keyIVs s None)) with (measTotal s).
    change (set_measTotal s (u64 (measTotal s + count)) = set_measTotal (set_keyIVs (set_keyIVs s None) (Some (even, odd))) (u64 (measTotal s + count))).
    rewrite KS by assumption. reflexivity.
Qed.
Lemma encrypted_crash e pool s flags data even odd : keyIVs s = Some (even, odd) ->
  let k := if 0 <? Z.land flags 4 then odd else even in
  0 < Z.land flags 8 -> len (fst k) = 16 \/ len (fst k) = 24 \/ len (fst k) = 32 -> len data mod 16 <> 0 \/ len (snd k) <> 16 ->
  handleDataPacket e pool s (flags :: data) = Panic.
Proof.
  intros K k Fl Lk Ld. unfold handleDataPacket. rewrite K. change (idx (flags :: data) 0) with (Ok flags). cbn [bind]. cbv zeta.
  pose proof (slice_from_app [flags] data) as Q1. change (len [flags]) with 1 in Q1. cbn [app] in Q1. rewrite Q1. cbn [bind].
  change df_CipherIndex with 4. fold k. unfold decipherAES. change df_Compressed with 8. replace (0 <? Z.land flags 8) with true by lia. cbn [negb andb].
  replace ((len (fst k) =? 16) || (len (fst k) =? 24) || (len (fst k) =? 32)) with true by lia. cbn [negb].
  destruct (len (snd k) =? 16) eqn:E; cbn [negb]; [|reflexivity]. replace (len data mod 16 =? 0) with false by lia. reflexivity.
Qed.
