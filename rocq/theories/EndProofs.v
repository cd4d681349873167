From stdpp Require Import gmap.
From Coq Require Import Lia ZArith.
From Verif Require Import Base BaseProofs TicksModel GuidModel FormatModel FormatProofs CompactModel CompactSpec CompactProofs CacheModel CacheSpec CacheProofs FrameModel FrameSpec FrameProofs TsscModel TsscSpec TsscCode TsscCode2 TsscRead TsscProofs TsscProofs2 TsscProofs3
  SubscriberModel SubscriberSpec SubscriberProofs SubscriberProofs2 SubscriberProofs3 SubscriberProofs4 SubscriberProofs5 SubscriberProofs6 SubscriberProofs7 SubscriberProofs8 SubscriberProofs10 EndModel EndSpec.
Open Scope Z_scope.
Ltac Zify.zify_post_hook ::= Z.div_mod_to_equations.

(** ** Compact packets of a publisher without base times, decoded with any *)
Lemma no_bases_encode f a b s : encode_sample (mkCfg f a b (0, 0)) s =
  wire (GetCompactStateFlags (s_flags s) (s_timeIndex s) false) (s_id s) (s_value s) (if a then be_put 8 (s_time s) else []).
Proof.
  unfold encode_sample, publisher_encode, GetBinaryLength. cbn [includeTime baseTimeOffsets]. destruct a; cbn [negb].
  - unfold base_at. cbn [baseTimeOffsets fst snd]. destruct (s_timeIndex s =? 0); reflexivity.
  - reflexivity.
Qed.
Lemma no_bases_decode f a b c s rest : sample_ok s ->
  Decode (mkCfg f a b c) (encode_sample (mkCfg f a b (0, 0)) s ++ rest) = Decode (mkCfg f a b (0, 0)) (encode_sample (mkCfg f a b (0, 0)) s ++ rest).
Proof.
  intros (S1 & S2 & S3 & S4 & S5). rewrite no_bases_encode.
  destruct (getflags_bits (mapToCompactFlags (s_flags s)) (s_timeIndex s) false (compact_flags_range _)) as (F1 & F2 & F3 & F4).
  change (or_if false (or_if (negb (s_timeIndex s =? 0)) (mapToCompactFlags (s_flags s)) cf_TimeIndex) cf_BaseTimeOffset)
    with (GetCompactStateFlags (s_flags s) (s_timeIndex s) false) in *.
  assert (T : length (if a then be_put 8 (s_time s) else []) = time_size a b (GetCompactStateFlags (s_flags s) (s_timeIndex s) false)).
  { unfold time_size. rewrite F3. destruct a; [apply be_put_length|reflexivity]. }
  rewrite !Decode_wire by (exact F1 || exact S1 || exact S2 || exact T).
  cbn [includeTime useMillisecondResolution baseTimeOffsets lookup]. unfold time_of. rewrite F3. reflexivity.
Qed.
Lemma parse_stream' f a b sb pb ss : forall pre rest, sb = pb \/ pb = (0, 0) ->
  Forall sample_ok ss -> is_i64 (fst pb) -> is_i64 (snd pb) ->
  let cfg := mkCfg f a b pb in
  exists ms, parseCompact_loop (mkCfg f a b sb) (pre ++ concat (map (encode_sample cfg) ss) ++ rest) (length ss) (len pre)
             = (ms, PDone) /\ Forall2 (received cfg) ss ms.
Proof.
  induction ss as [|s ss IH]; intros pre rest HB HF HB1 HB2 cfg.
  - exists []. split; [reflexivity|constructor].
  - inversion HF as [|? ? Hs HF']; subst. cbn [map concat length parseCompact_loop].
    rewrite slice_from_app. rewrite <- app_assoc.
    destruct (publisher_round_trip cfg s (concat (map (encode_sample cfg) ss) ++ rest) Hs HB1 HB2) as (m & D & R & _).
    assert (D' : Decode (mkCfg f a b sb) (encode_sample cfg s ++ concat (map (encode_sample cfg) ss) ++ rest) = Ok (m, len (encode_sample cfg s))).
    { rewrite <- D. destruct HB as [-> | ->]; [reflexivity|]. apply no_bases_decode, Hs. }
    rewrite D'.
    destruct (IH (pre ++ encode_sample cfg s) rest HB HF' HB1 HB2) as (ms & P & F2). fold cfg in P, F2.
    rewrite <- app_assoc in P. rewrite len_app in P. rewrite P.
    exists (m :: ms). split; [reflexivity|constructor; assumption].
Qed.

(** ** What matters of the subscriber *)
Definition calm (ev : list event) : Prop := ~ In EvTerminate ev.
Lemma calm_app a b : calm a -> calm b -> calm (a ++ b).
Proof. unfold calm. rewrite in_app_iff. tauto. Qed.
Lemma calm_nil : calm [].
Proof. intros []. Qed.
Definition same (s s' : sub) : Prop :=
  connected s' = connected s /\ validated s' = validated s /\ options_of s' = options_of s /\ keyIVs s' = keyIVs s /\
  baseTimes s' = baseTimes s /\ (forall i, cache_at s' i = cache_at s i).
Lemma same_refl s : same s s.
Proof. repeat split. Qed.
Lemma send_same s c d s' ev : send s c d = Ok (s', ev) -> same s s' /\ calm ev.
Proof.
  intros H. apply send_inv in H as (wb & -> & H). split; [repeat split|].
  destruct H as [(_ & _ & ->)|(_ & f & -> & _)]; [apply calm_nil|]. intros [X|[]]. discriminate.
Qed.
Lemma same_trans s s1 s2 : same s s1 -> same s1 s2 -> same s s2.
Proof.
  intros (A1 & A2 & A3 & A4 & A5 & A6) (B1 & B2 & B3 & B4 & B5 & B6).
  repeat split; try congruence.
Qed.
Ltac nin := let X := fresh in intros X; repeat (destruct X as [X|X]; [discriminate X|]); exact X.
Lemma block_same s d s' ev : handleBufferBlock s d = Ok (s', ev) -> same s s' /\ calm ev.
Proof.
  unfold handleBufferBlock. intros H. unfold be_u32 in H. destruct (be_get 4 d) as [seq| |]; try discriminate. cbn [bind] in H. cbv zeta in H.
  destruct (if 1 <? Version s then _ else _) as [ci| |]; try discriminate. cbn [bind] in H.
  destruct (negb _); [inv H; split; [apply same_refl|apply calm_nil]|].
  destruct (slice d 0 4) as [c| |]; try discriminate. cbn [bind] in H.
  destruct (send s _ c) as [[s1 e1]| |] eqn:E; try discriminate. cbn [bind] in H.
  destruct (slice_from d _) as [d2| |]; try discriminate. cbn [bind] in H.
  destruct (be_get 4 d2) as [si| |]; try discriminate. cbn [bind] in H.
  apply send_same in E as (E1 & E2).
  destruct (seq =? bufferBlockExpected s1).
  - inv H. split; [eapply same_trans; [exact E1|repeat split]|]. apply calm_app; [exact E2|nin].
  - destruct (upd _ _ _) as [c'| |]; try discriminate. cbn [bind] in H. inv H. split; [eapply same_trans; [exact E1|repeat split]|exact E2].
Qed.
(** The messages that carry neither data nor anything needed to decode it. *)
Lemma other_same e pool s c m d n s' ev : data_needed (Version s) c = Some n -> c <> 0x84 -> dispatch e pool s c m d = Ok (s', ev) ->
  same s s' /\ calm ev /\ delivered ev = [].
Proof.
  intros N N4 H. unfold data_needed in N.
  destruct ((c =? 0x82) || (c =? 0x83) || (c =? 0x85)) eqn:E; [discriminate|]. clear N.
  apply orb_false_iff in E as (E & E5). apply orb_false_iff in E as (E2 & E3). unfold dispatch in H.
  change sr_DataPacket with 0x82 in H. change sr_UpdateSignalIndexCache with 0x83 in H. change sr_UpdateCipherKeys with 0x85 in H.
  change sr_UpdateBaseTimes with 0x84 in H. rewrite E2, E3, E5 in H. replace (c =? 0x84) with false in H by lia.
  destruct (c =? sr_Succeeded).
  { pose proof (handleSucceeded_mask _ _ _ _ _ _ H) as (_ & (Q & _) & _). unfold handleSucceeded in H.
    destruct (m =? sc_MetadataRefresh); [destruct (CompressMetadata s); [destruct (gunzip e d)|]|];
      [..|destruct (m =? sc_Subscribe); [|destruct (m =? sc_Unsubscribe); [|destruct (_ || _)]]]; inv H;
      (split; [repeat split|split; [nin|reflexivity]]). }
  destruct (c =? sr_Failed).
  { unfold handleFailed in H. destruct (_ || _); [destruct (0 <? len d)|]; inv H; (split; [repeat split|split; [nin|reflexivity]]). }
  destruct (c =? sr_DataStartTime).
  { unfold handleDataStartTime in H. destruct (be_u64 d) as [x| |]; try discriminate. inv H. split; [repeat split|split; [nin|reflexivity]]. }
  destruct (c =? sr_ProcessingComplete); [inv H; split; [repeat split|split; [nin|reflexivity]]|].
  destruct (c =? sr_ConfigurationChanged); [inv H; split; [repeat split|split; [nin|reflexivity]]|].
  destruct (c =? sr_BufferBlock).
  { pose proof (handleBufferBlock_mask _ _ _ _ H) as (_ & Q). apply block_same in H as (H1 & H2). auto. }
  destruct (c =? sr_Notify).
  { pose proof (handleNotification_mask _ _ _ _ H) as (_ & Q & _). unfold handleNotification, emit in H.
    destruct (slice_from d 4) as [x| |]; try discriminate. cbn [bind] in H. destruct (slice d 0 4) as [h| |]; try discriminate. cbn [bind] in H.
    destruct (send s _ h) as [[s1 e1]| |] eqn:E; try discriminate. cbn [bind] in H. inv H. apply send_same in E as (H1 & H2).
    split; [exact H1|split; [|exact Q]]. apply (calm_app [EvStatus sr_Notify x; EvNotification x]); [nin|exact H2]. }
  destruct (c =? sr_NoOP); inv H; (split; [repeat split|split; [nin|reflexivity]]).
Qed.
(** The application's calls. *)
Lemma unsubscribe_ok s : good s -> exists s' ev, Unsubscribe s = Ok (s', ev) /\ same s s' /\ calm ev /\ delivered ev = [] /\ good s'.
Proof.
  intros G. assert (X : exists x, Unsubscribe s = Ok x).
  { unfold Unsubscribe. destruct (_ || _); [eexists; reflexivity|]. destruct (send_ok s sc_Unsubscribe [] (proj1 G)) as (wb & _ & ->); [|eexists; reflexivity].
    change (0 <= maxPacketSize - 5). unfold maxPacketSize. lia. }
  destruct X as ((s' & ev) & X). exists s', ev. split; [exact X|]. pose proof (Unsubscribe_good _ _ _ G X) as (G' & _).
  unfold Unsubscribe in X. destruct (_ || _); [inv X; repeat split; try apply calm_nil; apply G|].
  pose proof (send_quiet _ _ _ _ _ X) as (Q & _). apply send_same in X as (H1 & H2). auto.
Qed.
Lemma subscribe_ok s : good s -> len (subscribe_payload (subscription s)) <= 32763 ->
  exists s' ev, Subscribe s = Ok (s', ev) /\ same s s' /\ subscription s' = subscription s /\ calm ev /\ delivered ev = [] /\ good s'.
Proof.
  intros G L. unfold Subscribe. destruct (negb (connected s)); [exists s, []; repeat split; try apply calm_nil; apply G|].
  destruct (_ && _); [exists s, []; repeat split; try apply calm_nil; apply G|].
  assert (X : exists s1 ev1, (if subscribed s then Unsubscribe s else done s []) = Ok (s1, ev1) /\ same s s1 /\ subscription s1 = subscription s /\ calm ev1 /\ delivered ev1 = [] /\ good s1).
  { destruct (subscribed s); [|exists s, []; repeat split; try apply calm_nil; apply G].
    destruct (unsubscribe_ok s G) as (s1 & ev1 & X & X1 & X2 & X3 & X4). exists s1, ev1.
    assert (subscription s1 = subscription s) by (apply Unsubscribe_local in X; change (subscription (mask_local s1) = subscription (mask_local s)); congruence). auto 7. }
  destruct X as (s1 & ev1 & X & X1 & X2 & X3 & X4 & X5). unfold step, done in X |- *. rewrite X. cbn [bind]. cbv beta zeta iota.
  change (subscription (set_measTotal s1 0)) with (subscription s1).
  destruct (send_ok (set_measTotal s1 0) sc_Subscribe (subscribe_payload (subscription s1)) (proj1 X5)) as (wb & Lw & Y).
  { rewrite X2. unfold maxPacketSize. lia. }
  rewrite Y. cbn [bind]. cbv beta iota. eexists _, _. split; [reflexivity|].
  split; [eapply same_trans; [exact X1|repeat split]|]. split; [exact X2|].
  pose proof (send_quiet _ _ _ _ _ Y) as (Q & _). apply send_same in Y as (_ & Y).
  split; [apply calm_app; assumption|]. split; [rewrite delivered_app, X4, Q; reflexivity|]. split; [exact Lw|exact (proj2 X5)].
Qed.

(** ** Data packets with any key flag *)
Lemma packet_flags_bits z ci odd : ci = 0 \/ ci = 1 ->
  let f := packet_flags z ci odd in
  (0 <? Z.land f df_Compressed) = z /\ (0 <? Z.land f df_Compact) = negb z /\
  (if 0 <? Z.land f df_CacheIndex then 1 else 0) = ci /\ (0 <? Z.land f 4) = odd /\ Z.land f 10 <> 0 /\ 0 <= f < 256.
Proof. intros [-> | ->]; destruct z, odd; cbn; repeat split; discriminate. Qed.
Definition keys_ok (k : option (key_pair * key_pair)) : Prop := match k with None => True | Some (k0, k1) => key_ok k0 /\ key_ok k1 end.
Lemma handleDataPacket_sealed e pool s z ci odd count body data : ci = 0 \/ ci = 1 -> is_u32 count -> keys_ok (keyIVs s) ->
  sealed e (keyIVs s) odd (be_put 4 count ++ body) data ->
  handleDataPacket e pool s (packet_flags z ci odd :: data) =
  (let* (r, ev) := (if z then parseTSSC s ci body (length (destination pool count))
                    else parseCompactMeasurements s ci body (length (destination pool count))) in
   let '(s1, ms) := r in
   done (set_measTotal s1 (u64 (measTotal s1 + count))) (ev ++ [EvMeasurements (ms ++ skipn (length ms) (destination pool count))])).
Proof.
  intros Ci U KO SL. destruct (packet_flags_bits z ci odd Ci) as (F1 & F2 & F3 & F4 & F5 & F6). cbv zeta in *. set (f := packet_flags z ci odd) in *. clearbody f.
  unfold handleDataPacket. change (idx (f :: data) 0) with (@Ok Z f). cbn [bind]. cbv zeta. rewrite F1, F2, F3.
  replace (negb z && negb (negb z)) with false by (destruct z; reflexivity).
  pose proof (slice_from_app [f] data) as Q. change (len [f]) with 1 in Q. cbn [app] in Q. rewrite Q. cbn [bind].
  assert (P : match keyIVs s with None => Ok data | Some (even, odd) => let k := if 0 <? Z.land f df_CipherIndex then odd else even in decipherAES e (fst k) (snd k) data end
              = Ok (be_put 4 count ++ body)).
  { unfold sealed in SL. destruct (keyIVs s) as [[k0 k1]|]; [|subst; reflexivity]. cbv zeta in *. change df_CipherIndex with 4. rewrite F4.
    destruct SL as (S1 & S2). destruct KO as (KO0 & KO1). set (k := if odd then k1 else k0) in *.
    assert (KO : key_ok k) by (unfold k; destruct odd; assumption). destruct KO as (L1 & L2). unfold decipherAES.
    replace ((len (fst k) =? 16) || (len (fst k) =? 24) || (len (fst k) =? 32)) with true by lia.
    replace (len (snd k) =? 16) with true by lia. replace (len data mod 16 =? 0) with true by lia. cbn [negb]. exact (f_equal Ok S2). }
  match goal with |- match ?x with _ => _ end = _ => replace x with (@Ok bytes (be_put 4 count ++ body)) by (symmetry; exact P) end. unfold be_u32. rewrite be_put_get by (unfold is_u32 in U; cbn; lia). cbn [bind].
  rewrite slice_from_at by (unfold len; rewrite be_put_length; reflexivity). reflexivity.
Qed.
Lemma ser_bytes l pad : forall n, ser (l ++ map Byte pad) n = ser l n ++ pad.
Proof.
  induction l as [|[b|x] l IH]; intros n; cbn [app ser].
  - induction pad as [|x pad IH]; cbn [map ser app]; [reflexivity|]. cbn [app] in IH. rewrite IH. reflexivity.
  - assert (Bb : bits_of (l ++ map Byte pad) = bits_of l).
    { rewrite bits_of_app. replace (bits_of (map Byte pad)) with (@nil bool) by (clear; induction pad as [|y q IH]; [reflexivity|exact IH]). apply app_nil_r. }
    destruct n as [|n]; rewrite ?Bb, IH; reflexivity.
  - rewrite IH. reflexivity.
Qed.
Lemma decode_packet_padded t e l0 b e' pad fuel :
  rel t e -> Forall (fun cm => tmeas_ok (snd cm)) l0 -> e_packet e l0 = Some (b, e') -> padding_ok e l0 pad -> (length l0 < fuel)%nat ->
  exists t', decode_all fuel (SetBuffer t (b ++ pad)) = DOk (map snd l0) t' /\ rel t' e'.
Proof.
  intros R Hok He [->|(i & ei & EI & E)] Hf.
  { rewrite app_nil_r. exact (decode_packet t e l0 b e' fuel R Hok He Hf). }
  unfold e_packet in He. rewrite EI in He.
  replace fuel with (length l0 + S (fuel - length l0 - 1))%nat by lia. set (fu := (fuel - length l0 - 1)%nat).
  destruct (Nat.eqb_spec (length (bits_of i) mod 8) 0) as [E'|_]; [congruence|].
  destruct (e_code ei EndOfStream) as [[iz ez]|] eqn:EZ; [|discriminate].
  assert (b = ser (i ++ iz) 0) by congruence. assert (e' = ez) by congruence. subst.
  rewrite <- ser_bytes, <- app_assoc.
  pose proof (setbuffer_inp t (i ++ iz ++ map Byte pad)) as I0. pose proof (setbuffer_rel t e (ser (i ++ iz ++ map Byte pad) 0) R) as R0.
  destruct (decode_items l0 _ e i ei (iz ++ map Byte pad) _ (S fu) R0 Hok EI I0) as (t1 & R1 & I1 & D).
  rewrite D. cbn [decode_all]. rewrite Try_phases. destruct (inp_bounds _ _ _ I1) as [B1 B2].
  destruct (ReadCode_spec t1 ei EndOfStream iz ez _ _ R1 ltac:(unfold is_code, EndOfStream; lia) EZ I1) as (t2 & RC & R2 & _).
  rewrite (ReadCode_not_end _ _ _ RC B1 B2), RC. cbn [dbind].
  change (EndOfStream =? EndOfStream) with true. cbv iota. cbn [dbind]. rewrite app_nil_r.
  eexists. split; [reflexivity|]. apply clear_rel. exact R2.
Qed.
Lemma decode_padded ls : forall t e bs fuel,
  rel t e -> Forall (Forall (fun cm => tmeas_ok (snd cm))) ls -> padded e ls bs -> Forall (fun p => (length p < fuel)%nat) ls ->
  exists t', d_packets fuel t bs = DOk (map (map snd) ls) t'.
Proof.
  induction ls as [|p ls IH]; intros t e bs fuel R Hok He Hf; inversion He as [|? ? b e1 pad ? bs' EP PO PS]; subst.
  - cbn. eauto.
  - apply Forall_cons_1 in Hok as [Hp Hok]. apply Forall_cons_1 in Hf as [Hf1 Hf].
    destruct (decode_packet_padded t e p b e1 pad fuel R Hp EP PO Hf1) as (t1 & D & R1).
    destruct (IH t1 e1 bs' fuel R1 Hok PS Hf) as (t2 & D2).
    exists t2. cbn [d_packets]. rewrite D. cbn [dbind]. rewrite D2. reflexivity.
Qed.
Lemma packet_decodes_padded t en l0 b en' pad : rel t en -> wf t -> Forall (fun cm => tmeas_ok (snd cm)) l0 -> e_packet en l0 = Some (b, en') ->
  padding_ok en l0 pad ->
  exists t', decode_all (S (Z.to_nat (8 * len (b ++ pad)))) (SetBuffer t (b ++ pad)) = DOk (map snd l0) t' /\ rel t' en' /\ wf t' /\
    SequenceNumber t' = SequenceNumber t.
Proof.
  intros R W F E P. destruct (decode_packet_padded t en l0 b en' pad (S (length l0)) R F E P ltac:(lia)) as (t1 & D1 & _).
  pose proof (SetBuffer_wf t (b ++ pad) W) as W1. destruct (decode_all_count _ _ _ _ W1 D1) as [_ L].
  replace (bits_left (SetBuffer t (b ++ pad))) with (8 * len (b ++ pad)) in L by (unfold bits_left; cbn -[len]; lia).
  unfold len in L at 1. rewrite map_length in L.
  destruct (decode_packet_padded t en l0 b en' pad (S (Z.to_nat (8 * len (b ++ pad)))) R F E P ltac:(lia)) as (t2 & D2 & R2).
  exists t2. split; [exact D2|]. split; [exact R2|]. destruct (decode_all_count _ _ _ _ W1 D2) as [W2 _]. split; [exact W2|].
  apply decode_all_seq in D2. exact D2.
Qed.
Lemma parseTSSC_next' s ci seq b room en l0 en' pad : is_u16 seq ->
  (seq = 0 /\ en = enc0 \/ seq <> 0 /\ SequenceNumber (decoder_of s ci) = seq /\ rel (decoder_of s ci) en /\ wf (decoder_of s ci)) ->
  Forall (fun cm => tmeas_ok (snd cm)) l0 -> e_packet en l0 = Some (b, en') -> padding_ok en l0 pad -> (length l0 <= room)%nat ->
  exists s' ev, parseTSSC s ci (tssc_body seq (b ++ pad)) room = Ok (s', map (conv (sc_sic (cache_at s ci))) (map snd l0), ev) /\
    delivered ev = [] /\ calm ev /\ rel (decoder_of s' ci) en' /\ wf (decoder_of s' ci) /\ SequenceNumber (decoder_of s' ci) = next_seq seq /\
    (forall i, Bool.eqb (i =? 0) (ci =? 0) = false -> cache_at s' i = cache_at s i).
Proof.
  intros U C F E PO L. destruct (tssc_body_parts seq (b ++ pad) U) as (P0 & (t & P1 & P2) & P3).
  unfold parseTSSC. cbv zeta. rewrite P0. cbn [bind]. change (negb (85 =? 85)) with false. cbv iota. rewrite P1. cbn [bind]. rewrite P2. cbn [bind].
  set (ev := if _ && _ && _ then _ else _). assert (Q : delivered ev = [] /\ calm ev) by (unfold ev; destruct (_ && _ && _); split; try reflexivity; nin). clearbody ev.
  set (d := if (seq =? 0) && _ then NewDecoder else _).
  assert (D : rel d en /\ wf d /\ SequenceNumber d = seq).
  { unfold d, decoder_of in *. destruct C as [(-> & ->)|(N & C1 & C2 & C3)].
    - destruct (sc_decoder (cache_at s ci)); cbn; (split; [apply NewDecoder_rel|split; [apply NewDecoder_wf|reflexivity]]).
    - replace (seq =? 0) with false by lia. cbn [andb]. auto. }
  destruct D as (D1 & D2 & D3). clearbody d. set (s2 := if seq =? 0 then _ else _).
  assert (O2 : forall i, Bool.eqb (i =? 0) (ci =? 0) = false -> cache_at s2 i = cache_at s i).
  { intros i Ni. unfold s2. destruct (seq =? 0).
    - change (cache_at (set_tsscResetRequested ?x false) i) with (cache_at x i). rewrite !cache_at_set, Ni. reflexivity.
    - rewrite cache_at_set, Ni. reflexivity. }
  clearbody s2.
  rewrite D3, Z.eqb_refl. cbn [negb]. rewrite P3. cbn [bind].
  destruct (packet_decodes_padded d en l0 b en' pad D1 D2 F E PO) as (t' & T1 & T2 & T3 & T4).
  rewrite (tssc_loop_ok _ _ _ _ _ _ T1) by (rewrite map_length; exact L).
  eexists _, ev. split; [reflexivity|]. split; [apply Q|]. split; [apply Q|].
  unfold decoder_of. rewrite cache_at_set, Bool.eqb_reflx. cbn [sc_decoder].
  split; [apply rel_seq, T2|]. split; [apply wf_seq, T3|]. cbn [set_seq SequenceNumber]. rewrite T4, D3.
  split; [|intros i Ni; rewrite cache_at_set, Ni; apply O2, Ni].
  unfold next_seq, u16. unfold is_u16 in U. destruct (seq =? 65535) eqn:Q1; [replace seq with 65535 by lia; reflexivity|].
  rewrite Z.mod_small by lia. replace (seq + 1 =? 0) with false by lia. reflexivity.
Qed.

(** ** The two sides agree *)
Definition slot_ok (p : pub) (s : sub) (i : Z) : Prop :=
  (forall rs, p_table p i = Some rs -> sc_sic (cache_at s i) = cache_of rs /\ rs <> [] /\ len rs < 2 ^ 32) /\
  (forall en q, p_stream p i = Some (en, q) ->
     is_u16 q /\ q <> 0 /\ SequenceNumber (decoder_of s i) = q /\ rel (decoder_of s i) en /\ wf (decoder_of s i)).
Definition agree (o : options) (p : pub) (s : sub) : Prop :=
  live s /\ options_of s = o /\ keyIVs s = p_keys p /\ keys_ok (p_keys p) /\ (baseTimes s = p_bases p \/ p_bases p = (0, 0)) /\
  (is_i64 (fst (p_bases p)) /\ is_i64 (snd (p_bases p))) /\ (forall i, i = 0 \/ i = 1 -> slot_ok p s i).
Lemma slot_cache p s s' i : cache_at s' i = cache_at s i -> slot_ok p s i -> slot_ok p s' i.
Proof. unfold slot_ok, decoder_of. intros ->. auto. Qed.
Lemma agree_same o p s s' : same s s' -> good s' -> agree o p s -> agree o p s'.
Proof.
  intros (A1 & A2 & A3 & A4 & A5 & A6) G ((L1 & L2 & L3) & B2 & B3 & B4 & B5 & B6 & B7).
  split; [split; [congruence|split; [congruence|exact G]]|]. split; [congruence|]. split; [congruence|]. split; [exact B4|]. split; [rewrite A5; exact B5|].
  split; [exact B6|]. intros i Hi. apply (slot_cache p s); [apply A6|apply B7, Hi].
Qed.
Lemma table_counts rs : rs <> [] -> len rs < 2 ^ 32 -> Count (cache_of rs) <> 0.
Proof.
  intros Nrs Lrs. rewrite count_ok by exact Lrs. destruct rs as [|r rs']; [contradiction|].
  destruct (nodup (list_eq_dec Z.eq_dec) (map r_guid (r :: rs'))) eqn:E; [|cbn [length]; lia].
  exfalso. assert (In (r_guid r) (nodup (list_eq_dec Z.eq_dec) (map r_guid (r :: rs')))) by (apply nodup_In; left; reflexivity).
  rewrite E in H. exact H.
Qed.
Lemma room_length pool {A} (l : list A) : length (destination pool (len l)) = length l.
Proof. pose proof (destination_length pool (len l) (len_nonneg l)) as D. unfold len in *. lia. Qed.

Lemma process_response e pool s code cmd z d : live s -> length z = 4%nat ->
  processServerResponse e pool s (response code cmd z d) = dispatch e pool s code cmd d.
Proof.
  intros (C & V & _) Lz. destruct (response_data code cmd z d Lz) as [D1 D2]. rewrite process_eq by exact D2. rewrite validate_spec, V, D1. reflexivity.
Qed.
Lemma publishes_step e o p packet cs p' s pool : cbc_ok e -> bytes_ok packet -> agree o p s -> publishes e o p packet cs p' ->
  exists s' ev, processServerResponse e pool s packet = Ok (s', ev) /\ agree o p' s' /\ Forall2 arrives cs (delivered ev) /\ calm ev.
Proof.
  intros Bc Bp (L & B2 & B3 & B4 & B5 & B6 & B7) P. pose proof L as (C & V & G).
  destruct P as [cmd z slot rs body Lz Sl T|cmd z index b0 b1 Lz I0 I1|cmd z first k0 k1 Lz K0 K1|
                 cmd z slot odd rs ss padding data Lz Sl T Fs Ls cfg Se|cmd z slot odd rs en q l b en' padding data Lz Sl T St Fl Ll E PO Se|code cmd z d n Lz N4 N Ln];
    rewrite process_response by assumption.
  - assert (VO : o_version o = Version s) by (rewrite <- B2; reflexivity). rewrite VO in *.
    assert (U : is_cache_update e s slot rs body).
    { destruct T as (declared & owner & extra & T). exists declared, owner, extra. cbv zeta in *. rewrite <- B2 in T. tauto. }
    assert (NR : rs <> [] /\ len rs < 2 ^ 32) by (destruct T as (declared & owner & extra & T); cbv zeta in T; tauto).
    destruct (handle_cache_update e s slot rs body G C U) as (s' & H & H1 & _ & H3 & H4 & H5).
    change (dispatch e pool s 0x83 cmd) with (handleUpdateSignalIndexCache e s). eexists s', _. split; [exact H|].
    split; [|split; [destruct (1 <? Version s); constructor|destruct (1 <? Version s); nin]].
    unfold keep, fixed in H4.
    assert (K1 : connected s' = true) by congruence. assert (K2 : validated s' = true) by congruence.
    assert (K3 : options_of s' = o) by (rewrite <- B2; unfold options_of; congruence).
    assert (K4 : keyIVs s' = p_keys p) by congruence. assert (K5 : baseTimes s' = baseTimes s) by congruence.
    split; [split; [exact K1|split; [exact K2|exact H5]]|]. split; [exact K3|]. split; [exact K4|]. split; [exact B4|]. split; [cbn [p_bases]; rewrite K5; exact B5|].
    split; [exact B6|]. intros i Hi. destruct (Z.eq_dec i slot) as [->|Ni].
    + unfold slot_ok, put. cbn [p_table p_stream]. rewrite Z.eqb_refl. split; [|discriminate]. intros rs' [= <-]. rewrite H1. split; [reflexivity|exact NR].
    + assert (Si : slot_ok p s' i) by (apply (slot_cache p s); [apply H3; destruct Sl as [->|[-> _]], Hi as [->| ->]; cbn; congruence|apply B7, Hi]).
      unfold slot_ok, put in *. cbn [p_table p_stream]. replace (i =? slot) with false by lia. exact Si.
  - change (dispatch e pool s 0x84 cmd) with (handleUpdateBaseTimes s).
    unfold handleUpdateBaseTimes, base_time_message, be_u32, be_u64. rewrite be_get_put. cbn [bind]. cbv zeta.
    rewrite slice_from_at by (unfold len; rewrite be_put_length; reflexivity). cbn [bind]. rewrite be_get_put. cbn [bind].
    rewrite app_assoc. rewrite slice_from_at by (rewrite len_app; unfold len; rewrite !be_put_length; reflexivity). cbn [bind].
    rewrite <- (app_nil_r (be_put 8 (b1 mod 2 ^ 64))). rewrite be_get_put. cbn [bind]. change (8 * Z.of_nat 8) with 64.
    assert (I : forall x, is_i64 x -> i64 ((x mod 2 ^ 64) mod 2 ^ 64) = x) by (intros x; unfold is_i64, i64; intros H; lia).
    rewrite !I by assumption.
    destruct (i32 _ =? 0); (eexists _, _; split; [reflexivity|]; split; [|split; [constructor|nin]]; split; [split; [exact C|split; [exact V|exact G]]|];
      split; [exact B2|]; split; [exact B3|]; split; [exact B4|]; split; [left; reflexivity|]; split; [split; assumption|]; exact B7).
  - change (dispatch e pool s 0x85 cmd) with (handleUpdateCipherKeys s). rewrite cipher_ok.
    + eexists _, _. split; [reflexivity|]. split; [|split; [constructor|nin]]. split; [split; [exact C|split; [exact V|exact G]]|].
      split; [exact B2|]. split; [destruct k0, k1; reflexivity|]. split; [split; assumption|]. split; [exact B5|]. split; [exact B6|exact B7].
    + unfold cipher_message, blob. unfold key_ok in *.
      change (first :: ?x) with ([first] ++ x). rewrite !len_app.
      assert (B : forall x, len (be_put 4 x) = 4) by (intros x; unfold len; rewrite be_put_length; reflexivity). rewrite !B. change (len [first]) with 1. lia.
  - change (dispatch e pool s 0x82 cmd) with (handleDataPacket e pool s).
    destruct (B7 slot Sl) as (T1 & _). destruct (T1 rs T) as (T2 & T3 & T4).
    rewrite (handleDataPacket_sealed e pool s false slot odd (len ss) (concat (map (encode_sample cfg) ss) ++ padding) data Sl);
      [|unfold is_u32; pose proof (len_nonneg ss); lia|rewrite B3; exact B4|rewrite B3; exact Se].
    unfold parseCompactMeasurements. cbv zeta. rewrite T2. replace (Count (cache_of rs) =? 0) with false by (pose proof (table_counts rs T3 T4); lia).
    rewrite room_length. unfold parseCompact.
    destruct (parse_stream' (signalID_of (cache_of rs)) (s_IncludeTime (subscription s)) (s_UseMillisecondResolution (subscription s)) (baseTimes s) (p_bases p) ss []
                padding B5 Fs (proj1 B6) (proj2 B6)) as (ms & P & R). cbn [app] in P. change (len []) with 0 in P.
    unfold cfg. rewrite <- B2. cbn [o_time o_milliseconds options_of]. rewrite (encode_ext (table_signal rs) (signalID_of (cache_of rs))).
    unfold bytes in P |- *. rewrite P. cbn [bind done app]. eexists _, _. split; [reflexivity|].
    split; [|split; [|nin]].
    + split; [split; [exact C|split; [exact V|exact G]]|]. split; [reflexivity|]. split; [exact B3|]. split; [exact B4|]. split; [exact B5|]. split; [exact B6|exact B7].
    + cbn [delivered flat_map app]. constructor; [|constructor]. cbn [arrives].
      assert (LE : length ss = length ms) by (eapply Forall2_length, R).
      replace (len ss) with (len ms) by (unfold len; lia). rewrite destination_exact.
      apply (received_ext (signalID_of (cache_of rs))); [|exact R]. intros i. apply signalID_table, T4.
  - change (dispatch e pool s 0x82 cmd) with (handleDataPacket e pool s).
    destruct (B7 slot Sl) as (T1 & S1). destruct (T1 rs T) as (T2 & T3 & T4).
    rewrite (handleDataPacket_sealed e pool s true slot odd (len l) (tssc_body q (b ++ padding)) data Sl);
      [|unfold is_u32; pose proof (len_nonneg l); lia|rewrite B3; exact B4|rewrite B3; exact Se].
    rewrite room_length.
    assert (Q : is_u16 q /\ (q = 0 /\ en = enc0 \/ q <> 0 /\ SequenceNumber (decoder_of s slot) = q /\ rel (decoder_of s slot) en /\ wf (decoder_of s slot))).
    { destruct St as [[= -> ->]|St]; [split; [unfold is_u16; lia|auto]|]. destruct (S1 en q St) as (X1 & X2). split; [exact X1|right; exact X2]. }
    destruct Q as (Q1 & Q2).
    destruct (parseTSSC_next' s slot q b (length l) en l en' padding Q1 Q2 Fl E PO (le_n _)) as (s1 & ev1 & P & D1 & D2 & D3 & D4 & D5 & D6).
    rewrite P. cbn [bind done]. pose proof (parseTSSC_mask _ _ _ _ _ _ _ P) as M. pose proof (parseTSSC_sic _ _ _ _ _ _ _ P) as SI.
    eexists _, _. split; [reflexivity|]. split; [|split].
    + split; [split; [|split]|].
      * change (connected (mask_data s1) = true). rewrite M. exact C.
      * change (validated (mask_data s1) = true). rewrite M. exact V.
      * apply (good_mask s); [|exact G]. change (mask_wb (mask_data s1) = mask_wb (mask_data s)). congruence.
      * split; [change (options_of (mask_data s1) = o); rewrite M; exact B2|].
        split; [change (keyIVs (mask_data s1) = p_keys p); rewrite M; exact B3|]. split; [exact B4|].
        split; [change (baseTimes (mask_data s1) = p_bases p \/ p_bases p = (0, 0)); rewrite M; exact B5|]. split; [exact B6|].
        intros i Hi. apply (slot_cache _ s1); [reflexivity|]. unfold slot_ok, put. cbn [p_table p_stream]. split.
        -- intros rs' T'. rewrite SI. apply (proj1 (B7 i Hi) rs' T').
        -- intros en0 q0. destruct (Z.eqb_spec i slot) as [->|Ni].
           ++ intros [= <- <-]. destruct (next_seq_range q Q1). auto.
           ++ intros S'. destruct (B7 i Hi) as (_ & X). unfold decoder_of. rewrite D6 by (destruct Sl as [->| ->], Hi as [->| ->]; cbn; congruence). apply X, S'.
    + rewrite delivered_app, D1. cbn [delivered flat_map app]. constructor; [|constructor]. cbn [arrives].
      rewrite T2. replace (len l) with (len (map (conv (cache_of rs)) (map snd l))) by (unfold len; rewrite !map_length; reflexivity).
      rewrite destination_exact. apply map_ext. intros m. unfold conv. rewrite signalID_table by exact T4. reflexivity.
    + apply calm_app; [exact D2|nin].
  - assert (VO : o_version o = Version s) by (rewrite <- B2; reflexivity). rewrite VO in *.
    destruct (dispatch_crash e pool s code cmd d n G N) as (_ & X). destruct (X Ln) as ((s' & ev) & D). exists s', ev. split; [exact D|].
    assert (Bd : bytes_ok d) by (rewrite <- (proj1 (response_data code cmd z d Lz)); apply bytes_ok_skipn', Bp).
    pose proof (dispatch_good e pool s code cmd d s' ev Bd Bc G D) as (G' & _).
    apply (other_same e pool s code cmd d n s' ev N N4) in D as (D1 & D2 & D3). rewrite D3. split; [|split; [constructor|exact D2]].
    apply (agree_same o p s s' D1 G'). split; [exact L|]. auto 8.
Qed.

(** ** Whole connections *)
Lemma act_session e o p s pool packet cs p' a : cbc_ok e -> bytes_ok packet -> agree o p s -> publishes e o p packet cs p' ->
  a = APacket pool packet \/ a = AUdp pool packet ->
  exists s' ev, act e s a = Ok (s', ev) /\ agree o p' s' /\ Forall2 arrives cs (delivered ev) /\ calm ev.
Proof.
  intros Bc Bp A P [-> | ->].
  - destruct A as ((C & V & G) & A). rewrite act_packet by assumption. apply (publishes_step e o p packet cs p'); try assumption.
    apply (agree_same o p s); [repeat split|exact G|]. split; [split; [exact C|split; [exact V|exact G]]|exact A].
  - destruct A as ((C & V & G) & A). cbn [act]. rewrite C. unfold receiveUdp. apply (publishes_step e o p packet cs p'); try assumption.
    apply (agree_same o p s); [repeat split|exact G|]. split; [split; [exact C|split; [exact V|exact G]]|exact A].
Qed.
Lemma run_agree e o acts : forall p s cs, cbc_ok e -> Forall packet_ok acts -> forallb in_session acts = true ->
  len (subscribe_payload (subscription s)) <= 32763 -> agree o p s -> publication e o p (packets_of acts) cs ->
  exists s' ev, run e s acts = Ok (s', ev) /\ Forall2 arrives cs (delivered ev) /\ calm ev.
Proof.
  induction acts as [|a acts IH]; intros p s cs Bc F S Ls A P.
  - inversion P; subst. exists s, []. split; [reflexivity|]. split; [constructor|apply calm_nil].
  - inversion F as [|? ? Fa F']; subst. cbn [forallb] in S. apply andb_true_iff in S as (Sa & S').
    assert (X : exists s1 ev1 p1 c1 c2, cs = c1 ++ c2 /\ act e s a = Ok (s1, ev1) /\ agree o p1 s1 /\ Forall2 arrives c1 (delivered ev1) /\ calm ev1 /\
                  subscription s1 = subscription s /\ publication e o p1 (packets_of acts) c2).
    { destruct (packet_of a) as [packet|] eqn:E.
      - unfold packets_of in P. cbn [flat_map] in P. rewrite E in P. fold (packets_of acts) in P. cbn [app] in P.
        inversion P as [|? ? c1 p1 ? c2 P1 P2]; subst. unfold packet_ok in Fa. rewrite E in Fa.
        assert (W : exists pool, a = APacket pool packet \/ a = AUdp pool packet) by (destruct a; try discriminate; cbn [packet_of] in E; injection E as ->; eauto).
        destruct W as (pool & W). destruct (act_session e o p s pool packet c1 p1 a Bc Fa A P1 W) as (s1 & ev1 & H1 & H2 & H3 & H4).
        exists s1, ev1, p1, c1, c2. split; [reflexivity|]. split; [exact H1|]. split; [exact H2|]. split; [exact H3|]. split; [exact H4|]. split; [|exact P2].
        assert (PK : packet_ok a) by (unfold packet_ok; rewrite E; exact Fa).
        pose proof (act_fixed e s a s1 ev1 PK Bc H1) as Fx. unfold fixed in Fx. congruence.
      - unfold packets_of in P. cbn [flat_map] in P. rewrite E in P. fold (packets_of acts) in P. cbn [app] in P.
        assert (G : good s) by apply A.
        destruct a as [d|pool q|pool q| | |]; try discriminate.
        + destruct (subscribe_ok s G Ls) as (s1 & ev1 & H1 & H2 & H3 & H4 & H5 & H6). exists s1, ev1, p, [], cs.
          split; [reflexivity|]. split; [exact H1|]. split; [exact (agree_same o p s s1 H2 H6 A)|]. rewrite H5. split; [constructor|]. auto.
        + destruct (unsubscribe_ok s G) as (s1 & ev1 & H1 & H2 & H4 & H5 & H6). exists s1, ev1, p, [], cs.
          split; [reflexivity|]. split; [exact H1|]. split; [exact (agree_same o p s s1 H2 H6 A)|]. rewrite H5. split; [constructor|]. split; [exact H4|].
          split; [|exact P]. apply Unsubscribe_local in H1. change (subscription (mask_local s1) = subscription (mask_local s)). congruence. }
    destruct X as (s1 & ev1 & p1 & c1 & c2 & -> & H1 & H2 & H3 & H4 & H5 & H6).
    destruct (IH p1 s1 c2 Bc F' S') as (s' & ev & R & D & K); try assumption; [rewrite H5; exact Ls|].
    exists s', (ev1 ++ ev). cbn [run]. rewrite H1. cbn [bind]. unfold emit. rewrite R. cbn [bind]. split; [reflexivity|].
    rewrite delivered_app. split; [apply Forall2_app; assumption|apply calm_app; assumption].
Qed.
(** The first response of a connection. *)
Lemma first_response e s0 s ev0 pool code cmd z d : cbc_ok e -> reachable e s0 -> connected s0 = false -> act e s0 (AConnect true) = Ok (s, ev0) ->
  plausible code cmd -> length z = 4%nat -> bytes_ok (response code cmd z d) -> len (response code cmd z d) <= 8198 ->
  exists s1 ev1, act e s (APacket pool (response code cmd z d)) = Ok (s1, ev1) /\ agree (options_of s) pub0 s1 /\ delivered ev1 = [] /\ calm ev1 /\
    subscription s1 = subscription s.
Proof.
  intros Bc R C0 A PL Lz Bp Ln. cbn [act] in A. pose proof (reachable_good e s0 Bc R) as G0. pose proof (connect_good s0 true s ev0 G0 A) as (G & _).
  destruct (connect_eq s0 true s ev0 A C0) as (C & _ & _ & _ & _ & _ & _ & _ & _ & _ & K & _).
  set (sv := set_validated s true).
  assert (X : exists n m, act e s (APacket pool (response code cmd z d)) = dispatch e pool (set_validated (set_cmdBytes s n) m) code cmd d /\ m = true).
  { cbn [act]. rewrite C. unfold receive, readPayloadHeader. cbv zeta. change (validated (set_cmdBytes s _)) with (validated s). change (Version (set_cmdBytes s _)) with (Version s).
    assert (V : forall x, validated x = true -> set_validated x true = x) by (intros [] ; cbn; intros ->; reflexivity).
    destruct (response_data code cmd z d Lz) as [D1 D2].
    destruct (validated s) eqn:VV; cbn [negb].
    - unfold readPacket. rewrite process_eq by exact D2. rewrite validate_spec. change (validated (set_cmdBytes (set_cmdBytes s ?x) ?n)) with (validated s). rewrite VV. rewrite D1.
      eexists _, true. split; [|reflexivity]. rewrite V by exact VV. reflexivity.
    - destruct (2 <=? Version s) eqn:V2.
      + unfold maxInitialPacketSize, responseHeaderSize. replace (len (response code cmd z d) <=? 6 + 8192) with true by lia.
        unfold readPacket. rewrite process_eq by exact D2. rewrite validate_spec. change (validated (set_cmdBytes (set_cmdBytes s ?x) ?n)) with (validated s). rewrite VV.
        change (Version (set_cmdBytes (set_cmdBytes s ?x) ?n)) with (Version s). rewrite V2. destruct (response_code code cmd z d) as (E1 & E2). rewrite E1, E2.
        replace ((code =? 255) || (cmd =? 6) && ((code =? 128) || (code =? 129))) with true by (symmetry; apply plausible_dec, PL).
        rewrite andb_false_r. rewrite D1. eexists _, true. split; reflexivity.
      + unfold readPacket. rewrite process_eq by exact D2. rewrite validate_spec. change (validated (set_cmdBytes (set_validated ?x true) ?n)) with true.
        rewrite D1. eexists _, true. split; reflexivity. }
  destruct X as (n & m & -> & ->). set (s2 := set_validated (set_cmdBytes s n) true).
  assert (G2 : good s2) by (apply (good_mask s); [reflexivity|exact G]).
  assert (N : data_needed (Version s2) code = Some 0 /\ code <> 0x84) by (destruct PL as [->|(_ & [->| ->])]; split; try reflexivity; discriminate).
  destruct N as (N & N4). destruct (dispatch_crash e pool s2 code cmd d 0 G2 N) as (_ & Y). destruct (Y (len_nonneg d)) as ((s1 & ev1) & D).
  exists s1, ev1. split; [exact D|].
  assert (Bd : bytes_ok d) by (rewrite <- (proj1 (response_data code cmd z d Lz)); apply bytes_ok_skipn', Bp).
  pose proof (dispatch_good e pool s2 code cmd d s1 ev1 Bd Bc G2 D) as (G1 & _). pose proof (dispatch_mask e pool s2 code cmd d s1 ev1 Bd Bc D) as (M & _).
  apply (other_same e pool s2 code cmd d 0 s1 ev1 N N4) in D as (D1 & D2 & D3).
  split; [|split; [exact D3|split; [exact D2|]]].
  - apply (agree_same _ _ s2 s1 D1 G1). split; [split; [exact C|split; [reflexivity|exact G2]]|]. split; [reflexivity|]. split; [exact K|]. split; [exact I|].
    split; [right; reflexivity|]. split; [split; vm_compute; split; congruence|]. intros i _. split; discriminate.
  - exact (mask_field subscription _ _ (fun x => eq_refl) M).
Qed.
Lemma end_to_end e s0 s ev0 pool code cmd z d acts cs : cbc_ok e -> reachable e s0 -> connected s0 = false -> act e s0 (AConnect true) = Ok (s, ev0) ->
  plausible code cmd -> length z = 4%nat -> bytes_ok (response code cmd z d) -> len (response code cmd z d) <= 8198 ->
  len (subscribe_payload (subscription s)) <= 32763 -> Forall packet_ok acts -> forallb in_session acts = true ->
  publication e (options_of s) pub0 (packets_of acts) cs ->
  exists s' ev, run e s (APacket pool (response code cmd z d) :: acts) = Ok (s', ev) /\ Forall2 arrives cs (delivered ev) /\ ~ In EvTerminate ev.
Proof.
  intros Bc R C0 A PL Lz Bp Ln Ls F S P.
  destruct (first_response e s0 s ev0 pool code cmd z d Bc R C0 A PL Lz Bp Ln) as (s1 & ev1 & H1 & H2 & H3 & H4 & H5).
  destruct (run_agree e (options_of s) acts pub0 s1 cs Bc F S) as (s' & ev & H6 & H7 & H8); try assumption; [rewrite H5; exact Ls|].
  exists s', (ev1 ++ ev). cbn [run]. rewrite H1. cbn [bind]. unfold emit. rewrite H6. cbn [bind]. split; [reflexivity|].
  rewrite delivered_app, H3. split; [exact H7|apply calm_app; assumption].
Qed.

(** ** The same over a TCP connection *)
(** The actions of the reading goroutine: packet [k] with the [k]-th pool slice. *)
Fixpoint reads (pools : nat -> option (list measurement)) (ps : list bytes) : list action :=
  match ps with [] => [] | p :: r => APacket (pools O) p :: reads (fun n => pools (S n)) r end.
Lemma reads_handled e ps : forall s ev0 pools s' ev, cbc_ok e -> Forall bytes_ok ps -> connected s = true ->
  run e s (reads pools ps) = Ok (s', ev) -> calm ev ->
  exists pools', handle_all on_header (on_packet e) (mkChan s ev0 pools) ps = Continue (mkChan s' (ev0 ++ ev) pools') /\ connected s' = true.
Proof.
  induction ps as [|p ps IH]; intros s ev0 pools s' ev Bc F C R K.
  - cbn in R. injection R as <- <-. exists pools. rewrite app_nil_r. auto.
  - cbn [reads] in R. apply run_cons in R as (s1 & ev1 & ev2 & A & R & ->). inversion F as [|? ? Fp F']; subst.
    assert (C1 : connected s1 = true) by (destruct (act_conn e s (APacket (pools O) p) s1 ev1 Fp Bc A) as (X & _); cbn in X; congruence).
    cbn [act] in A. rewrite C in A. unfold receive in A. cbn [handle_all]. unfold on_header at 1. cbn [ch_sub ch_events ch_pools].
    destruct (readPayloadHeader s (len p)) as [sh go]. destruct go.
    + unfold on_packet at 1. cbn [ch_sub ch_events ch_pools]. rewrite A.
      destruct (IH s1 (ev0 ++ ev1) (fun n => pools (S n)) s' ev2 Bc F' C1 R) as (pools' & H & Cx); [intros X; apply K, in_or_app; auto|].
      exists pools'. rewrite H, app_assoc. auto.
    + exfalso. unfold done in A. injection A as <- <-. apply K. cbn. auto.
Qed.
Lemma reads_packets pools ps : packets_of (reads pools ps) = ps /\ forallb in_session (reads pools ps) = true.
Proof.
  revert pools. induction ps as [|p ps IH]; intros pools; [split; reflexivity|]. cbn [reads forallb in_session]. destruct (IH (fun n => pools (S n))) as (E1 & E2).
  split; [|rewrite E2; reflexivity]. unfold packets_of in *. cbn [flat_map packet_of app]. rewrite E1. reflexivity.
Qed.
Lemma reads_ok pools ps : Forall bytes_ok ps -> Forall packet_ok (reads pools ps).
Proof. intros F. revert pools. induction F as [|p ps Hp F IH]; intros pools; constructor; [exact Hp|apply IH]. Qed.
Lemma channel_rest {S} (header : S -> Z -> after S) process fuel st r :
  nonempty_chunks (under r) -> bytes_ok (stream r) -> (forall n, exists st1, header st n = Continue st1) ->
  len (stream r) < 4 \/ len (stream r) < 4 + be_val (firstn 4 (stream r)) ->
  channel_loop header process (Datatypes.S fuel) st r = Stop st \/ exists n st1, header st n = Continue st1 /\ channel_loop header process (Datatypes.S fuel) st r = Stop st1.
Proof.
  intros Hs HB HH H. cbn [channel_loop]. unfold payloadHeaderSize.
  pose proof (ReadFull_spec r 4 Hs ltac:(lia)) as A.
  destruct (ReadFull r 4) as [[h r1]|]; [|left; reflexivity].
  destruct A as (A1 & A2 & A3 & A4). change (Z.to_nat 4) with 4%nat in *.
  destruct (HH (be_val h)) as (st1 & E). rewrite E. right. exists (be_val h), st1. split; [exact E|].
  assert (V : 0 <= be_val h) by (rewrite A2; apply be_val_nonneg, bytes_ok_firstn', HB).
  pose proof (ReadFull_spec r1 (be_val h) A4 V) as B.
  destruct (ReadFull r1 (be_val h)) as [[p r2]|]; [|reflexivity].
  exfalso. destruct B as (B1 & _). rewrite A3 in B1. unfold len in *. rewrite skipn_length in B1.
  rewrite A2 in B1. lia.
Qed.
Lemma over_tcp e s0 s ev0 code cmd z d ps cs pools r rest fuel : cbc_ok e -> reachable e s0 -> connected s0 = false -> act e s0 (AConnect true) = Ok (s, ev0) ->
  plausible code cmd -> length z = 4%nat -> len (response code cmd z d) <= 8198 ->
  len (subscribe_payload (subscription s)) <= 32763 ->
  let first := response code cmd z d in
  Forall (fun p => bytes_ok p /\ len p < 2 ^ 32) (first :: ps) -> publication e (options_of s) pub0 ps cs ->
  nonempty_chunks (under r) -> stream r = concat (map packet_wire (first :: ps)) ++ rest ->
  bytes_ok rest -> len rest < 4 \/ len rest < 4 + be_val (firstn 4 rest) -> (length ps + 1 < fuel)%nat ->
  exists st, read_connection e fuel (mkChan s [] pools) r = Stop st /\ Forall2 arrives cs (delivered (ch_events st)) /\ ~ In EvTerminate (ch_events st).
Proof.
  intros Bc R C0 A PL Lz Ln Ls first F P NC E Br I Fu.
  assert (F1 : Forall bytes_ok (first :: ps)) by (revert F; apply Forall_impl; intros x (X & _); exact X).
  assert (F2 : Forall (fun p => len p < 2 ^ 32) (first :: ps)) by (revert F; apply Forall_impl; intros x (_ & X); exact X).
  inversion F1 as [|? ? Ff Fp]; subst.
  destruct (reads_packets (fun n => pools (S n)) ps) as (RP & RS).
  destruct (end_to_end e s0 s ev0 (pools O) code cmd z d (reads (fun n => pools (S n)) ps) cs) as (s' & ev & Run & Del & Calm); try assumption.
  { apply reads_ok, Fp. } { rewrite RP. exact P. }
  cbn [act] in A. destruct (connect_eq s0 true s ev0 A C0) as (C & _).
  change (APacket (pools O) (response code cmd z d) :: reads (fun n => pools (S n)) ps) with (reads pools (first :: ps)) in Run.
  destruct (reads_handled e (first :: ps) s [] pools s' ev Bc F1 C Run Calm) as (pools' & H & C').
  destruct (channel_packets on_header (on_packet e) (first :: ps) fuel (mkChan s [] pools) r rest NC F2 E) as (r' & S' & N' & L).
  { change (S (length ps) <= fuel)%nat. lia. }
  unfold read_connection. rewrite L, H. cbn [app].
  assert (Vs : validated s' = true).
  { cbn [reads] in Run. cbn [run] in Run. destruct (first_response e s0 s ev0 (pools O) code cmd z d Bc R C0 A PL Lz Ff Ln) as (s1 & ev1 & H1 & H2 & _).
    unfold first in Run. rewrite H1 in Run. cbn [bind] in Run. unfold emit in Run.
    destruct (run e s1 (reads (fun n => pools (S n)) ps)) as [[s2 ev2]| |] eqn:R2; cbn [bind] in Run; try discriminate. injection Run as -> _.
    assert (VR : forall acts sa sb evs, Forall packet_ok acts -> forallb in_session acts = true -> validated sa = true -> run e sa acts = Ok (sb, evs) -> validated sb = true).
    { induction acts as [|a acts IHa]; intros sa sb evs FA SA VA RA; [cbn in RA; injection RA as <- _; exact VA|].
      apply run_cons in RA as (sc & e1 & e2 & A1 & R1 & _). inversion FA; subst. cbn [forallb] in SA. apply andb_true_iff in SA as (SA & SA').
      eapply IHa; [eassumption..| |exact R1].
      destruct a as [dd|pl q|pl q| | |]; try discriminate; cbn [act] in A1.
      - destruct (connected sa) eqn:CA; [|injection A1 as <- _; exact VA]. unfold receive, readPayloadHeader in A1. cbv zeta in A1.
        change (validated (set_cmdBytes sa ?n)) with (validated sa) in A1. rewrite VA in A1. cbn [negb] in A1.
        unfold readPacket in A1. match type of A1 with processServerResponse _ _ ?x _ = _ => assert (Vx : validated x = true) by exact VA end. eapply process_validated; [| |exact Vx|exact A1]; assumption.
      - destruct (connected sa) eqn:CA; [|injection A1 as <- _; exact VA]. unfold receiveUdp in A1. match type of A1 with processServerResponse _ _ ?x _ = _ => assert (Vx : validated x = true) by exact VA end. eapply process_validated; [| |exact Vx|exact A1]; assumption.
      - apply Subscribe_ref in A1 as (_ & A1 & _). congruence.
      - apply Unsubscribe_ref in A1 as (_ & A1 & _). congruence. }
    eapply VR; [| | |exact R2]; [apply reads_ok, Fp|exact RS|apply H2]. }
  assert (HH : forall n, on_header (mkChan s' ev pools') n = Continue (mkChan (set_cmdBytes s' (u64 (cmdBytes s' + payloadHeaderSize))) ev pools')).
  { intros n. unfold on_header, readPayloadHeader. cbn [ch_sub ch_events ch_pools]. cbv zeta. change (validated (set_cmdBytes s' ?n)) with (validated s'). rewrite Vs. reflexivity. }
  match goal with |- context [channel_loop _ _ ?k _ _] => assert (Q : exists m, k = S m) by (exists (fuel - length ps - 2)%nat; change (fuel - S (length ps) = S (fuel - length ps - 2))%nat; lia) end.
  destruct Q as (m & ->). rewrite <- S' in I, Br.
  destruct (channel_rest on_header (on_packet e) m (mkChan s' ev pools') r' N' Br) as [->|(n & st1 & E1 & ->)].
  - intros n. eexists. apply HH.
  - exact I.
  - eexists. split; [reflexivity|]. auto.
  - exists st1. split; [reflexivity|]. rewrite HH in E1. injection E1 as <-. auto.
Qed.
