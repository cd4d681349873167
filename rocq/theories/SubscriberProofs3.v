(** Proofs about the subscriber model: TSSC packets and what is delivered. *)
From stdpp Require Import gmap.
From Coq Require Import Lia ZArith.
From Verif Require Import Base BaseProofs TicksModel GuidModel FormatModel FormatProofs CompactModel CompactSpec CompactProofs CacheModel CacheSpec CacheProofs FrameModel FrameSpec FrameProofs TsscModel TsscSpec TsscCode TsscCode2 TsscRead TsscProofs TsscProofs2 TsscProofs3 SubscriberModel SubscriberSpec SubscriberProofs SubscriberProofs2.
Open Scope Z_scope.
Ltac Zify.zify_post_hook ::= Z.div_mod_to_equations.

(** ** Decoding does not touch the sequence number *)
Definition ks {A} (t : td) (x : dres A) : Prop :=
  match x with DOk _ t' | DErr t' => SequenceNumber t' = SequenceNumber t | DPanic => True end.
Lemma ks_bind {A B} t (x : dres A) (k : A -> td -> dres B) : ks t x -> (forall a t', ks t' (k a t')) -> ks t (dbind x k).
Proof.
  unfold ks. intros H K. destruct x as [a t'|t'|]; cbn [dbind]; auto. specialize (K a t'). destruct (k a t'); congruence.
Qed.
Lemma ks_ok {A} (a : A) t t' : SequenceNumber t' = SequenceNumber t -> ks t (DOk a t').
Proof. auto. Qed.
Lemma readBit_ks t : ks t (readBit t).
Proof. unfold readBit. destruct (bitStreamCount t =? 0); [unfold data_at; destruct (idx _ _)|]; cbn; auto. Qed.
Ltac ksb lem := apply ks_bind; [apply lem|].
Lemma readBits4_ks t : ks t (readBits4 t).
Proof. unfold readBits4. repeat (ksb readBit_ks; intros ? ?). apply ks_ok. reflexivity. Qed.
Lemma readBits5_ks t : ks t (readBits5 t).
Proof. unfold readBits5. repeat (ksb readBit_ks; intros ? ?). apply ks_ok. reflexivity. Qed.
Lemma readCodeBits_ks c t : ks t (readCodeBits c t).
Proof.
  unfold readCodeBits.
  repeat match goal with
  | |- ks _ (if ?b then _ else _) => destruct b
  | |- ks _ (dbind (readBit _) _) => ksb readBit_ks; intros ? ?
  | |- _ => apply readBits5_ks
  | |- _ => reflexivity
  end.
Qed.
Lemma set_point_seq t k p : SequenceNumber (set_point t k p) = SequenceNumber t.
Proof. destruct k; reflexivity. Qed.
Lemma ReadCode_ks t : ks t (ReadCode t).
Proof.
  unfold ReadCode. ksb readCodeBits_ks. intros code t1. cbv zeta. destruct (updatedCodeStatistics _ _); cbn [ks]; auto using set_point_seq.
Qed.
Lemma xorPayload_ks nib k t : ks t (xorPayload nib k t).
Proof.
  unfold xorPayload. apply ks_bind; [destruct nib; [apply readBits4_ks|reflexivity]|]. intros b t1. cbv zeta. unfold data_at.
  destruct k as [|[|[|[|k]]]]; [reflexivity|..];
  repeat match goal with |- context [idx ?l ?i] => destruct (idx l i) end; cbn [ks]; reflexivity || exact I.
Qed.
Lemma lift7_ks t r : ks t (lift7 t r).
Proof. unfold lift7. destruct r as [[? ?]| |]; cbn; auto. Qed.
Lemma decodePointID_ks code t : ks t (decodePointID code t).
Proof.
  unfold decodePointID.
  repeat match goal with |- context [if ?b then _ else _] => destruct b; [apply ks_bind; [apply xorPayload_ks|intros ? ?; apply ks_ok, set_point_seq]|] end.
  reflexivity.
Qed.
Lemma decodeStateFlags_ks code id t : ks t (decodeStateFlags code id t).
Proof.
  unfold decodeStateFlags. apply ks_bind; [destruct (_ =? _); [reflexivity|apply lift7_ks]|]. intros f t1. apply ks_ok, set_point_seq.
Qed.
Lemma decodeValue_ks code id t : ks t (decodeValue code id t).
Proof.
  unfold decodeValue. cbv zeta.
  do 4 (match goal with |- context [if ?b then _ else _] => destruct b; [apply ks_ok; reflexivity|] end).
  repeat match goal with |- context [if ?b then _ else _] => destruct b; [apply ks_bind; [apply xorPayload_ks|intros ? ?; apply ks_ok, set_point_seq]|] end.
  reflexivity.
Qed.


Lemma saveTimestamp_seq t ts : SequenceNumber (saveTimestamp t ts) = SequenceNumber t.
Proof. unfold saveTimestamp. cbv zeta. repeat match goal with |- context [if ?b then _ else _] => destruct b end; reflexivity. Qed.
Lemma decodeTimestamp_ks code t : ks t (decodeTimestamp code t).
Proof.
  unfold decodeTimestamp. cbv zeta.
  repeat match goal with |- context [if ?b then _ else _] => destruct b; [apply ks_ok, saveTimestamp_seq|] end.
  apply ks_bind; [apply ks_bind; [apply lift7_ks|intros ? ?; apply ks_ok; reflexivity]|intros ? ?; apply ks_ok, saveTimestamp_seq].
Qed.
Lemma TryGet_ks t : ks t (TryGetMeasurement t).
Proof.
  unfold TryGetMeasurement. destruct (_ && _); [reflexivity|]. ksb ReadCode_ks. intros code t1.
  destruct (code =? EndOfStream); [reflexivity|].
  apply ks_bind.
  { destruct (_ <=? _); [|reflexivity]. ksb decodePointID_ks. intros ? ?. ksb ReadCode_ks. intros ? ?. destruct (_ <? _); reflexivity. }
  intros c2 t2. cbv zeta.
  set (id := PrevNextPointID1 _). set (t3 := match points t2 !! id with Some _ => t2 | None => _ end).
  assert (E3 : SequenceNumber t3 = SequenceNumber t2) by (unfold t3; destruct (points t2 !! id); reflexivity).
  assert (KK : forall (A : Type) (x : dres A), ks t3 x -> ks t2 x) by (unfold ks; intros A x; destruct x; congruence).
  apply KK. clearbody t3. clear E3 KK.
  apply ks_bind.
  { destruct (_ <=? _); [|reflexivity]. ksb decodeTimestamp_ks. intros ? ?. ksb ReadCode_ks. intros ? ?. destruct (_ <? _); reflexivity. }
  intros [ts c3] t4. apply ks_bind.
  { destruct (_ <=? _); [|reflexivity]. ksb decodeStateFlags_ks. intros ? ?. ksb ReadCode_ks. intros ? ?. destruct (_ <? _); reflexivity. }
  intros [f c4] t5. ksb decodeValue_ks. intros v t6. reflexivity.
Qed.
Lemma decode_all_seq f : forall t l t', decode_all f t = DOk l t' -> SequenceNumber t' = SequenceNumber t.
Proof.
  induction f as [|f IH]; intros t l t' H; cbn [decode_all] in H; [discriminate|].
  pose proof (TryGet_ks t) as K. destruct (TryGetMeasurement t) as [[m|] t1|t1|]; cbn [dbind ks] in *; try discriminate.
  - destruct (decode_all f t1) as [l1 t2|t2|] eqn:E; cbn [dbind] in H; try discriminate. apply IH in E. congruence.
  - congruence.
Qed.

(** ** The loop over a packet *)
Definition conv (c : sic) (m : tmeas) : measurement := mkMeas (signalID_of c (tm_id m)) (tm_value m) (u64 (tm_time m)) (tm_flags m).
Lemma tssc_loop_ok c f : forall t l t' room, decode_all f t = DOk l t' -> (length l <= room)%nat ->
  tssc_loop f c t room = (map (conv c) l, t', PDone).
Proof.
  induction f as [|f IH]; intros t l t' room H L; cbn [decode_all] in H; [discriminate|]. cbn [tssc_loop].
  destruct (TryGetMeasurement t) as [[m|] t1|t1|]; cbn [dbind] in *; try discriminate.
  - destruct (decode_all f t1) as [l1 t2|t2|] eqn:E; cbn [dbind] in H; try discriminate.
    assert (l = m :: l1) by congruence. assert (t2 = t') by congruence. subst. cbn [length] in L.
    destruct room as [|r]; [lia|]. rewrite (IH _ _ _ r E) by lia. reflexivity.
  - assert (l = []) by congruence. assert (t1 = t') by congruence. subst. reflexivity.
Qed.
Lemma tssc_loop_overflow c f : forall t l t' room, decode_all f t = DOk l t' -> (room < length l)%nat ->
  snd (tssc_loop f c t room) = PPanic.
Proof.
  induction f as [|f IH]; intros t l t' room H L; cbn [decode_all] in H; [discriminate|]. cbn [tssc_loop].
  destruct (TryGetMeasurement t) as [[m|] t1|t1|]; cbn [dbind] in *; try discriminate.
  - destruct (decode_all f t1) as [l1 t2|t2|] eqn:E; cbn [dbind] in H; try discriminate.
    assert (l = m :: l1) by congruence. subst. cbn [length] in L.
    destruct room as [|r]; [reflexivity|]. specialize (IH _ _ _ r E ltac:(lia)).
    destruct (tssc_loop f c t1 r) as [[? ?] ?]. exact IH.
  - assert (l = []) by congruence. subst. cbn in L. lia.
Qed.

Lemma rel_seq t e n : rel t e -> rel (set_seq t n) e.
Proof. intros [H1 H2 H3 H4 H5 H6 H7 H8 H9 H10]. split; assumption. Qed.
Lemma wf_seq t n : wf t -> wf (set_seq t n).
Proof. intros [H1 H2 H3 H4]. split; [exact H1|assumption..]. Qed.
Lemma packet_decodes t en l0 b en' : rel t en -> wf t -> Forall (fun cm => tmeas_ok (snd cm)) l0 -> e_packet en l0 = Some (b, en') ->
  exists t', decode_all (S (Z.to_nat (8 * len b))) (SetBuffer t b) = DOk (map snd l0) t' /\ rel t' en' /\ wf t' /\
    SequenceNumber t' = SequenceNumber t.
Proof.
  intros R W F E. destruct (decode_packet t en l0 b en' (S (length l0)) R F E ltac:(lia)) as (t1 & D1 & _).
  pose proof (SetBuffer_wf t b W) as W1. destruct (decode_all_count _ _ _ _ W1 D1) as [_ L].
  replace (bits_left (SetBuffer t b)) with (8 * len b) in L by (unfold bits_left; cbn -[len]; lia).
  unfold len in L at 1. rewrite map_length in L.
  destruct (decode_packet t en l0 b en' (S (Z.to_nat (8 * len b))) R F E ltac:(lia)) as (t2 & D2 & R2).
  exists t2. split; [exact D2|]. split; [exact R2|]. destruct (decode_all_count _ _ _ _ W1 D2) as [W2 _]. split; [exact W2|].
  apply decode_all_seq in D2. exact D2.
Qed.

(** ** parseTSSC on the wire format *)
Definition decoder_of (s : sub) (ci : Z) : td := match sc_decoder (cache_at s ci) with Some d => d | None => NewDecoder end.
Lemma tssc_body_parts seq b : is_u16 seq ->
  idx (tssc_body seq b) 0 = Ok 85 /\ (exists t, slice_from (tssc_body seq b) 1 = Ok t /\ be_u16 t = Ok seq) /\
  slice_from (tssc_body seq b) 3 = Ok b.
Proof.
  intros U. unfold tssc_body. split; [reflexivity|]. split.
  - exists (be_put 2 seq ++ b). split; [exact (slice_from_app [85] (be_put 2 seq ++ b))|].
    apply be_put_get. unfold is_u16 in U. cbn. lia.
  - change (85 :: be_put 2 seq ++ b) with ((85 :: be_put 2 seq) ++ b). apply slice_from_at.
    unfold len. cbn [length]. rewrite be_put_length. reflexivity.
Qed.
Lemma parseTSSC_stray s ci seq b room : is_u16 seq -> seq <> 0 -> SequenceNumber (decoder_of s ci) <> seq ->
  parseTSSC s ci (tssc_body seq b) room =
  Ok (set_cache s ci (mkScache (sc_sic (cache_at s ci)) (Some (decoder_of s ci))), [], []).
Proof.
  intros U N0 N. destruct (tssc_body_parts seq b U) as (P0 & (t & P1 & P2) & P3).
  unfold parseTSSC. cbv zeta. rewrite P0. cbn [bind]. change (negb (85 =? 85)) with false. cbv iota. rewrite P1. cbn [bind]. rewrite P2. cbn [bind].
  replace (seq =? 0) with false by lia. cbn [andb]. fold (decoder_of s ci).
  replace (SequenceNumber (decoder_of s ci) =? seq) with false by lia. reflexivity.
Qed.
Lemma parseTSSC_next s ci seq b room en l0 en' : is_u16 seq ->
  (seq = 0 /\ en = enc0 \/ seq <> 0 /\ SequenceNumber (decoder_of s ci) = seq /\ rel (decoder_of s ci) en /\ wf (decoder_of s ci)) ->
  Forall (fun cm => tmeas_ok (snd cm)) l0 -> e_packet en l0 = Some (b, en') -> (length l0 <= room)%nat ->
  exists s' ev, parseTSSC s ci (tssc_body seq b) room = Ok (s', map (conv (sc_sic (cache_at s ci))) (map snd l0), ev) /\
    quiet ev /\ rel (decoder_of s' ci) en' /\ wf (decoder_of s' ci) /\ SequenceNumber (decoder_of s' ci) = next_seq seq.
Proof.
  intros U C F E L. destruct (tssc_body_parts seq b U) as (P0 & (t & P1 & P2) & P3).
  unfold parseTSSC. cbv zeta. rewrite P0. cbn [bind]. change (negb (85 =? 85)) with false. cbv iota. rewrite P1. cbn [bind]. rewrite P2. cbn [bind].
  set (ev := if _ && _ && _ then _ else _). assert (Q : quiet ev) by (unfold ev; destruct (_ && _ && _); repeat split). clearbody ev.
  set (d := if (seq =? 0) && _ then NewDecoder else _).
  assert (D : rel d en /\ wf d /\ SequenceNumber d = seq).
  { unfold d, decoder_of in *. destruct C as [(-> & ->)|(N & C1 & C2 & C3)].
    - destruct (sc_decoder (cache_at s ci)); cbn; (split; [apply NewDecoder_rel|split; [apply NewDecoder_wf|reflexivity]]).
    - replace (seq =? 0) with false by lia. cbn [andb]. auto. }
  destruct D as (D1 & D2 & D3). clearbody d. set (s2 := if seq =? 0 then _ else _). clearbody s2.
  rewrite D3, Z.eqb_refl. cbn [negb]. rewrite P3. cbn [bind].
  destruct (packet_decodes d en l0 b en' D1 D2 F E) as (t' & T1 & T2 & T3 & T4).
  rewrite (tssc_loop_ok _ _ _ _ _ _ T1) by (rewrite map_length; exact L).
  eexists _, ev. split; [reflexivity|]. split; [exact Q|].
  unfold decoder_of. rewrite cache_at_set, Bool.eqb_reflx. cbn [sc_decoder].
  split; [apply rel_seq, T2|]. split; [apply wf_seq, T3|]. cbn [set_seq SequenceNumber]. rewrite T4, D3.
  unfold next_seq, u16. unfold is_u16 in U. destruct (seq =? 65535) eqn:Q1; [replace seq with 65535 by lia; reflexivity|].
  rewrite Z.mod_small by lia. replace (seq + 1 =? 0) with false by lia. reflexivity.
Qed.

(** ** Data packets on the wire *)
Lemma data_flags_bits z ci : ci = 0 \/ ci = 1 ->
  (0 <? Z.land (data_flags z ci) df_Compressed) = z /\ (0 <? Z.land (data_flags z ci) df_Compact) = negb z /\
  (if 0 <? Z.land (data_flags z ci) df_CacheIndex then 1 else 0) = ci.
Proof. intros [-> | ->]; destruct z; repeat split. Qed.
Lemma handleDataPacket_wire e pool s z ci count body : ci = 0 \/ ci = 1 -> is_u32 count -> keyIVs s = None ->
  handleDataPacket e pool s (data_packet z ci count body) =
  (let* (r, ev) := (if z then parseTSSC s ci body (length (destination pool count))
                    else parseCompactMeasurements s ci body (length (destination pool count))) in
   let '(s1, ms) := r in
   done (set_measTotal s1 (u64 (measTotal s1 + count))) (ev ++ [EvMeasurements (ms ++ skipn (length ms) (destination pool count))])).
Proof.
  intros Ci U K. destruct (data_flags_bits z ci Ci) as (F1 & F2 & F3). unfold handleDataPacket.
  change (idx (data_packet z ci count body) 0) with (@Ok Z (data_flags z ci)). cbn [bind]. cbv zeta. rewrite F1, F2, F3.
  replace (negb z && negb (negb z)) with false by (destruct z; reflexivity).
  unfold data_packet. pose proof (slice_from_app [data_flags z ci] (be_put 4 count ++ body)) as Q. change (len [data_flags z ci]) with 1 in Q. cbn [app] in Q.
  rewrite Q. cbn [bind]. rewrite K. unfold be_u32. rewrite be_put_get by (unfold is_u32 in U; cbn; lia). cbn [bind].
  rewrite slice_from_at by (unfold len; rewrite be_put_length; reflexivity). reflexivity.
Qed.
Lemma destination_exact pool (l : list measurement) : l ++ skipn (length l) (destination pool (len l)) = l.
Proof.
  rewrite skipn_all2; [apply app_nil_r|]. pose proof (destination_length pool (len l) (len_nonneg l)) as D. unfold len in *. lia.
Qed.

(** ** A packet on a validated connection *)
Lemma act_packet e pool s p : connected s = true -> validated s = true ->
  act e s (APacket pool p) = processServerResponse e pool (set_cmdBytes s (u64 (u64 (cmdBytes s + 4) + len p))) p.
Proof.
  intros C V. cbn [act]. rewrite C. unfold receive, readPayloadHeader. cbv zeta. change (validated (set_cmdBytes s _)) with (validated s). rewrite V.
  reflexivity.
Qed.
Lemma act_response e pool s code command z d : connected s = true -> validated s = true -> length z = 4%nat ->
  exists n, act e s (APacket pool (response code command z d)) = dispatch e pool (set_cmdBytes s n) code command d.
Proof.
  intros C V L. rewrite act_packet by assumption. destruct (response_data code command z d L) as [D1 D2].
  eexists. rewrite process_eq by exact D2. rewrite validate_spec. change (validated (set_cmdBytes s _)) with (validated s). rewrite V.
  rewrite D1. reflexivity.
Qed.

(** ** C27 *)
Definition in_sync (s : sub) (ci q : Z) (en : enc) : Prop :=
  SequenceNumber (decoder_of s ci) = q /\ rel (decoder_of s ci) en /\ wf (decoder_of s ci) /\ (q = 0 -> en = enc0).
Definition data_action (cmd : Z) (z : bytes) (x : option (list measurement) * bytes) : action :=
  APacket (fst x) (response 0x82 cmd z (snd x)).
Lemma next_seq_range q : is_u16 q -> is_u16 (next_seq q) /\ next_seq q <> 0.
Proof. unfold is_u16, next_seq. destruct (q =? 65535) eqn:E; lia. Qed.
Lemma session_run e ci cmd z l : forall s q en ds, length z = 4%nat -> ci = 0 \/ ci = 1 ->
  connected s = true -> validated s = true -> keyIVs s = None -> is_u16 q ->
  (in_sync s ci q en \/ (q = 0 /\ en = enc0 /\ exists x ms r, l = (x, Next ms) :: r)) ->
  session_ok q l -> session ci en q l = Some ds ->
  exists s' ev, run e s (map (data_action cmd z) (combine (map fst l) ds)) = Ok (s', ev) /\
    delivered ev = map (session_delivers (sc_sic (cache_at s ci))) l.
Proof.
  induction l as [|[pool [ms|seq count b]] r IH]; intros s q en ds Lz Ci C V K Uq S OK W.
  - cbn in W. injection W as <-. exists s, []. auto.
  - cbn [session] in W. destruct (e_packet en ms) as [[b en']|] eqn:E; [|discriminate].
    destruct (session ci en' (next_seq q) r) as [ds'|] eqn:W'; [|discriminate]. injection W as <-.
    cbn [session_ok] in OK. destruct OK as (O1 & O2 & O3).
    cbn [map combine run]. unfold data_action at 1. cbn [fst snd].
    destruct (act_response e pool s 0x82 cmd z (data_packet true ci (len ms) (tssc_body q b)) C V Lz) as (n & ->).
    cbn [dispatch]. change (dispatch e pool (set_cmdBytes s n) 0x82 cmd) with (handleDataPacket e pool (set_cmdBytes s n)).
    rewrite handleDataPacket_wire; [|exact Ci|unfold is_u32; pose proof (len_nonneg ms); lia|exact K].
    destruct (parseTSSC_next (set_cmdBytes s n) ci q b (length (destination pool (len ms))) en ms en' Uq) as (s1 & ev1 & P & Q & S1 & S2 & S3).
    + change (decoder_of (set_cmdBytes s n) ci) with (decoder_of s ci). destruct S as [(X1 & X2 & X3 & X4)|(X1 & X2 & _)]; [|left; auto].
      destruct (Z.eq_dec q 0) as [E0|N0]; [left; auto|right; auto].
    + exact O1.
    + exact E.
    + pose proof (destination_length pool (len ms) (len_nonneg ms)) as DL. unfold len in DL at 1. unfold len in *. lia.
    + rewrite P. cbn [bind done].
      pose proof (parseTSSC_mask _ _ _ _ _ _ _ P) as M. pose proof (parseTSSC_sic _ _ _ _ _ _ _ P) as SI.
      change (cache_at (set_cmdBytes s n)) with (cache_at s) in *.
      set (s2 := set_measTotal s1 _).
      destruct (IH s2 (next_seq q) en' ds' Lz Ci) as (s' & ev' & R & D).
      * change (connected (mask_data s1) = true). rewrite M. exact C.
      * change (validated (mask_data s1) = true). rewrite M. exact V.
      * change (keyIVs (mask_data s1) = None). rewrite M. exact K.
      * apply next_seq_range, Uq.
      * left. unfold in_sync. change (decoder_of s2 ci) with (decoder_of s1 ci). split; [exact S3|]. split; [exact S1|]. split; [exact S2|].
        intros X. destruct (next_seq_range q Uq). contradiction.
      * exact O3.
      * exact W'.
      * rewrite R. unfold emit. cbn [bind]. eexists _, _. split; [reflexivity|].
        rewrite delivered_app, delivered_app, D. destruct Q as (Q & _). rewrite Q. cbn [app delivered flat_map].
        change (sc_sic (cache_at s2 ci)) with (sc_sic (cache_at s1 ci)). rewrite SI. cbn [session_delivers map]. f_equal.
        rewrite map_map.
        replace (len ms) with (len (map (fun x => conv (sc_sic (cache_at s ci)) x.2) ms)) by (unfold len; rewrite map_length; reflexivity).
        rewrite destination_exact. reflexivity.
  - cbn [session] in W. destruct (session ci en q r) as [ds'|] eqn:W'; [|discriminate]. injection W as <-.
    cbn [session_ok] in OK. destruct OK as (O1 & O2 & O3 & O4 & O5).
    destruct S as [S|(_ & _ & x & ms & r' & [=])]. destruct S as (X1 & X2 & X3 & X4).
    cbn [map combine run]. unfold data_action at 1. cbn [fst snd].
    destruct (act_response e pool s 0x82 cmd z (data_packet true ci count (tssc_body seq b)) C V Lz) as (n & ->).
    change (dispatch e pool (set_cmdBytes s n) 0x82 cmd) with (handleDataPacket e pool (set_cmdBytes s n)).
    rewrite handleDataPacket_wire by assumption.
    rewrite parseTSSC_stray; [|assumption|assumption|change (decoder_of (set_cmdBytes s n) ci) with (decoder_of s ci); congruence].
    cbn [bind done]. set (s1 := set_cache _ _ _). set (s2 := set_measTotal s1 _).
    assert (M : mask_data s1 = mask_data (set_cmdBytes s n)) by apply set_cache_mask_data.
    destruct (IH s2 q en ds' Lz Ci) as (s' & ev' & R & D).
    + change (connected (mask_data s1) = true). rewrite M. exact C.
    + change (validated (mask_data s1) = true). rewrite M. exact V.
    + change (keyIVs (mask_data s1) = None). rewrite M. exact K.
    + exact Uq.
    + left. unfold in_sync. change (decoder_of s2 ci) with (decoder_of s1 ci).
      assert (DD : decoder_of s1 ci = decoder_of s ci) by (unfold s1; unfold decoder_of at 1; rewrite cache_at_set, Bool.eqb_reflx; reflexivity).
      rewrite DD. auto.
    + exact O5.
    + exact W'.
    + rewrite R. unfold emit. cbn [bind]. eexists _, _. split; [reflexivity|].
      rewrite delivered_app, D. cbn [app delivered flat_map map session_delivers length skipn]. f_equal.
      change (cache_at s2 ci) with (cache_at s1 ci). unfold s1. rewrite cache_at_set, Bool.eqb_reflx. reflexivity.
Qed.

(** ** Compact packets *)
Definition cfg_of (s : sub) (ci : Z) : cm_config :=
  mkCfg (signalID_of (sc_sic (cache_at s ci))) (s_IncludeTime (subscription s)) (s_UseMillisecondResolution (subscription s)) (baseTimes s).
Lemma parse_room cfg ss : forall n, Forall sample_ok ss -> is_i64 (fst (baseTimeOffsets cfg)) -> is_i64 (snd (baseTimeOffsets cfg)) -> n = length ss ->
  exists ms, parseCompact cfg (concat (map (encode_sample cfg) ss)) n = (ms, PDone) /\ Forall2 (received cfg) ss ms.
Proof.
  intros n F B0 B1 ->. destruct (parse_stream0 cfg ss [] F B0 B1) as (ms & P & R). rewrite app_nil_r in P. eauto.
Qed.
Lemma compact_packet e pool s cmd z ci ss : length z = 4%nat -> ci = 0 \/ ci = 1 ->
  connected s = true -> validated s = true -> keyIVs s = None -> Count (sc_sic (cache_at s ci)) <> 0 ->
  is_i64 (fst (baseTimes s)) -> is_i64 (snd (baseTimes s)) -> Forall sample_ok ss -> len ss < 2 ^ 32 ->
  exists s' ms, act e s (data_action cmd z (pool, data_packet false ci (len ss) (concat (map (encode_sample (cfg_of s ci)) ss)))) =
    Ok (s', [EvMeasurements ms]) /\ Forall2 (received (cfg_of s ci)) ss ms.
Proof.
  intros Lz Ci C V K N B0 B1 F L. unfold data_action. cbn [fst snd].
  destruct (act_response e pool s 0x82 cmd z (data_packet false ci (len ss) (concat (map (encode_sample (cfg_of s ci)) ss))) C V Lz) as (n & ->).
  change (dispatch e pool (set_cmdBytes s n) 0x82 cmd) with (handleDataPacket e pool (set_cmdBytes s n)).
  rewrite handleDataPacket_wire; [|exact Ci|unfold is_u32; pose proof (len_nonneg ss); lia|exact K].
  unfold parseCompactMeasurements. cbv zeta. change (cache_at (set_cmdBytes s n) ci) with (cache_at s ci).
  replace (Count (sc_sic (cache_at s ci)) =? 0) with false by lia.
  change (mkCfg _ _ _ _) with (cfg_of s ci).
  destruct (parse_room (cfg_of s ci) ss (length (destination pool (len ss))) F B0 B1) as (ms & P & R).
  { pose proof (destination_length pool (len ss) (len_nonneg ss)) as DL. unfold len in DL at 1. unfold len in *. lia. }
  rewrite P. cbn [bind done]. eexists _, ms. split; [|exact R].
  apply Forall2_length in R. replace (len ss) with (len ms) by (unfold len; lia). rewrite destination_exact. reflexivity.
Qed.
