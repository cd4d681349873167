(** Exactly which data packets, cache updates and cipher key messages crash. *)
From stdpp Require Import gmap.
From Coq Require Import Lia ZArith.
From Verif Require Import Base BaseProofs TicksModel GuidModel FormatModel CompactModel CompactSpec CompactProofs CacheModel CacheSpec CacheProofs FrameModel TsscModel SubscriberModel SubscriberSpec SubscriberProofs SubscriberProofs2 SubscriberProofs3 SubscriberProofs4 SubscriberProofs5 SubscriberProofs6 CrashSpec.
Open Scope Z_scope.

Lemma ok_skipn n (l : bytes) : bytes_ok l -> bytes_ok (skipn n l).
Proof. unfold bytes_ok. intros H. revert n. induction H; intros [|n]; cbn [skipn]; auto. Qed.
Lemma ok_firstn n (l : bytes) : bytes_ok l -> bytes_ok (firstn n l).
Proof. unfold bytes_ok. intros H. revert n. induction H; intros [|n]; cbn [firstn]; auto. Qed.
Lemma be_val_bound (l : bytes) : bytes_ok l -> 0 <= be_val l < 2 ^ (8 * len l).
Proof.
  induction 1 as [|b l Hb _ IH]; [change (be_val []) with 0; change (2 ^ (8 * len (@nil Z))) with 1; lia|]. cbn [be_val]. unfold is_u8 in Hb.
  assert (E : len (b :: l) = 1 + len l) by (unfold len; cbn [length]; lia). rewrite E.
  replace (8 * (1 + len l)) with (8 + 8 * len l) by lia. pose proof (len_nonneg l).
  rewrite Z.pow_add_r by lia. change (2 ^ 8) with 256. nia.
Qed.
Lemma number_bound n k (l : bytes) : bytes_ok l -> 0 <= number_at n k l < 2 ^ (8 * Z.of_nat n).
Proof.
  intros H. unfold number_at. set (x := firstn n (skipn k l)). pose proof (be_val_bound x (ok_firstn _ _ (ok_skipn _ _ H))) as B.
  assert (len x <= Z.of_nat n) by (unfold len, x; rewrite firstn_length; lia). pose proof (len_nonneg x).
  pose proof (Z.pow_le_mono_r 2 (8 * len x) (8 * Z.of_nat n)). lia.
Qed.

(** ** Compact measurements *)
Lemma Decode_used cfg (buffer : bytes) m used : bytes_ok buffer -> Decode cfg buffer = Ok (m, used) ->
  used = 9 + Z.of_nat (time_size (includeTime cfg) (useMillisecondResolution cfg) (hd 0 buffer)).
Proof.
  intros HOK. unfold Decode. destruct (len buffer <? fixedLength) eqn:L; [discriminate|]. unfold fixedLength in L.
  destruct buffer as [|f b]; [discriminate|].
  assert (Hf : is_u8 f) by (inversion HOK; assumption).
  replace (idx (f :: b) 0) with (Ok f) by reflexivity. cbn [bind hd].
  rewrite SetFlags_spec by exact Hf. unfold time_size.
  destruct (slice_from (f :: b) 1); cbn [bind]; try discriminate.
  destruct (be_u32 _); cbn [bind]; try discriminate.
  destruct (slice_from (f :: b) (1 + 4)); cbn [bind]; try discriminate.
  destruct (be_u32 _); cbn [bind]; try discriminate. cbv zeta.
  destruct (includeTime cfg); cbn [negb]; [|intros H; injection H as <- <-; reflexivity].
  destruct (Z.testbit f 6).
  - destruct (useMillisecondResolution cfg);
      (destruct (0 <? _); cbn [bind];
       [destruct (slice_from (f :: b) _); cbn [bind]; try discriminate;
        match goal with |- context [bind ?x _] => destruct x end; cbn [bind]; try discriminate|];
       intros H; injection H as <- <-; reflexivity).
  - destruct (slice_from (f :: b) _); cbn [bind]; try discriminate.
    destruct (be_u64 _); cbn [bind]; try discriminate. intros H; injection H as <- <-; reflexivity.
Qed.
Lemma skipn_add {A} i j (l : list A) : skipn i (skipn j l) = skipn (j + i) l.
Proof. revert l. induction j as [|j IH]; intros [|x l]; cbn [skipn Nat.add]; auto. apply skipn_nil. Qed.
Lemma slice_from_pos {A} (l : list A) i : 0 <= i -> slice_from l i = if len l <? i then Panic else Ok (skipn (Z.to_nat i) l).
Proof. intros H. unfold slice_from. replace (i <? 0) with false by lia. reflexivity. Qed.

Lemma parse_crash cfg (data : bytes) n : bytes_ok data -> forall index, 0 <= index <= len data ->
  (snd (parseCompact_loop cfg data n index) = PPanic <->
   measurements_crash (includeTime cfg) (useMillisecondResolution cfg) (baseTimeOffsets cfg) n (skipn (Z.to_nat index) data) = true).
Proof.
  intros OK. induction n as [|n IH]; intros index R; cbn [parseCompact_loop measurements_crash]; [split; discriminate|].
  rewrite slice_from_pos by lia. replace (len data <? index) with false by lia.
  set (b := skipn (Z.to_nat index) data).
  assert (Ob : bytes_ok b) by (apply ok_skipn, OK).
  assert (Lb : len b = len data - index) by (unfold len, b; rewrite skipn_length; unfold len in R; lia).
  destruct (Decode_panic_iff cfg b Ob) as (D1 & D2). cbv zeta in D2.
  set (t := time_size _ _ (hd 0 b)) in *.
  destruct (len b <? 9) eqn:E9.
  { rewrite (proj2 D1) by lia. cbn [snd]. split; discriminate. }
  destruct (Decode cfg b) as [[m used]| |] eqn:D.
  - pose proof (Decode_used _ _ _ _ Ob D) as U. fold t in U.
    destruct (parseCompact_loop cfg data n (index + used)) as [ms x] eqn:P. cbn [snd].
    destruct (len b <? 9 + Z.of_nat t) eqn:ET.
    + assert (Q : Z.testbit (hd 0 b) 6 && (selected_base (baseTimeOffsets cfg) (hd 0 b) <=? 0) = true).
      { destruct (Z.testbit (hd 0 b) 6) eqn:B6; cbn [andb].
        - destruct (selected_base _ _ <=? 0) eqn:SB; [reflexivity|]. exfalso.
          assert (X : @Ok (measurement * Z) (m, used) = Panic) by (apply D2; split; [lia|split; [lia|intros _; lia]]). discriminate.
        - exfalso. assert (X : @Ok (measurement * Z) (m, used) = Panic) by (apply D2; split; [lia|split; [lia|intros X; discriminate X]]). discriminate. }
      rewrite Q. destruct n as [|n'].
      * cbn [parseCompact_loop] in P. injection P as <- <-. split; discriminate.
      * cbn [parseCompact_loop] in P. rewrite slice_from_pos in P by lia.
        replace (len data <? index + used) with true in P by lia. injection P as <- <-. tauto.
    + specialize (IH (index + used)). rewrite P in IH. cbn [snd] in IH. rewrite IH by lia.
      unfold b. rewrite skipn_add. replace (Z.to_nat (index + used)) with (Z.to_nat index + (9 + t))%nat by lia. tauto.
  - exfalso. assert (len b < 9) by (apply D1; reflexivity). lia.
  - cbn [snd]. destruct (proj1 D2 eq_refl) as (_ & L & Bz). replace (len b <? 9 + Z.of_nat t) with true by lia.
    destruct (Z.testbit (hd 0 b) 6) eqn:B6; cbn [andb]; [|tauto]. specialize (Bz eq_refl).
    replace (selected_base (baseTimeOffsets cfg) (hd 0 b) <=? 0) with false by lia. tauto.
Qed.

Lemma destination_length pool count : 0 <= count -> length (destination pool count) = Z.to_nat count.
Proof.
  intros H. unfold destination. destruct pool as [l|]; [|apply repeat_length].
  destruct (len l <? count) eqn:E; [apply repeat_length|]. unfold len in E. rewrite firstn_length. lia.
Qed.
Lemma body_crash (s : sub) pool flags (data : bytes) : bytes_ok data ->
  let ci := if 0 <? Z.land flags df_CacheIndex then 1 else 0 in
  ((let* count := be_u32 data in
    let dest := destination pool count in
    let* body := slice_from data 4 in
    let* (r, ev) := parseCompactMeasurements s ci body (length dest) in
    let '(s, ms) := r in
    done (set_measTotal s (u64 (measTotal s + count)))
         (ev ++ [EvMeasurements (ms ++ skipn (length ms) dest)])) = Panic <->
   compact_body_crashes (known (sc_sic (cache_at s ci))) (s_IncludeTime (subscription s)) (s_UseMillisecondResolution (subscription s)) (baseTimes s) data = true).
Proof.
  intros OK ci. unfold compact_body_crashes, be_u32. rewrite be_get_if. unfold len at 1.
  destruct (length data <? 4)%nat eqn:E; cbn [bind].
  { replace (Z.of_nat (length data) <? 4) with true by lia. cbn [orb]. tauto. }
  replace (Z.of_nat (length data) <? 4) with false by lia. cbn [orb]. cbv zeta.
  rewrite slice_from_pos by lia. unfold len at 1. replace (Z.of_nat (length data) <? 4) with false by lia. cbn [bind].
  change (Z.to_nat 4) with 4%nat. change (firstn 4 data) with (firstn 4 (skipn 0 data)). fold (number_at 4 0 data).
  pose proof (number_bound 4 0 data OK) as NB. set (count := number_at 4 0 data) in *.
  rewrite destination_length by lia. unfold parseCompactMeasurements, known.
  destruct (Count (sc_sic (cache_at s ci)) =? 0) eqn:CC; cbn [negb andb bind]; [unfold done; split; discriminate|].
  set (cfg := mkCfg _ _ _ _).
  pose proof (parse_crash cfg (skipn 4 data) (Z.to_nat count) (ok_skipn _ _ OK) 0 ltac:(pose proof (len_nonneg (skipn 4 data)); lia)) as PC.
  change (Z.to_nat 0) with 0%nat in PC. change (skipn 0 (skipn 4 data)) with (skipn 4 data) in PC. unfold parseCompact.
  change (s_IncludeTime (subscription s)) with (includeTime cfg).
  change (s_UseMillisecondResolution (subscription s)) with (useMillisecondResolution cfg).
  change (baseTimes s) with (baseTimeOffsets cfg). rewrite <- PC.
  destruct (parseCompact_loop cfg (skipn 4 data) (Z.to_nat count) 0) as [ms x]. cbn [snd].
  destruct x; cbn [bind]; unfold done; split; intros H; try discriminate H; reflexivity.
Qed.

Lemma number_skipn n k j (b : bytes) : number_at n k (skipn j b) = number_at n (j + k) b.
Proof. unfold number_at. rewrite skipn_add. reflexivity. Qed.
Lemma stream_crash c fuel : forall t n, snd (tssc_loop fuel c t n) = PPanic <-> stream_crashes fuel n t = true.
Proof.
  induction fuel as [|fuel IH]; intros t n; cbn [tssc_loop stream_crashes]; [split; discriminate|].
  destruct (TryGetMeasurement t) as [[m|] t'|t'|]; [|cbn [snd]; split; discriminate|cbn [snd]; split; discriminate|cbn [snd]; tauto].
  destruct n as [|n]; [cbn [snd]; tauto|]. rewrite <- IH. destruct (tssc_loop fuel c t' n) as [[ms t''] x]. cbn [snd]. tauto.
Qed.
Lemma one_number k (b : bytes) x : nth_error b k = Some x -> number_at 1 k b = x.
Proof.
  unfold number_at. revert k. induction b as [|y b IH]; intros [|k] H; cbn [nth_error] in H; try discriminate.
  - injection H as ->. change (be_val (firstn 1 (skipn 0 (x :: b)))) with (x * 2 ^ (8 * 0) + 0). lia.
  - exact (IH k H).
Qed.
Lemma tssc_crash (s : sub) pool ci (data : bytes) : bytes_ok data ->
  ((let* count := be_u32 data in
    let dest := destination pool count in
    let* body := slice_from data 4 in
    let* (r, ev) := parseTSSC s ci body (length dest) in
    let '(s, ms) := r in
    done (set_measTotal s (u64 (measTotal s + count)))
         (ev ++ [EvMeasurements (ms ++ skipn (length ms) dest)])) = Panic <->
   compressed_body_crashes (sc_decoder (cache_at s ci)) data = true).
Proof.
  intros OK. unfold compressed_body_crashes, be_u32. rewrite be_get_if.
  destruct (length data <? 4)%nat eqn:E; cbn [bind].
  { replace (len data <? 5) with true by (unfold len; lia). tauto. }
  cbv zeta. rewrite slice_from_pos by lia. replace (len data <? 4) with false by (unfold len; lia). cbn [bind].
  change (Z.to_nat 4) with 4%nat. change (firstn 4 data) with (firstn 4 (skipn 0 data)). fold (number_at 4 0 data).
  pose proof (number_bound 4 0 data OK) as NB. set (count := number_at 4 0 data) in *.
  rewrite destination_length by lia. unfold parseTSSC. cbv zeta.
  unfold idx. change (0 <? 0) with false. change (Z.to_nat 0) with 0%nat. cbv iota.
  destruct (nth_error (skipn 4 data) 0) as [v|] eqn:N0; cbn [bind].
  2:{ apply nth_error_None in N0. rewrite skipn_length in N0. replace (len data <? 5) with true by (unfold len; lia). tauto. }
  assert (L5 : (4 < length data)%nat) by (assert (X : nth_error (skipn 4 data) 0 <> None) by congruence; apply nth_error_Some in X; rewrite skipn_length in X; lia).
  replace (len data <? 5) with false by (unfold len; lia).
  assert (NV : number_at 1 4 data = v) by (change 4%nat with (4 + 0)%nat; rewrite <- (number_skipn 1 0 4 data); apply one_number, N0). rewrite NV.
  destruct (v =? 85); cbn [negb]; [|cbn [bind]; unfold done; split; discriminate].
  rewrite slice_from_pos by lia. replace (len (skipn 4 data) <? 1) with false by (unfold len; rewrite skipn_length; lia). cbn [bind].
  change (Z.to_nat 1) with 1%nat. rewrite skipn_add. change (4 + 1)%nat with 5%nat. unfold be_u16. rewrite be_get_if, skipn_length.
  destruct (length data - 5 <? 2)%nat eqn:E7; cbn [bind]. { replace (len data <? 7) with true by (unfold len; lia). tauto. }
  replace (len data <? 7) with false by (unfold len; lia). fold (number_at 2 5 data). set (seq := number_at 2 5 data).
  set (t := if seq =? 0 then NewDecoder else match sc_decoder (cache_at s ci) with Some t => t | None => NewDecoder end).
  assert (T : (if (seq =? 0) && negb match sc_decoder (cache_at s ci) with Some _ => false | None => true end then NewDecoder
               else match sc_decoder (cache_at s ci) with Some d => d | None => NewDecoder end) = t).
  { unfold t. destruct (seq =? 0), (sc_decoder (cache_at s ci)); reflexivity. }
  rewrite T. destruct (SequenceNumber t =? seq); cbn [negb andb]; [|cbn [bind]; unfold done; split; discriminate].
  rewrite slice_from_pos by lia. replace (len (skipn 4 data) <? 3) with false by (unfold len; rewrite skipn_length; lia). cbn [bind].
  change (Z.to_nat 3) with 3%nat. rewrite skipn_add. change (4 + 3)%nat with 7%nat.
  replace (S (8 * (length data - 7))) with (S (Z.to_nat (8 * len (skipn 7 data)))) by (unfold len; rewrite skipn_length; lia).
  rewrite <- (stream_crash (sc_sic (cache_at s ci))).
  destruct (tssc_loop _ (sc_sic (cache_at s ci)) (SetBuffer t (skipn 7 data)) (Z.to_nat count)) as [[ms dd] x]. cbn [snd].
  destruct x; cbn [bind]; unfold done; split; intros H; try discriminate H; reflexivity.
Qed.

Lemma flag_bit f i : is_u8 f -> 0 <= i -> (0 <? Z.land f (2 ^ i)) = Z.testbit f i.
Proof. unfold is_u8. intros F I. apply land_bit; lia. Qed.
Lemma data_crash e pool s (d : bytes) : cbc_ok e -> bytes_ok d ->
  (handleDataPacket e pool s d = Panic <->
   data_packet_crashes e (keyIVs s) (slot s 0) (slot s 1)
     (s_IncludeTime (subscription s)) (s_UseMillisecondResolution (subscription s)) (baseTimes s) d = true).
Proof.
  intros Bc OK. destruct d as [|f b]; [split; reflexivity|].
  assert (F : is_u8 f) by (inversion OK; assumption). assert (Ob : bytes_ok b) by (inversion OK; assumption).
  unfold handleDataPacket. replace (idx (f :: b) 0) with (Ok f) by reflexivity. cbn [bind].
  change df_Compressed with (2 ^ 3). change df_Compact with (2 ^ 1). change df_CipherIndex with (2 ^ 2).
  rewrite !(flag_bit f) by (exact F || lia). cbv zeta. unfold data_packet_crashes.
  destruct (negb (Z.testbit f 3) && negb (Z.testbit f 1)); [unfold done; split; discriminate|].
  rewrite slice_from_pos by lia. replace (len (f :: b) <? 1) with false by (unfold len; cbn [length]; lia).
  change (Z.to_nat 1) with 1%nat. change (skipn 1 (f :: b)) with b. cbn [bind].
  assert (CI : (0 <? Z.land f df_CacheIndex) = Z.testbit f 4) by (change df_CacheIndex with (2 ^ 4); apply flag_bit; [exact F|lia]).
  pose proof (body_crash s pool f) as BC. cbv zeta in BC. rewrite CI in *.
  set (ci := if Z.testbit f 4 then 1 else 0) in *.
  assert (SL : (if Z.testbit f 4 then slot s 1 else slot s 0) = slot s ci) by (unfold ci; destruct (Z.testbit f 4); reflexivity).
  rewrite SL. unfold slot. cbn [fst snd].
  assert (BB : forall data, bytes_ok data ->
    ((let* count := be_u32 data in
      let* body := slice_from data 4 in
      let* (r, ev) := (if Z.testbit f 3 then parseTSSC s ci body (length (destination pool count))
                       else parseCompactMeasurements s ci body (length (destination pool count))) in
      let '(s, ms) := r in
      done (set_measTotal s (u64 (measTotal s + count)))
           (ev ++ [EvMeasurements (ms ++ skipn (length ms) (destination pool count))])) = Panic <->
    (if Z.testbit f 3 then compressed_body_crashes (sc_decoder (cache_at s ci))
     else compact_body_crashes (known (sc_sic (cache_at s ci))) (s_IncludeTime (subscription s)) (s_UseMillisecondResolution (subscription s)) (baseTimes s)) data = true)).
  { intros data Od. destruct (Z.testbit f 3); [apply (tssc_crash s pool ci data Od)|apply (BC data Od)]. }
  destruct (keyIVs s) as [[even odd]|].
  - set (k := if Z.testbit f 2 then odd else even). unfold decipherAES, aes_key.
    destruct (negb ((len (fst k) =? 16) || (len (fst k) =? 24) || (len (fst k) =? 32))); [unfold done; split; discriminate|].
    destruct (negb (len (snd k) =? 16)); cbn [orb]; [split; reflexivity|]. destruct (negb (len b mod 16 =? 0)); [split; reflexivity|].
    apply (BB _ (Bc (fst k) (snd k) b)).
  - apply (BB b Ob).
Qed.
Lemma data_packet_crash e pool s m z (d : bytes) : cbc_ok e -> connected s = true -> validated s = true -> length z = 4%nat -> bytes_ok d ->
  (act e s (APacket pool (response 0x82 m z d)) = Panic <->
   data_packet_crashes e (keyIVs s) (slot s 0) (slot s 1)
     (s_IncludeTime (subscription s)) (s_UseMillisecondResolution (subscription s)) (baseTimes s) d = true).
Proof.
  intros Bc C V Lz OK. destruct (act_response e pool s 0x82 m z d C V Lz) as (k & ->).
  change (dispatch e pool (set_cmdBytes s k) 0x82 m d) with (handleDataPacket e pool (set_cmdBytes s k) d).
  exact (data_crash e pool (set_cmdBytes s k) d Bc OK).
Qed.

(** ** Cipher keys *)
Lemma keys_step (d : bytes) at_ : bytes_ok d -> len d < 2 ^ 32 -> 0 <= at_ ->
  (len d < at_ + 4 -> sized_buffer d at_ = Panic) /\
  (at_ + 4 <= len d -> exists b, sized_buffer d at_ = Ok (b, (at_ + 4 + number_at 4 (Z.to_nat at_) d) mod 2 ^ 32)).
Proof.
  intros OK L A. unfold sized_buffer. rewrite slice_from_pos by lia. split; intros H.
  - destruct (len d <? at_) eqn:E; [reflexivity|]. cbn [bind]. unfold be_u32. rewrite be_get_if, skipn_length.
    replace (length d - Z.to_nat at_ <? 4)%nat with true by (unfold len in *; lia). reflexivity.
  - replace (len d <? at_) with false by lia. cbn [bind]. unfold be_u32. rewrite be_get_if, skipn_length.
    replace (length d - Z.to_nat at_ <? 4)%nat with false by (unfold len in *; lia). cbn [bind]. cbv zeta.
    unfold u32. rewrite (Z.mod_small (at_ + 4)) by lia. rewrite slice_from_pos by lia.
    replace (len d <? at_ + 4) with false by lia. cbn [bind]. eexists. reflexivity.
Qed.
Lemma keys_crash_iff s (d : bytes) : bytes_ok d -> len d < 2 ^ 32 ->
  (handleUpdateCipherKeys s d = Panic <-> keys_crash 4 1 d = true).
Proof.
  intros OK L. unfold handleUpdateCipherKeys. cbn [keys_crash].
  assert (ST : forall at_ (k : bytes * Z -> step) n, 0 <= at_ ->
    (forall b at', 0 <= at' -> k (b, at') = Panic <-> keys_crash n at' d = true) ->
    (bind (sized_buffer d at_) k = Panic <-> keys_crash (S n) at_ d = true)).
  { intros at_ k n A K. cbn [keys_crash]. destruct (keys_step d at_ OK L A) as (S1 & S2).
    destruct (len d <? at_ + 4) eqn:E; [rewrite S1 by lia; cbn [bind]; tauto|].
    destruct (S2 ltac:(lia)) as (b & ->). cbn [bind]. apply K. apply Z.mod_pos_bound. lia. }
  apply (ST 1 _ 3%nat); [lia|]. intros b1 i1 I1. apply (ST i1 _ 2%nat); [lia|]. intros b2 i2 I2.
  apply (ST i2 _ 1%nat); [lia|]. intros b3 i3 I3. apply (ST i3 _ 0%nat); [lia|]. intros b4 i4 I4. cbn [keys_crash]. unfold done. split; discriminate.
Qed.
Lemma cipher_crash e pool s m z (d : bytes) : connected s = true -> validated s = true -> length z = 4%nat ->
  bytes_ok d -> len d < 2 ^ 32 ->
  (act e s (APacket pool (response 0x85 m z d)) = Panic <-> keys_crash 4 1 d = true).
Proof.
  intros C V Lz OK L. destruct (act_response e pool s 0x85 m z d C V Lz) as (k & ->).
  change (dispatch e pool (set_cmdBytes s k) 0x85 m d) with (handleUpdateCipherKeys (set_cmdBytes s k) d).
  apply keys_crash_iff; assumption.
Qed.

(** ** Cache updates *)
Lemma get_at n (b : bytes) i : 0 <= i -> (let* t := slice_from b i in be_get n t) =
  if len b <? i + Z.of_nat n then Panic else Ok (number_at n (Z.to_nat i) b).
Proof.
  intros I0. rewrite slice_from_pos by lia. destruct (len b <? i) eqn:E; cbn [bind].
  { replace (len b <? i + Z.of_nat n) with true by lia. reflexivity. }
  rewrite be_get_if, skipn_length. unfold number_at, len in *.
  destruct (length b - Z.to_nat i <? n)%nat eqn:E2.
  - replace (Z.of_nat (length b) <? i + Z.of_nat n) with true by lia. reflexivity.
  - replace (Z.of_nat (length b) <? i + Z.of_nat n) with false by lia. reflexivity.
Qed.
Lemma guid_at (b : bytes) i swap : 0 <= i <= len b -> exists g,
  (let* t := slice_from b i in FromBytes t swap) = if len b <? i + 16 then Err else Ok g.
Proof.
  intros I0. rewrite slice_from_pos by lia. replace (len b <? i) with false by lia. cbn [bind]. unfold FromBytes.
  assert (L : len (skipn (Z.to_nat i) b) = len b - i) by (unfold len in *; rewrite skipn_length; lia). rewrite L.
  replace (len b - i <? 16) with (len b <? i + 16) by lia. eexists. reflexivity.
Qed.
Lemma rows_crash_iff (buffer : bytes) swap n : bytes_ok buffer -> len buffer < 2 ^ 32 -> forall offset st, 0 <= offset <= len buffer ->
  (snd (decode_loop buffer swap n offset st) = Panic <-> rows_crash n (skipn (Z.to_nat offset) buffer) = true).
Proof.
  intros OK L. induction n as [|n IH]; intros offset st R; cbn [decode_loop rows_crash]; [split; discriminate|].
  set (b := skipn (Z.to_nat offset) buffer).
  assert (Lb : len b = len buffer - offset) by (unfold len, b in *; rewrite skipn_length; lia).
  unfold be_u32 at 1. rewrite get_at by lia. change (Z.of_nat 4) with 4.
  destruct (len b <? 4) eqn:E4. { replace (len buffer <? offset + 4) with true by lia. cbn [snd]. tauto. }
  replace (len buffer <? offset + 4) with false by lia. cbv zeta.
  assert (U4 : u32 (offset + 4) = offset + 4) by (apply Z.mod_small; lia). rewrite U4.
  destruct (guid_at buffer (offset + 4) swap ltac:(lia)) as (g & ->).
  destruct (len b <? 20) eqn:E20. { replace (len buffer <? offset + 4 + 16) with true by lia. cbn [snd]. split; discriminate. }
  replace (len buffer <? offset + 4 + 16) with false by lia.
  assert (U16 : u32 (offset + 4 + 16) = offset + 20) by (unfold u32; rewrite Z.mod_small; lia). rewrite U16.
  unfold be_u32. rewrite get_at by lia. change (Z.of_nat 4) with 4.
  destruct (len b <? 24) eqn:E24. { replace (len buffer <? offset + 20 + 4) with true by lia. cbn [snd]. tauto. }
  replace (len buffer <? offset + 20 + 4) with false by lia.
  assert (U24 : u32 (offset + 20 + 4) = offset + 24) by (unfold u32; rewrite Z.mod_small; lia). rewrite U24.
  assert (NS : number_at 4 (Z.to_nat (offset + 20)) buffer = number_at 4 20 b).
  { unfold b. rewrite number_skipn. f_equal. lia. }
  rewrite NS. pose proof (number_bound 4 20 b (ok_skipn _ _ OK)) as NB. change (8 * Z.of_nat 4) with 32 in NB. set (size := number_at 4 20 b) in *.
  assert (SL : slice buffer (offset + 24) (u32 (offset + 24 + size)) =
               if len buffer <? offset + 24 + size then Panic else Ok (firstn (Z.to_nat size) (skipn (Z.to_nat (offset + 24)) buffer))).
  { unfold slice. replace (offset + 24 <? 0) with false by lia. cbn [orb].
    destruct (Z_lt_le_dec (offset + 24 + size) (2 ^ 32)) as [W|W].
    - unfold u32. rewrite Z.mod_small by lia. replace (offset + 24 + size <? offset + 24) with false by lia. cbn [orb].
      destruct (len buffer <? offset + 24 + size); [reflexivity|]. do 3 f_equal. lia.
    - replace (u32 (offset + 24 + size)) with (offset + 24 + size - 2 ^ 32).
      2:{ unfold u32. rewrite <- (Z.mod_add _ (-1)) by lia. rewrite Z.mod_small; lia. }
      replace (offset + 24 + size - 2 ^ 32 <? offset + 24) with true by lia. cbn [orb].
      replace (len buffer <? offset + 24 + size) with true by lia. reflexivity. }
  rewrite SL. destruct (len buffer <? offset + 24 + size) eqn:ES.
  { replace (len b <? 32 + size) with true by lia. cbn [snd]. tauto. }
  assert (US : u32 (offset + 24 + size) = offset + 24 + size) by (unfold u32; rewrite Z.mod_small; lia). rewrite US.
  unfold be_u64. rewrite get_at by lia. change (Z.of_nat 8) with 8.
  destruct (len b <? 32 + size) eqn:E8. { replace (len buffer <? offset + 24 + size + 8) with true by lia. cbn [snd]. tauto. }
  replace (len buffer <? offset + 24 + size + 8) with false by lia.
  assert (U8 : u32 (offset + 24 + size + 8) = offset + 32 + size) by (unfold u32; rewrite Z.mod_small; lia). rewrite U8.
  rewrite IH by lia. unfold b. rewrite skipn_add. replace (Z.to_nat offset + Z.to_nat (32 + size))%nat with (Z.to_nat (offset + 32 + size)) by lia. tauto.
Qed.
Lemma decode_crash ds (b : bytes) swap : bytes_ok b -> len b < 2 ^ 32 -> (snd (decode ds b swap) = Panic <-> table_crashes b = true).
Proof.
  intros OK L. unfold decode, table_crashes. pose proof (len_nonneg b) as P.
  assert (U : u32 (len b) = len b) by (apply Z.mod_small; lia). rewrite U.
  destruct (len b <? 4) eqn:E4; cbn [orb]; [cbn [snd]; split; discriminate|].
  unfold be_u32. rewrite be_get_if. replace (length b <? 4)%nat with false by (unfold len in E4; lia).
  change (firstn 4 b) with (firstn 4 (skipn 0 b)). fold (number_at 4 0 b).
  destruct (len b <? number_at 4 0 b); cbn [orb]; [cbn [snd]; split; discriminate|].
  destruct (guid_at b 4 swap ltac:(lia)) as (g & ->). change (4 + 16) with 20.
  destruct (len b <? 20) eqn:E20; [cbn [snd]; split; discriminate|]. cbv zeta. rewrite get_at by lia. change (20 + Z.of_nat 4) with 24.
  destruct (len b <? 24) eqn:E24; [cbn [snd]; tauto|]. change (Z.to_nat 20) with 20%nat.
  pose proof (rows_crash_iff b swap (Z.to_nat (number_at 4 20 b)) OK L 24 (d_reg (mkDec (d_reg ds) g (d_sic ds)), d_sic (mkDec (d_reg ds) g (d_sic ds))) ltac:(lia)) as RC.
  change (Z.to_nat 24) with 24%nat in RC. rewrite <- RC.
  destruct (decode_loop b swap _ 24 _) as [[reg c] r]. cbn [snd]. tauto.
Qed.
Lemma cache_crash e pool s m z (d : bytes) : good s -> connected s = true -> validated s = true -> length z = 4%nat ->
  bytes_ok d -> len d < 2 ^ 32 -> (forall x b, gunzip e x = Some b -> bytes_ok b /\ len b < 2 ^ 32) ->
  (act e s (APacket pool (response 0x83 m z d)) = Panic <-> cache_update_crashes e (Version s) (CompressSignalIndexCache s) d = true).
Proof.
  intros G C V Lz OK L GZ. destruct (act_response e pool s 0x83 m z d C V Lz) as (k & ->).
  change (dispatch e pool (set_cmdBytes s k) 0x83 m d) with (handleUpdateSignalIndexCache e (set_cmdBytes s k) d).
  apply (good_bytes s k) in G. change (Version s) with (Version (set_cmdBytes s k)).
  change (CompressSignalIndexCache s) with (CompressSignalIndexCache (set_cmdBytes s k)). clear C V.
  generalize dependent (set_cmdBytes s k). clear s. intros s G.
  unfold handleUpdateSignalIndexCache, cache_update_crashes.
  assert (MAIN : forall ci (x : bytes), bytes_ok x -> len x < 2 ^ 32 ->
    (match (if CompressSignalIndexCache s then gunzip e x else Some x) with
     | None => done s [EvError]
     | Some data =>
      let '(d, r) := decode (mkDec (measurementRegistry s) (subscriberID s) NewSignalIndexCache) data (SwapGuidEndianness s) in
      let s := set_subscriberID (set_measurementRegistry s (d_reg d)) (d_sub d) in
      match r with
      | Panic => Panic
      | Err => done s [EvError]
      | Ok _ =>
          let s := set_cacheIndex (set_cache s ci (mkScache (d_sic d) None)) ci in
          let* (s, ev) := (if 1 <? Version s then send s sc_ConfirmUpdateSignalIndexCache [] else done s []) in
          done s (ev ++ [EvSubscriptionUpdated (d_sic d)])
      end
     end = Panic <->
     match (if CompressSignalIndexCache s then gunzip e x else Some x) with None => false | Some b => table_crashes b end = true)).
  { intros ci x Ox Lx.
    assert (OB : forall b, (if CompressSignalIndexCache s then gunzip e x else Some x) = Some b -> bytes_ok b /\ len b < 2 ^ 32).
    { intros b. destruct (CompressSignalIndexCache s); [apply GZ|]. intros X. injection X as <-. auto. }
    destruct (if CompressSignalIndexCache s then gunzip e x else Some x) as [b|]; [|unfold done; split; discriminate].
    destruct (OB b eq_refl) as (Bo & Bl). rewrite <- (decode_crash (mkDec (measurementRegistry s) (subscriberID s) NewSignalIndexCache) b (SwapGuidEndianness s) Bo Bl).
    destruct (decode _ b _) as [dd r]. cbn [snd]. destruct r as [u| |]; [|unfold done; split; discriminate|tauto].
    cbv zeta. split; [|discriminate]. destruct (1 <? _); [|discriminate].
    destruct G as (W & _). set (s1 := set_cacheIndex _ _).
    destruct (send_ok s1 sc_ConfirmUpdateSignalIndexCache []) as (wb & _ & ->); [|unfold len, maxPacketSize; cbn; lia|discriminate].
    unfold s1, set_cache. destruct (ci =? 0); exact W. }
  destruct (1 <? Version s) eqn:Vv; cbn [andb].
  - destruct d as [|f d].
    + cbn [idx]. change (idx (@nil Z) 0) with (@Panic Z). cbn [bind]. change (len (@nil Z) <? 1) with true. tauto.
    + change (idx (f :: d) 0) with (Ok f). cbn [bind]. rewrite slice_from_pos by lia.
      assert (LL : len (f :: d) = 1 + len d) by (unfold len; cbn [length]; lia). pose proof (len_nonneg d).
      replace (len (f :: d) <? 1) with false by lia. change (Z.to_nat 1) with 1%nat. change (skipn 1 (f :: d)) with d. cbn [bind]. cbv zeta.
      apply (MAIN (if 0 <? f then 1 else 0) d); [inversion OK; assumption|lia].
  - cbn [bind]. cbv zeta. apply (MAIN 0 d OK L).
Qed.
