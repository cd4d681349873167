(** Lemmas about compact measurements. *)
From Coq Require Import Lia Zify ZifyBool ZifyNat.
From Verif Require Import Base BaseProofs TicksModel TicksProofs GuidModel CompactModel CompactSpec.
Ltac Zify.zify_post_hook ::= Z.div_mod_to_equations.

(** ** Flags *)
Lemma or_if_testbit c a m i : Z.testbit (or_if c a m) i = Z.testbit a i || (c && Z.testbit m i).
Proof.
  destruct c; cbn [or_if andb]; [apply Z.lor_spec|]. rewrite orb_false_r. reflexivity.
Qed.

Lemma land_bit c b : 0 <= c -> 0 <= b -> (0 <? Z.land c (2 ^ b)) = Z.testbit c b.
Proof.
  intros Hc Hb. destruct (Z.testbit c b) eqn:E.
  - apply Z.ltb_lt. assert (Z.land c (2 ^ b) <> 0).
    { intros H. assert (T : Z.testbit (Z.land c (2 ^ b)) b = true)
        by (rewrite Z.land_spec, E, Z.pow2_bits_true by lia; reflexivity).
      rewrite H, Z.testbit_0_l in T. discriminate. }
    pose proof (proj2 (Z.land_nonneg c (2 ^ b)) (or_introl Hc)). lia.
  - apply Z.ltb_ge. replace (Z.land c (2 ^ b)) with 0; [lia|].
    symmetry. apply Z.bits_inj'. intros i Hi. rewrite Z.land_spec, Z.testbit_0_l.
    destruct (Z.eq_dec i b) as [->|N]; [rewrite E; reflexivity|].
    rewrite Z.pow2_bits_false by lia. apply andb_false_r.
Qed.

Lemma land_nonzero_bits f m : 0 <= f -> (0 <? Z.land f m) = true <->
  exists i, 0 <= i /\ Z.testbit f i = true /\ Z.testbit m i = true.
Proof.
  intros Hf. rewrite Z.ltb_lt. pose proof (proj2 (Z.land_nonneg f m) (or_introl Hf)) as Hn.
  split.
  - intros Hp. exists (Z.log2 (Z.land f m)).
    pose proof (Z.bit_log2 _ Hp) as B. rewrite Z.land_spec in B.
    apply andb_true_iff in B. split; [apply Z.log2_nonneg|exact B].
  - intros (i & Hi & H1 & H2). destruct (Z.eq_dec (Z.land f m) 0) as [E|E]; [|lia].
    assert (T : Z.testbit (Z.land f m) i = true) by (rewrite Z.land_spec, H1, H2; reflexivity).
    rewrite E, Z.testbit_0_l in T. discriminate.
Qed.

(** A mask described by its positions; checked on bits 0..31. *)
Definition mask_is (m : Z) (ps : list Z) : bool :=
  (0 <=? m) && (m <? 2 ^ 32) &&
  forallb (fun n => Bool.eqb (Z.testbit m (Z.of_nat n)) (existsb (Z.eqb (Z.of_nat n)) ps)) (seq 0 32) &&
  forallb (fun p => (0 <=? p) && (p <? 32)) ps.

Lemma high_bits_zero m i : 0 <= m < 2 ^ 32 -> 32 <= i -> Z.testbit m i = false.
Proof.
  intros Hm Hi. destruct (Z.eq_dec m 0) as [->|N]; [apply Z.testbit_0_l|].
  apply Z.bits_above_log2; [lia|]. apply Z.lt_le_trans with 32; [|lia]. apply Z.log2_lt_pow2; lia.
Qed.

Lemma mask_is_spec m ps i : mask_is m ps = true -> 0 <= i -> (Z.testbit m i = true <-> In i ps).
Proof.
  unfold mask_is. intros H Hi.
  apply andb_true_iff in H as [H Hp]. apply andb_true_iff in H as [Hr H].
  rewrite forallb_forall in H, Hp.
  destruct (Z_lt_le_dec i 32) as [L|L].
  - specialize (H (Z.to_nat i)). rewrite Z2Nat.id in H by lia.
    assert (Hin : In (Z.to_nat i) (seq 0 32)) by (apply in_seq; lia).
    apply eqb_prop in H; [|exact Hin]. rewrite H, existsb_exists.
    split; [intros (x & Hx & E); apply Z.eqb_eq in E; subst; exact Hx|
            intros Hx; exists i; split; [exact Hx|apply Z.eqb_refl]].
  - rewrite high_bits_zero by lia. split; [discriminate|].
    intros Hx. specialize (Hp i Hx). lia.
Qed.

Lemma mask_has_any f m ps : mask_is m ps = true -> 0 <= f ->
  ((0 <? Z.land f m) = true <-> has_any f ps).
Proof.
  intros Hm Hf. rewrite land_nonzero_bits by exact Hf. unfold has_any. split.
  - intros (i & Hi & H1 & H2). exists i. split; [|exact H1]. apply (mask_is_spec m ps i Hm Hi). exact H2.
  - intros (i & H1 & H2). assert (Hi : 0 <= i).
    { unfold mask_is in Hm. apply andb_true_iff in Hm as [_ Hp]. rewrite forallb_forall in Hp.
      specialize (Hp i H1). lia. }
    exists i. split; [exact Hi|]. split; [exact H2|]. apply (mask_is_spec m ps i Hm Hi). exact H1.
Qed.

Definition P0 := [2;3;4;5;6;7].
Definition P1 := [0;1;8;9;10;11;13;14;15].
Definition P2 := [16;17;18;19;20;21;23].
Definition P3 := [29;30;31].
Definition P4 := [12].
Definition P5 := [22].
Lemma M0 : mask_is dataRangeMask P0 = true. Proof. vm_compute. reflexivity. Qed.
Lemma M1 : mask_is dataQualityMask P1 = true. Proof. vm_compute. reflexivity. Qed.
Lemma M2 : mask_is timeQualityMask P2 = true. Proof. vm_compute. reflexivity. Qed.
Lemma M3 : mask_is systemIssueMask P3 = true. Proof. vm_compute. reflexivity. Qed.
Lemma M4 : mask_is calculatedValueMask P4 = true. Proof. vm_compute. reflexivity. Qed.
Lemma M5 : mask_is discardedValueMask P5 = true. Proof. vm_compute. reflexivity. Qed.

Lemma mapToFull_testbit c i : 0 <= c -> Z.testbit (mapToFullFlags c) i =
  (Z.testbit c 0 && Z.testbit dataRangeMask i) || (Z.testbit c 1 && Z.testbit dataQualityMask i) ||
  (Z.testbit c 2 && Z.testbit timeQualityMask i) || (Z.testbit c 3 && Z.testbit systemIssueMask i) ||
  (Z.testbit c 4 && Z.testbit calculatedValueMask i) || (Z.testbit c 5 && Z.testbit discardedValueMask i).
Proof.
  intros Hc. unfold mapToFullFlags. rewrite !or_if_testbit, Z.testbit_0_l. cbn [orb].
  change cf_DataRange with (2 ^ 0). change cf_DataQuality with (2 ^ 1).
  change cf_TimeQuality with (2 ^ 2). change cf_SystemIssue with (2 ^ 3).
  change cf_CalculatedValue with (2 ^ 4). change cf_DiscardedValue with (2 ^ 5).
  rewrite !land_bit by lia. reflexivity.
Qed.

Lemma full_flags_table c i : 0 <= c -> 0 <= i ->
  (Z.testbit (mapToFullFlags c) i = true <->
   exists b ps, In (b, ps) flag_table /\ In i ps /\ Z.testbit c b = true).
Proof.
  intros Hc Hi. rewrite mapToFull_testbit by exact Hc.
  rewrite !orb_true_iff, !andb_true_iff.
  rewrite (mask_is_spec _ _ i M0 Hi), (mask_is_spec _ _ i M1 Hi), (mask_is_spec _ _ i M2 Hi),
    (mask_is_spec _ _ i M3 Hi), (mask_is_spec _ _ i M4 Hi), (mask_is_spec _ _ i M5 Hi).
  unfold flag_table. split.
  - intros [[[[[[H1 H2]|[H1 H2]]|[H1 H2]]|[H1 H2]]|[H1 H2]]|[H1 H2]].
    + exists 0, P0. cbn [In]. auto 10.
    + exists 1, P1. cbn [In]. auto 10.
    + exists 2, P2. cbn [In]. auto 10.
    + exists 3, P3. cbn [In]. auto 10.
    + exists 4, P4. cbn [In]. auto 10.
    + exists 5, P5. cbn [In]. auto 10.
  - intros (b & ps & HI & H1 & H2). cbn [In] in HI.
    destruct HI as [E|[E|[E|[E|[E|[E|[]]]]]]]; injection E as <- <-; tauto.
Qed.

Lemma small_bit_cases b : 0 <= b -> b < 6 -> b = 0 \/ b = 1 \/ b = 2 \/ b = 3 \/ b = 4 \/ b = 5.
Proof. lia. Qed.

Lemma compact_flags_table f b ps : 0 <= f -> In (b, ps) flag_table ->
  (Z.testbit (mapToCompactFlags f) b = true <-> has_any f ps).
Proof.
  intros Hf HI.
  assert (T : forall i, Z.testbit (mapToCompactFlags f) i =
    ((0 <? Z.land f dataRangeMask) && Z.testbit cf_DataRange i) ||
    ((0 <? Z.land f dataQualityMask) && Z.testbit cf_DataQuality i) ||
    ((0 <? Z.land f timeQualityMask) && Z.testbit cf_TimeQuality i) ||
    ((0 <? Z.land f systemIssueMask) && Z.testbit cf_SystemIssue i) ||
    ((0 <? Z.land f calculatedValueMask) && Z.testbit cf_CalculatedValue i) ||
    ((0 <? Z.land f discardedValueMask) && Z.testbit cf_DiscardedValue i)).
  { intros i. unfold mapToCompactFlags. rewrite !or_if_testbit, Z.testbit_0_l. reflexivity. }
  unfold flag_table in HI. cbn [In] in HI.
  destruct HI as [E|[E|[E|[E|[E|[E|[]]]]]]]; injection E as <- <-; rewrite T;
    [rewrite <- (mask_has_any f _ _ M0 Hf)|rewrite <- (mask_has_any f _ _ M1 Hf)
    |rewrite <- (mask_has_any f _ _ M2 Hf)|rewrite <- (mask_has_any f _ _ M3 Hf)
    |rewrite <- (mask_has_any f _ _ M4 Hf)|rewrite <- (mask_has_any f _ _ M5 Hf)];
  repeat match goal with |- context [Z.testbit ?c ?k] =>
    match c with | cf_DataRange => idtac | cf_DataQuality => idtac | cf_TimeQuality => idtac
    | cf_SystemIssue => idtac | cf_CalculatedValue => idtac | cf_DiscardedValue => idtac end;
    let v := eval vm_compute in (Z.testbit c k) in change (Z.testbit c k) with v end;
  rewrite ?andb_false_r, ?andb_true_r, ?orb_false_r, ?orb_false_l; reflexivity.
Qed.

Lemma compact_flags_range f : 0 <= mapToCompactFlags f < 64.
Proof.
  unfold mapToCompactFlags. 
  destruct (0 <? Z.land f dataRangeMask), (0 <? Z.land f dataQualityMask),
    (0 <? Z.land f timeQualityMask), (0 <? Z.land f systemIssueMask),
    (0 <? Z.land f calculatedValueMask), (0 <? Z.land f discardedValueMask); vm_compute; split; congruence.
Qed.

Lemma flags_closure f : 0 <= f -> category_closure f (mapToFullFlags (mapToCompactFlags f)).
Proof.
  intros Hf i Hi. pose proof (compact_flags_range f) as Hr.
  rewrite full_flags_table by lia.
  split; intros (b & ps & H1 & H2 & H3); exists b, ps; split; try exact H1; split; try exact H2.
  - apply (compact_flags_table f b ps Hf H1). exact H3.
  - apply (compact_flags_table f b ps Hf H1). exact H3.
Qed.

Lemma full_to_compact_all :
  forallb (fun n => mapToCompactFlags (mapToFullFlags (Z.of_nat n)) =? Z.land (Z.of_nat n) 63) (seq 0 256) = true.
Proof. vm_compute. reflexivity. Qed.
Lemma full_to_compact c : is_u8 c -> mapToCompactFlags (mapToFullFlags c) = Z.land c 63.
Proof.
  intros Hc. unfold is_u8 in Hc. pose proof full_to_compact_all as H. rewrite forallb_forall in H.
  specialize (H (Z.to_nat c)). rewrite Z2Nat.id in H by lia. apply Z.eqb_eq, H, in_seq. lia.
Qed.

(** ** Decoding one measurement *)
Lemma slice_from_app {A} (a b : list A) : slice_from (a ++ b) (len a) = Ok b.
Proof.
  unfold slice_from, len. rewrite app_length.
  replace ((Z.of_nat (length a) <? 0) || (Z.of_nat (length a + length b) <? Z.of_nat (length a))) with false by lia.
  rewrite Nat2Z.id, skipn_app, skipn_all, Nat.sub_diag. reflexivity.
Qed.
Lemma slice_from_at {A} (a b : list A) n : n = len a -> slice_from (a ++ b) n = Ok b.
Proof. intros ->. apply slice_from_app. Qed.

Lemma be_get_app n l r : length l = n -> be_get n (l ++ r) = Ok (be_val l).
Proof.
  intros <-. unfold be_get. rewrite app_length.
  replace ((length l + length r <? length l)%nat) with false by lia.
  rewrite firstn_app, firstn_all, Nat.sub_diag, firstn_O, app_nil_r. reflexivity.
Qed.
Lemma be_put_get n x r : 0 <= x < 2 ^ (8 * Z.of_nat n) -> be_get n (be_put n x ++ r) = Ok x.
Proof. intros H. rewrite be_get_app by apply be_put_length. rewrite be_val_put. f_equal. apply Z.mod_small. exact H. Qed.

Lemma SetFlags_spec f : is_u8 f -> SetCompactStateFlags f =
  (mapToFullFlags f, if Z.testbit f 7 then 1 else 0, Z.testbit f 6).
Proof.
  intros Hf. unfold is_u8 in Hf. unfold SetCompactStateFlags.
  change cf_TimeIndex with (2 ^ 7). change cf_BaseTimeOffset with (2 ^ 6).
  rewrite !land_bit by lia. reflexivity.
Qed.

Lemma u64_i64 x : u64 (i64 x) = u64 x.
Proof. unfold u64, i64. lia. Qed.

Lemma u32_i32 x : is_i32 x -> i32 (u32 x) = x.
Proof. unfold is_i32, i32, u32. lia. Qed.

Lemma Decode_wire cfg f rid v time rest :
  is_u8 f -> is_i32 rid -> is_u32 v ->
  length time = time_size (includeTime cfg) (useMillisecondResolution cfg) f ->
  Decode cfg (wire f rid v time ++ rest) =
  Ok (mkMeas (lookup cfg rid) v
        (time_of (includeTime cfg) (useMillisecondResolution cfg) (baseTimeOffsets cfg) f time)
        (mapToFullFlags f),
      9 + len time).
Proof.
  intros Hf Hr Hv Hl. unfold Decode, wire.
  set (tail := time ++ rest).
  replace ((f :: be_put 4 (u32 rid) ++ be_put 4 v ++ time) ++ rest)
    with (([f] ++ be_put 4 (u32 rid)) ++ be_put 4 v ++ tail)
    by (unfold tail; rewrite <- !app_assoc; reflexivity).
  assert (HL : len (([f] ++ be_put 4 (u32 rid)) ++ be_put 4 v ++ tail) = 9 + len tail).
  { unfold len. rewrite !app_length, !be_put_length. cbn [length]. lia. }
  rewrite HL. assert (0 <= len tail) by (unfold len; lia).
  replace (9 + len tail <? fixedLength) with false by (unfold fixedLength; lia).
  replace (idx (([f] ++ be_put 4 (u32 rid)) ++ be_put 4 v ++ tail) 0) with (Ok f) by reflexivity.
  cbn [bind]. rewrite SetFlags_spec by exact Hf.
  rewrite <- app_assoc. rewrite slice_from_at by reflexivity. cbn [bind].
  unfold be_u32. rewrite be_put_get by (unfold u32; lia). cbn [bind].
  rewrite u32_i32 by exact Hr.
  rewrite app_assoc. rewrite slice_from_at
    by (unfold len; rewrite app_length, be_put_length; reflexivity). cbn [bind].
  rewrite be_put_get by (unfold is_u32 in Hv; lia). cbn [bind].
  assert (HT : slice_from (([f] ++ be_put 4 (u32 rid)) ++ be_put 4 v ++ tail) (1 + 4 + 4) = Ok tail).
  { rewrite app_assoc. apply slice_from_at. unfold len. rewrite !app_length, !be_put_length. reflexivity. }
  unfold time_of, time_size in *. destruct (includeTime cfg); cbn [negb].
  2:{ destruct time; [|discriminate]. reflexivity. }
  assert (HB : base_at cfg (if Z.testbit f 7 then 1 else 0) = selected_base (baseTimeOffsets cfg) f).
  { unfold base_at, selected_base. destruct (Z.testbit f 7); reflexivity. }
  rewrite HB. destruct (Z.testbit f 6).
  - destruct (useMillisecondResolution cfg).
    + destruct (0 <? selected_base (baseTimeOffsets cfg) f).
      * rewrite HT. cbn [bind]. unfold be_u16, tail. rewrite be_get_app by exact Hl. cbn [bind].
        rewrite u64_i64. unfold len. rewrite Hl. reflexivity.
      * cbn [bind]. unfold len. rewrite Hl. reflexivity.
    + destruct (0 <? selected_base (baseTimeOffsets cfg) f).
      * rewrite HT. cbn [bind]. unfold be_u32, tail. rewrite be_get_app by exact Hl. cbn [bind].
        rewrite u64_i64, Z.mul_1_r. unfold len. rewrite Hl. reflexivity.
      * cbn [bind]. unfold len. rewrite Hl. reflexivity.
  - rewrite HT. cbn [bind]. unfold be_u64, tail. rewrite be_get_app by exact Hl. cbn [bind].
    unfold len. rewrite Hl. reflexivity.
Qed.

(** ** The publisher's encoding is decoded back *)
Lemma getflags_bits c ti (offs : bool) : 0 <= c < 64 ->
  let f := or_if offs (or_if (negb (ti =? 0)) c cf_TimeIndex) cf_BaseTimeOffset in
  is_u8 f /\ Z.testbit f 7 = negb (ti =? 0) /\ Z.testbit f 6 = offs /\
  mapToFullFlags f = mapToFullFlags c.
Proof.
  intros Hc.
  assert (A : forallb (fun n => forallb (fun b1 => forallb (fun b2 : bool =>
     let c := Z.of_nat n in
     let f := or_if b2 (or_if b1 c cf_TimeIndex) cf_BaseTimeOffset in
     (0 <=? f) && (f <? 256) && Bool.eqb (Z.testbit f 7) b1 && Bool.eqb (Z.testbit f 6) b2 &&
     (mapToFullFlags f =? mapToFullFlags c)) [true;false]) [true;false]) (seq 0 64) = true)
    by (vm_compute; reflexivity).
  rewrite forallb_forall in A. specialize (A (Z.to_nat c) ltac:(apply in_seq; lia)).
  cbv beta in A. rewrite forallb_forall in A.
  specialize (A (negb (ti =? 0)) ltac:(destruct (ti =? 0); cbn; auto)).
  cbv beta in A. rewrite forallb_forall in A.
  specialize (A offs ltac:(destruct offs; cbn; auto)). cbv zeta in A.
  rewrite Z2Nat.id in A by lia.
  apply andb_true_iff in A as [A A5]. apply andb_true_iff in A as [A A4].
  apply andb_true_iff in A as [A A3]. apply eqb_prop in A3, A4. cbv zeta.
  unfold is_u8. repeat split; try assumption; lia.
Qed.

Lemma TimestampValue_range t : is_u64 t -> 0 <= TimestampValue t < 2 ^ 62.
Proof.
  intros Ht. unfold TimestampValue. change ValueMask with (2 ^ 62 - 1).
  rewrite Z.sub_1_r, <- Z.ones_equiv, Z.land_ones by lia.
  unfold is_u64 in Ht. unfold i64. lia.
Qed.

Lemma publisher_round_trip cfg s rest :
  sample_ok s -> is_i64 (fst (baseTimeOffsets cfg)) -> is_i64 (snd (baseTimeOffsets cfg)) ->
  exists m, Decode cfg (encode_sample cfg s ++ rest) = Ok (m, len (encode_sample cfg s)) /\
            received cfg s m /\
            len (encode_sample cfg s) = fst (GetBinaryLength cfg (s_time s) (s_timeIndex s) false).
Proof.
  intros (H1 & H2 & H3 & H4 & H5) HB1 HB2. unfold encode_sample, publisher_encode, received.
  set (t := s_time s) in *. set (ti := s_timeIndex s) in *.
  assert (HBr : is_i64 (base_at cfg ti)) by (unfold base_at; destruct (ti =? 0); assumption).
  pose proof (TimestampValue_range t H4) as HT.
  unfold is_i64 in HBr.
  assert (Hfl : 0 <= s_flags s) by (unfold is_u32 in H3; lia).
  pose proof (compact_flags_range (s_flags s)) as Hc.
  destruct (GetBinaryLength cfg t ti false) as [n offs] eqn:E.
  set (c := mapToCompactFlags (s_flags s)) in *.
  set (F := GetCompactStateFlags (s_flags s) ti offs).
  destruct (getflags_bits c ti offs Hc) as (G1 & G2 & G3 & G4).
  fold c in F. change (or_if offs (or_if (negb (ti =? 0)) c cf_TimeIndex) cf_BaseTimeOffset) with F in *.
  set (time := if n =? 11 then be_put 2 (GetTimestampC2 cfg t ti)
     else if n =? 13 then be_put 4 (GetTimestampC4 cfg t ti)
     else if n =? 17 then be_put 8 t else []).
  assert (HSB : selected_base (baseTimeOffsets cfg) F = base_at cfg ti).
  { unfold selected_base, base_at. rewrite G2. destruct (ti =? 0); reflexivity. }
  assert (K : length time = time_size (includeTime cfg) (useMillisecondResolution cfg) F /\ n = 9 + len time /\
    received_time cfg s (time_of (includeTime cfg) (useMillisecondResolution cfg) (baseTimeOffsets cfg) F time)).
  { unfold received_time, time_of, time_size. rewrite HSB, G3. fold t ti.
    unfold GetBinaryLength in E. destruct (includeTime cfg) eqn:EI; cbn [negb] in E.
    2:{ injection E as <- <-. split; [reflexivity|]. split; reflexivity. }
    destruct (Z.ltb_spec 0 (base_at cfg ti)) as [LB|LB].
    - assert (Hd : i64 (TimestampValue t - base_at cfg ti) = TimestampValue t - base_at cfg ti)
        by (apply i64_small; unfold is_i64; lia).
      rewrite Hd in E. set (d := TimestampValue t - base_at cfg ti) in *.
      destruct (Z.ltb_spec 0 d) as [Ld|Ld].
      + destruct (useMillisecondResolution cfg) eqn:EM.
        * rewrite Z.quot_div_nonneg in E by (unfold PerMillisecond; lia).
          destruct (Z.ltb_spec (d / PerMillisecond) 65535) as [LL|LL]; injection E as <- <-.
          -- cbv beta iota. unfold time. change (11 =? 11) with true. cbv iota.
             split; [apply be_put_length|]. split; [unfold len; rewrite be_put_length; reflexivity|].
             right. rewrite be_val_put. unfold GetTimestampC2. fold d. rewrite Hd.
             rewrite Z.quot_div_nonneg by (unfold PerMillisecond; lia).
             unfold u16, u64, PerMillisecond in *.
             change (2 ^ (8 * Z.of_nat 2)) with (2 ^ 16). rewrite Z.mod_mod by lia.
             rewrite (Z.mod_small (d / 10000) (2 ^ 16)) by lia.
             rewrite (Z.mod_small (base_at cfg ti + d / 10000 * 10000)) by lia. lia.
          -- cbv beta iota. unfold time. change (17 =? 11) with false.
             change (17 =? 13) with false. change (17 =? 17) with true. cbv iota.
             split; [apply be_put_length|]. split; [unfold len; rewrite be_put_length; reflexivity|].
             left. rewrite be_val_put. apply Z.mod_small. unfold is_u64 in H4. exact H4.
        * destruct (Z.ltb_spec d 4294967295) as [LL|LL]; injection E as <- <-.
          -- cbv beta iota. unfold time. change (13 =? 11) with false.
             change (13 =? 13) with true. cbv iota.
             split; [apply be_put_length|]. split; [unfold len; rewrite be_put_length; reflexivity|].
             right. rewrite be_val_put. unfold GetTimestampC4. fold d. rewrite Hd.
             unfold u32, u64. change (2 ^ (8 * Z.of_nat 4)) with (2 ^ 32). rewrite Z.mod_mod by lia.
             rewrite (Z.mod_small d (2 ^ 32)) by lia.
             rewrite (Z.mod_small (base_at cfg ti + d * 1)) by lia. lia.
          -- cbv beta iota. unfold time. change (17 =? 11) with false.
             change (17 =? 13) with false. change (17 =? 17) with true. cbv iota.
             split; [apply be_put_length|]. split; [unfold len; rewrite be_put_length; reflexivity|].
             left. rewrite be_val_put. apply Z.mod_small. unfold is_u64 in H4. exact H4.
      + injection E as <- <-. cbv beta iota. unfold time. change (17 =? 11) with false.
        change (17 =? 13) with false. change (17 =? 17) with true. cbv iota.
        split; [apply be_put_length|]. split; [unfold len; rewrite be_put_length; reflexivity|].
        left. rewrite be_val_put. apply Z.mod_small. unfold is_u64 in H4. exact H4.
    - injection E as <- <-. cbv beta iota. unfold time. change (17 =? 11) with false.
      change (17 =? 13) with false. change (17 =? 17) with true. cbv iota.
      split; [apply be_put_length|]. split; [unfold len; rewrite be_put_length; reflexivity|].
      left. rewrite be_val_put. apply Z.mod_small. unfold is_u64 in H4. exact H4. }
  destruct K as (K1 & K2 & K3).
  assert (HL : len (wire F (s_id s) (s_value s) time) = 9 + len time).
  { unfold wire, len. cbn [length]. rewrite !app_length, !be_put_length. lia. }
  eexists. split; [|split].
  - rewrite Decode_wire by assumption. rewrite HL. reflexivity.
  - cbn [m_SignalID m_Value m_Flags m_Timestamp]. split; [reflexivity|]. split; [reflexivity|].
    split; [|exact K3]. rewrite G4. apply flags_closure. exact Hfl.
  - cbn [fst]. rewrite HL, K2. reflexivity.
Qed.

(** Exact recovery. *)
Lemma exact_time cfg s t :
  received_time cfg s t -> includeTime cfg = true -> is_u64 (s_time s) ->
  s_time s < 2 ^ 62 ->
  (useMillisecondResolution cfg = true ->
     (s_time s - base_at cfg (s_timeIndex s)) mod 10000 = 0) ->
  t = s_time s.
Proof.
  unfold received_time. intros H HI Hu Hs Hm. rewrite HI in H.
  assert (HV : TimestampValue (s_time s) = s_time s).
  { unfold TimestampValue. change ValueMask with (2 ^ 62 - 1).
    rewrite Z.sub_1_r, <- Z.ones_equiv, Z.land_ones by lia.
    unfold is_u64 in Hu. rewrite Z.mod_small by lia. apply i64_small. unfold is_i64. lia. }
  rewrite HV in H. destruct H as [H|[H1 H2]]; [exact H|].
  destruct (useMillisecondResolution cfg); [|exact H2]. specialize (Hm eq_refl). lia.
Qed.

(** ** Streams *)
Lemma parse_stream cfg ss : forall pre rest,
  Forall sample_ok ss -> is_i64 (fst (baseTimeOffsets cfg)) -> is_i64 (snd (baseTimeOffsets cfg)) ->
  exists ms, parseCompact_loop cfg (pre ++ concat (map (encode_sample cfg) ss) ++ rest) (length ss) (len pre)
             = (ms, PDone) /\ Forall2 (received cfg) ss ms.
Proof.
  induction ss as [|s ss IH]; intros pre rest HF HB1 HB2.
  - exists []. split; [reflexivity|constructor].
  - inversion HF as [|? ? Hs HF']; subst. cbn [map concat length parseCompact_loop].
    rewrite slice_from_app. rewrite <- app_assoc.
    destruct (publisher_round_trip cfg s (concat (map (encode_sample cfg) ss) ++ rest) Hs HB1 HB2)
      as (m & D & R & _).
    rewrite D.
    destruct (IH (pre ++ encode_sample cfg s) rest HF' HB1 HB2) as (ms & P & F2).
    rewrite <- app_assoc in P. rewrite len_app in P. rewrite P.
    exists (m :: ms). split; [reflexivity|constructor; assumption].
Qed.

Lemma parse_stream0 cfg ss rest :
  Forall sample_ok ss -> is_i64 (fst (baseTimeOffsets cfg)) -> is_i64 (snd (baseTimeOffsets cfg)) ->
  exists ms, parseCompact cfg (concat (map (encode_sample cfg) ss) ++ rest) (length ss) = (ms, PDone) /\
             Forall2 (received cfg) ss ms.
Proof. intros. exact (parse_stream cfg ss [] rest ltac:(assumption) ltac:(assumption) ltac:(assumption)). Qed.

(** ** Malformed input: exactly when Decode panics *)
Lemma be_get_cases n l : (length l >= n)%nat -> be_get n l = Ok (be_val (firstn n l)).
Proof. intros H. unfold be_get. replace ((length l <? n)%nat) with false by lia. reflexivity. Qed.
Lemma be_get_short n l : (length l < n)%nat -> be_get n l = Panic.
Proof. intros H. unfold be_get. replace ((length l <? n)%nat) with true by lia. reflexivity. Qed.
Lemma slice_from_in {A} (l : list A) n : (n <= length l)%nat -> slice_from l (Z.of_nat n) = Ok (skipn n l).
Proof.
  intros H. unfold slice_from, len.
  replace ((Z.of_nat n <? 0) || (Z.of_nat (length l) <? Z.of_nat n)) with false by lia.
  rewrite Nat2Z.id. reflexivity.
Qed.

Lemma Decode_panic_iff cfg (buffer : bytes) :
  bytes_ok buffer ->
  (Decode cfg buffer = Err <-> len buffer < 9) /\
  (Decode cfg buffer = Panic <->
     9 <= len buffer /\
     let f := hd 0 buffer in
     let n := time_size (includeTime cfg) (useMillisecondResolution cfg) f in
     len buffer < 9 + Z.of_nat n /\
     (Z.testbit f 6 = true -> 0 < selected_base (baseTimeOffsets cfg) f)).
Proof.
  intros HOK. unfold Decode. destruct (Z.ltb_spec (len buffer) fixedLength) as [L|L]; unfold fixedLength in L.
  { split; [tauto|]. split; [discriminate|]. intros [H _]. lia. }
  destruct buffer as [|f b]; [unfold len in L; cbn in L; lia|].
  assert (Hf : is_u8 f) by (inversion HOK; assumption).
  assert (Hlen : (length (f :: b) >= 9)%nat) by (unfold len in L; lia).
  replace (idx (f :: b) 0) with (Ok f) by reflexivity. cbn [bind hd].
  rewrite SetFlags_spec by exact Hf.
  assert (S1 : slice_from (f :: b) 1 = Ok (skipn 1 (f :: b))) by (apply (slice_from_in _ 1); lia).
  assert (S5 : slice_from (f :: b) (1 + 4) = Ok (skipn 5 (f :: b))) by (apply (slice_from_in _ 5); lia).
  assert (S9 : slice_from (f :: b) (1 + 4 + 4) = Ok (skipn 9 (f :: b))) by (apply (slice_from_in _ 9); lia).
  assert (U1 : be_u32 (skipn 1 (f :: b)) = Ok (be_val (firstn 4 (skipn 1 (f :: b)))))
    by (apply be_get_cases; rewrite skipn_length; lia).
  assert (U5 : be_u32 (skipn 5 (f :: b)) = Ok (be_val (firstn 4 (skipn 5 (f :: b)))))
    by (apply be_get_cases; rewrite skipn_length; lia).
  rewrite S1. cbn [bind]. rewrite U1. cbn [bind]. rewrite S5. cbn [bind]. rewrite U5. cbn [bind].
  assert (HB : base_at cfg (if Z.testbit f 7 then 1 else 0) = selected_base (baseTimeOffsets cfg) f).
  { unfold base_at, selected_base. destruct (Z.testbit f 7); reflexivity. }
  rewrite HB, S9. cbn [bind].
  assert (Hsk : length (skipn 9 (f :: b)) = (length (f :: b) - 9)%nat) by apply skipn_length.
  set (tail := skipn 9 (f :: b)) in *. cbv zeta. unfold time_size.
  assert (NE : len (f :: b) < 9 <-> False) by lia. rewrite NE. unfold len.
  destruct (includeTime cfg); cbn [negb].
  2:{ split; [split; [discriminate|tauto]|]. split; [discriminate|]. intros [_ [H _]]. lia. }
  destruct (Z.testbit f 6).
  - destruct (useMillisecondResolution cfg);
    (destruct (Z.ltb_spec 0 (selected_base (baseTimeOffsets cfg) f)) as [LB|LB]; cbn [bind];
     [|split; [split; [discriminate|tauto]|]; split; [discriminate|]; intros [_ [_ H]]; specialize (H eq_refl); lia]).
    + unfold be_u16. destruct (Nat.lt_ge_cases (length tail) 2) as [Q|Q];
        [rewrite be_get_short by exact Q|rewrite be_get_cases by lia]; cbn [bind].
      * split; [split; [discriminate|tauto]|]. split; [|reflexivity]. intros _. lia.
      * split; [split; [discriminate|tauto]|]. split; [discriminate|]. lia.
    + unfold be_u32. destruct (Nat.lt_ge_cases (length tail) 4) as [Q|Q];
        [rewrite be_get_short by exact Q|rewrite be_get_cases by lia]; cbn [bind].
      * split; [split; [discriminate|tauto]|]. split; [|reflexivity]. intros _. lia.
      * split; [split; [discriminate|tauto]|]. split; [discriminate|]. lia.
  - unfold be_u64. destruct (Nat.lt_ge_cases (length tail) 8) as [Q|Q];
      [rewrite be_get_short by exact Q|rewrite be_get_cases by lia]; cbn [bind].
    + split; [split; [discriminate|tauto]|]. split; [|reflexivity]. intros _. split; [lia|]. split; [lia|]. discriminate.
    + split; [split; [discriminate|tauto]|]. split; [discriminate|]. lia.
Qed.

Lemma zeros_ok n : bytes_ok (repeat 0 n).
Proof. induction n; cbn [repeat]; constructor; [unfold is_u8; lia|exact IHn]. Qed.
