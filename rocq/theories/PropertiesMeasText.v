(** The texts of state flags and measurements (C119, C120), adjusted values (C121) and
    the records of measurements (C122). *)
From Coq Require Import Lia String SpecFloat Reals.
From Flocq Require Import Core.Core.
From Verif Require Import Base GuidModel FormatModel StrModel NumModel CompactModel TicksSpec StampModel StampSpec StampProofs StampProofs2 GoTextModel GoTextSpec MeasTextModel MeasTextSpec RecordSpec
  ExprModel FloatSpec FloatProofs MeasTextProofs MeasTextProofs2 MeasTextProofs3.
Open Scope list_scope.
Open Scope Z_scope.

(** ** C119: the text of state flags *)

Theorem C119_text : forall flags, is_u32 flags -> StateFlags_String flags = flags_text flags.
Proof. intros flags F. apply StateFlags_text. unfold is_u32 in F. lia. Qed.
Print Assumptions C119_text.
Theorem C119_distinct : forall v w, is_u32 v -> is_u32 w -> (StateFlags_String v = StateFlags_String w <-> v = w).
Proof.
  intros v w V W. split; [|intros ->; reflexivity]. rewrite !C119_text by assumption. apply flags_text_injective; assumption.
Qed.
Print Assumptions C119_distinct.
Example C119_nonvacuous : StateFlags_String 0x80010003 = lit "BadData,SuspectData,BadTime,MeasurementError" /\ StateFlags_String 0 = lit "Normal" /\
  (forall i, (i < 32)%nat -> StateFlags_String (2 ^ Z.of_nat i) = ascii_bytes (nth i flag_names EmptyString)).
Proof.
  split; [reflexivity|]. split; [reflexivity|]. intros i I.
  do 32 (destruct i as [|i]; [vm_compute; reflexivity|]). lia.
Qed.

(** ** C120: the text of a measurement *)

(** Identifier, time of day, value with three decimals, flags *)
Theorem C120_text : forall m, guid_ok (m_SignalID m) -> is_u32 (m_Flags m) ->
  Measurement_String m = guid_String (m_SignalID m) ++ lit " @ " ++ Ticks_ShortTime (m_Timestamp m) ++ lit " = " ++
    FormatFloat (d_of_single (Float32frombits (m_Value m))) 3 ++ lit " (" ++ flags_text (m_Flags m) ++ lit ")".
Proof. intros m G F. unfold Measurement_String, measurement_text. rewrite C119_text by exact F. reflexivity. Qed.
Print Assumptions C120_text.
(** The value is that of the float32 received: the sign, and the fraction with the
    hidden bit scaled by the exponent; nothing is lost in the conversion to float64. *)
Theorem C120_value : forall b, is_u32 b -> (b / 2 ^ 23 mod 2 ^ 8 < 255)%Z ->
  let e := (b / 2 ^ 23 mod 2 ^ 8)%Z in let m := (b mod 2 ^ 23)%Z in let x := d_of_single (Float32frombits b) in
  is_number x /\ (real x = (if Z.testbit b 31 then -1 else 1) * (if (e =? 0)%Z then IZR m * bpow radix2 (-149) else IZR (2 ^ 23 + m) * bpow radix2 (e - 150)))%R.
Proof. exact single_value. Qed.
Print Assumptions C120_value.
Theorem C120_special : forall b, is_u32 b -> b / 2 ^ 23 mod 2 ^ 8 = 255 ->
  d_of_single (Float32frombits b) = if b mod 2 ^ 23 =? 0 then S754_infinity (Z.testbit b 31) else S754_nan.
Proof. intros b B E. unfold Float32frombits. rewrite E. cbn [Z.eqb Pos.eqb]. destruct (b mod 2 ^ 23 =? 0); reflexivity. Qed.
Print Assumptions C120_special.
(** Equal texts: the same identifier, the same flags, the same texts of time and value
    (for which see C114 and C118). *)
Theorem C120_distinct : forall m n, guid_ok (m_SignalID m) -> guid_ok (m_SignalID n) -> is_u32 (m_Flags m) -> is_u32 (m_Flags n) ->
  Measurement_String m = Measurement_String n ->
  m_SignalID m = m_SignalID n /\ m_Flags m = m_Flags n /\ Ticks_ShortTime (m_Timestamp m) = Ticks_ShortTime (m_Timestamp n) /\
  FormatFloat (d_of_single (Float32frombits (m_Value m))) 3 = FormatFloat (d_of_single (Float32frombits (m_Value n))) 3.
Proof. intros m n G H F K E. apply measurement_text_injective in E; intuition. Qed.
Print Assumptions C120_distinct.
(** The text of the time of day determines it to the millisecond, of 10000 ticks, for
    times from 1677 to 2262. *)
Theorem C120_time_partial : forall t t', is_u64 t -> is_u64 t' -> is_i64 ((t mod 2 ^ 62 - epoch_ticks) * 100) -> is_i64 ((t' mod 2 ^ 62 - epoch_ticks) * 100) ->
  Ticks_ShortTime t = Ticks_ShortTime t' -> t mod 2 ^ 62 mod 864000000000 / 10000 = t' mod 2 ^ 62 mod 864000000000 / 10000.
Proof. exact short_time_determines. Qed.
Print Assumptions C120_time_partial.
(** A measurement without timestamp shows another time of day, the same as one made
    at that time. *)
Theorem C120_time_refuted : forall id v fl, exists t,
  Ticks_ShortTime 0 = lit "22:43:41.128" /\ is_u64 t /\
  Measurement_String (mkMeas id v t fl) = Measurement_String (mkMeas id v 0 fl) /\
  t mod 2 ^ 62 mod 864000000000 / 10000 <> 0 mod 2 ^ 62 mod 864000000000 / 10000.
Proof.
  intros id v fl. exists 637449650211280000. split; [vm_compute; reflexivity|]. split; [unfold is_u64; lia|].
  split; [|vm_compute; discriminate].
  unfold Measurement_String. cbn [m_SignalID m_Value m_Timestamp m_Flags].
  replace (Ticks_ShortTime 637449650211280000) with (Ticks_ShortTime 0) by (vm_compute; reflexivity). reflexivity.
Qed.
Print Assumptions C120_time_refuted.
(** No more than that: values under half a thousandth all look alike, and days do not show. *)
Example C120_not_shown : let id := repeat 7 16 in exists m n, Measurement_String m = Measurement_String n /\ m_Value m <> m_Value n /\ m_Timestamp m <> m_Timestamp n /\
  m_SignalID m = id /\ m_SignalID n = id.
Proof.
  cbv zeta. exists (mkMeas (repeat 7 16) 0x38d1b717 637449732200000000 0), (mkMeas (repeat 7 16) 0 637448868200000000 0). split; [vm_compute; reflexivity|]. repeat split; discriminate.
Qed.
Example C120_nonvacuous : Measurement_String (mkMeas [1; 2; 3; 4; 5; 6; 7; 8; 9; 10; 11; 12; 13; 14; 15; 16] 0x426fe666 637449732201234567 0x11) =
  lit "{01020304-0506-0708-090a-0b0c0d0e0f10} @ 01:00:20.123 = 59.975 (BadData,AlarmHigh)" /\ 0x426fe666 / 2 ^ 23 mod 2 ^ 8 < 255.
Proof. split; vm_compute; reflexivity. Qed.

(** ** C121: adjusted values *)

(** The record of the registry decides; exact product and sum are each rounded to the
    nearest double. *)
Theorem C121_linear : forall s id v r m, load (ms_registry s) id = Some r -> nth_error (ms_records s) r = Some m ->
  is_number v -> is_number (mm_Multiplier m) -> is_number (mm_Adder m) -> (Rabs (nearest (real v * real (mm_Multiplier m))) < bpow radix2 1024)%R ->
  rounds_to (AdjustedValue s id v) (nearest (real v * real (mm_Multiplier m)) + real (mm_Adder m))%R.
Proof.
  intros s id v r m L N V M A B. unfold AdjustedValue. rewrite L, N.
  destruct (proj1 (mul_rounds v (mm_Multiplier m) V M) B) as [NP EP]. rewrite <- EP. apply add_rounds; assumption.
Qed.
Print Assumptions C121_linear.
Theorem C121_unregistered : forall s id v, load (ms_registry s) id = None -> AdjustedValue s id v = v.
Proof. intros s id v L. unfold AdjustedValue. rewrite L. reflexivity. Qed.
Print Assumptions C121_unregistered.
(** With the adder and multiplier of a new record the value stays; *)
Theorem C121_default_partial : forall s id v r m, load (ms_registry s) id = Some r -> nth_error (ms_records s) r = Some m ->
  mm_Multiplier m = mm_Multiplier (new_record id) -> mm_Adder m = mm_Adder (new_record id) -> valid_binary 53 1024 v = true -> v <> S754_zero true -> AdjustedValue s id v = v.
Proof. intros s id v r m L N M A V Z. unfold AdjustedValue. rewrite L, N, M, A. apply adjust_default; assumption. Qed.
Print Assumptions C121_default_partial.
(** except that the negative zero becomes the positive one. *)
Theorem C121_default_refuted : exists s id, (exists acts ev, mrun mstart acts = Some (s, ev)) /\ AdjustedValue s id (S754_zero true) = S754_zero false.
Proof. exists (MState [new_record Empty] [(Empty, 0%nat)] (set_pc (MState [] [] (set_pc mstart 0 (Missed Empty 0))) 0 Outside)), Empty. split; [exists [MLookup 0 Empty; MStore 0]; eexists; vm_compute; reflexivity|reflexivity]. Qed.
(** Setting up a connection, also an automatic one, takes every adjustment back. *)
Theorem C121_connection_refuted : forall s id v s' ev, mstep s MConnect = Some (s', ev) -> AdjustedValue s' id v = v.
Proof. intros s id v s' ev E. injection E as <- <-. reflexivity. Qed.
Print Assumptions C121_connection_refuted.
(** What is written into a registered record counts from then on. *)
Theorem C121_written : forall s id v r a b s' ev, load (ms_registry s) id = Some r ->
  mstep s (MWrite r (fun m => MRecord (mm_SignalID m) a b (mm_ID m) (mm_Source m))) = Some (s', ev) -> AdjustedValue s' id v = d_add (d_mul v b) a.
Proof.
  intros s id v r a b s' ev L E. cbn [mstep] in E. destruct (r <? List.length (ms_records s))%nat eqn:R; [|discriminate]. injection E as <- <-.
  unfold AdjustedValue. cbn [ms_registry ms_records]. rewrite L. apply Nat.ltb_lt in R.
  assert (H : forall (l : list mrecord) n f, (n < List.length l)%nat -> exists m, nth_error (update_nth l n f) n = Some (f m)).
  { induction l as [|x l IH]; intros [|n] f K; cbn in K |- *; try lia; [eauto|]. apply IH. lia. }
  destruct (H (ms_records s) r (fun m => MRecord (mm_SignalID m) a b (mm_ID m) (mm_Source m)) R) as (m & ->). reflexivity.
Qed.
Print Assumptions C121_written.
(** a value of 2 with multiplier 3 and adder 0.5 *)
Example C121_nonvacuous : exists s ev, mrun mstart [MLookup 0 Empty; MStore 0; MWrite 0 (fun m => MRecord (mm_SignalID m) (d_of_Z 5) (d_of_Z 3) (mm_ID m) (mm_Source m))] = Some (s, ev) /\
  load (ms_registry s) Empty = Some 0%nat /\ AdjustedValue s Empty (d_of_Z 2) = d_of_Z 11.
Proof. eexists. eexists. split; [vm_compute; reflexivity|]. split; vm_compute; reflexivity. Qed.

(** ** C122: the record of a measurement *)

(** As long as no two goroutines look up the same new identifier at the same time and no connection
    is set up, an identifier has one record: the one registered. *)
Theorem C122_one_record_partial : forall acts s ev id r t, all_alone mstart acts -> ~ In MConnect acts -> mrun mstart acts = Some (s, ev) ->
  In (MReturned t id r) ev -> load (ms_registry s) id = Some r /\ forall u q, In (MReturned u id q) ev -> q = r.
Proof.
  intros acts s ev id r t A N E I. pose proof (run_returned acts mstart s ev t id r start_sound A N E I) as L. split; [exact L|].
  intros u q J. pose proof (run_returned acts mstart s ev u id q start_sound A N E J) as K. rewrite L in K. injection K as <-. reflexivity.
Qed.
Print Assumptions C122_one_record_partial.
(** Under any schedule, a record once registered stays registered until a connection is
    set up, and every lookup that begins later returns it. *)
Theorem C122_registered : forall acts s s' ev id r, ~ In MConnect acts -> mrun s acts = Some (s', ev) -> load (ms_registry s) id = Some r ->
  load (ms_registry s') id = Some r /\ forall t, ms_pc s' t = Outside -> mstep s' (MLookup t id) = Some (s', [MReturned t id r]).
Proof.
  intros acts s s' ev id r N E L. pose proof (run_registered acts s s' ev id r N E L) as R. split; [exact R|].
  intros t P. cbn [mstep]. rewrite P, R. reflexivity.
Qed.
Print Assumptions C122_registered.
(** A lookup that has found nothing registers its record when none is registered. *)
Theorem C122_first : forall s t id r, ms_pc s t = Missed id r -> load (ms_registry s) id = None ->
  exists s', mstep s (MStore t) = Some (s', [MReturned t id r]) /\ load (ms_registry s') id = Some r.
Proof.
  intros s t id r P L. cbn [mstep]. rewrite P, L. eexists. split; [reflexivity|]. cbn [ms_registry load]. rewrite bytes_eqb_refl. reflexivity.
Qed.
Print Assumptions C122_first.
(** Two goroutines that look up the same new identifier at the same time get different
    records, and what the second writes into its own has no effect. *)
Theorem C122_race_refuted : forall id v a b, exists s ev, mrun mstart [MLookup 0 id; MLookup 1 id; MStore 0; MStore 1; MWrite 1 (fun m => MRecord (mm_SignalID m) a b (mm_ID m) (mm_Source m))] = Some (s, ev) /\
  ev = [MReturned 0 id 0; MReturned 1 id 1] /\ load (ms_registry s) id = Some 0%nat /\ AdjustedValue s id v = d_add (d_mul v one) d_zero.
Proof.
  intros id v a b. eexists. eexists. split.
  - cbn [mrun mstep mstart ms_pc ms_registry ms_records load set_pc Nat.eqb List.length app]. rewrite bytes_eqb_refl. cbn [mrun mstep mstart ms_pc ms_registry ms_records load set_pc Nat.eqb List.length app Nat.ltb Nat.leb]. reflexivity.
  - split; [reflexivity|]. unfold AdjustedValue. cbn [ms_registry load]. rewrite bytes_eqb_refl. split; reflexivity.
Qed.
Print Assumptions C122_race_refuted.
Example C122_nonvacuous : exists s ev, mrun mstart [MLookup 0 (repeat 1 16); MLookup 1 (repeat 2 16); MStore 1; MStore 0; MLookup 2 (repeat 1 16); MLookup 1 (repeat 1 16)] = Some (s, ev) /\
  all_alone mstart [MLookup 0 (repeat 1 16); MLookup 1 (repeat 2 16); MStore 1; MStore 0; MLookup 2 (repeat 1 16); MLookup 1 (repeat 1 16)] /\
  In (MReturned 2 (repeat 1 16) 0) ev /\ In (MReturned 1 (repeat 1 16) 0) ev /\ In (MReturned 1 (repeat 2 16) 1) ev.
Proof.
  eexists. eexists. split; [vm_compute; reflexivity|]. split.
  - cbn [all_alone alone]. split; [|vm_compute]; repeat split; intros [|[|u]] r; vm_compute; discriminate.
  - cbn [In]. auto 12.
Qed.
