(** The texts of times (C114, C115). *)
From Coq Require Import Lia String.
From Verif Require Import Base FormatSpec CalModel CalSpec CalProofs TicksModel TicksSpec StampModel StampSpec StampProofs.
From Verif Require Import ExprModel TableModel XmlModel.

(** ** C114: the text of a timestamp *)

(** [t mod 2^62 - epoch_ticks] counts the 100-ns intervals from 1970 to the
    timestamp [t], whatever its leap-second marks.  String shows that time
    exactly when it is within an int64 of nanoseconds from 1970: from
    1677-09-21 to 2262-04-11. *)
Theorem C114_string_exactly : forall t, is_u64 t ->
  (shows (Ticks_String t) ((t mod 2 ^ 62 - epoch_ticks) * 100) <-> is_i64 ((t mod 2 ^ 62 - epoch_ticks) * 100)).
Proof. exact Ticks_String_exact. Qed.
Print Assumptions C114_string_exactly.
(** A text shows only one time. *)
Theorem C114_one_time : forall l t t', shows l t -> shows l t' -> t = t'.
Proof. exact shows_unique. Qed.
Print Assumptions C114_one_time.
Theorem C114_distinct_partial : forall t t', is_u64 t -> is_u64 t' ->
  is_i64 ((t mod 2 ^ 62 - epoch_ticks) * 100) -> is_i64 ((t' mod 2 ^ 62 - epoch_ticks) * 100) ->
  (Ticks_String t = Ticks_String t' <-> t mod 2 ^ 62 = t' mod 2 ^ 62).
Proof. exact Ticks_String_distinct. Qed.
Print Assumptions C114_distinct_partial.
Theorem C114_short_partial : forall t, is_u64 t -> is_i64 ((t mod 2 ^ 62 - epoch_ticks) * 100) ->
  shows_time_of_day (Ticks_ShortTime t) ((t mod 2 ^ 62 - epoch_ticks) * 100).
Proof. exact Ticks_ShortTime_shows. Qed.
Print Assumptions C114_short_partial.
(** Outside that span some other time is shown, for every timestamp. *)
Theorem C114_other_time : forall t, is_u64 t -> ~ is_i64 ((t mod 2 ^ 62 - epoch_ticks) * 100) ->
  exists t', shows (Ticks_String t) t' /\ t' <> (t mod 2 ^ 62 - epoch_ticks) * 100.
Proof.
  intros t U N. exists (i64 ((t mod 2 ^ 62 - epoch_ticks) * 100)). split; [apply Ticks_String_shows, U|].
  intros E. apply N. rewrite <- E. apply is_i64_i64.
Qed.
Print Assumptions C114_other_time.
(** The timestamp 0, the zero value of Ticks, is the beginning of year 1; its
    text is of the year 1754. *)
Theorem C114_zero_refuted : Ticks_String 0 = lit "1754-08-30 22:43:41.128654848" /\ ~ shows (Ticks_String 0) ((0 mod 2 ^ 62 - epoch_ticks) * 100).
Proof.
  split; [vm_compute; reflexivity|]. rewrite C114_string_exactly by (unfold is_u64; lia). unfold is_i64, epoch_ticks. cbn. lia.
Qed.
Print Assumptions C114_zero_refuted.
Example C114_nonvacuous :
  let t := 637186175991239000 + 2 ^ 63 in
  is_u64 t /\ is_i64 ((t mod 2 ^ 62 - epoch_ticks) * 100) /\ Ticks_String t = lit "2020-02-29 23:59:59.1239" /\ Ticks_ShortTime t = lit "23:59:59.123".
Proof. cbv zeta. unfold is_u64, is_i64. split; [lia|]. split; [vm_compute; split; [discriminate|reflexivity]|]. split; vm_compute; reflexivity. Qed.

(** ** C115: the dates of a metadata document *)

(** A date and time with any number of digits of the second and a numeric zone
    is read as the instant it writes. *)
Theorem C115_reads_partial : forall x l off z t,
  local_text x l -> zone_text off z -> instant_of x off t -> read_DateTime (l ++ z) = (t, off).
Proof. intros x l off z t L Z I. unfold read_DateTime. rewrite (Parse_text x off l z t L Z I). reflexivity. Qed.
Print Assumptions C115_reads_partial.
(** The value of the field of a loaded row. *)
Theorem C115_cell_partial : forall X x l off z t,
  local_text x l -> zone_text off z -> instant_of x off t -> xml_cell X DDateTime (l ++ z) = CTime t.
Proof. intros X x l off z t L Z I. cbn [xml_cell]. unfold xsd_time. rewrite (C115_reads_partial x l off z t L Z I). reflexivity. Qed.
Print Assumptions C115_cell_partial.
(** Exactly these texts are read; any other is the beginning of year 1. *)
Theorem C115_exactly : forall l,
  (forall t off, accepted l t off -> read_DateTime l = (t, off)) /\
  ((forall t off, ~ accepted l t off) -> read_DateTime l = (zero_time, 0)).
Proof. exact read_DateTime_exact. Qed.
Print Assumptions C115_exactly.
Theorem C115_zero_time : instant_of (Moment (1, 1, 1) 0 0 0 0) 0 zero_time.
Proof. exists (days_of_date 1 1 1). split; [apply on_day_of_date; split; cbn; lia|]. vm_compute. reflexivity. Qed.
Print Assumptions C115_zero_time.
(** Every time written in UTC with "Z", and every time without a zone, is read
    as the beginning of year 1. *)
Theorem C115_utc_refuted : forall x l, local_text x l -> read_DateTime (l ++ lit "Z") = (zero_time, 0).
Proof. intros x l L. unfold read_DateTime. rewrite (Parse_no_zone x l (lit "Z") L); [reflexivity|right; reflexivity]. Qed.
Print Assumptions C115_utc_refuted.
Theorem C115_no_zone_refuted : forall x l, local_text x l -> read_DateTime l = (zero_time, 0).
Proof. intros x l L. unfold read_DateTime. rewrite <- (app_nil_r l), (Parse_no_zone x l [] L); [reflexivity|left; reflexivity]. Qed.
Print Assumptions C115_no_zone_refuted.

(** The text of a date/time value says its instant, cut to 10 ms, on the clock
    of its zone; *)
Theorem C115_text_partial : forall t off, 0 <= Year (t + off * ns_per_second) < 10000 -> off mod 60 = 0 -> -86400 < off < 86400 ->
  exists x l z, DateTime_String (t, off) = l ++ z /\ local_text x l /\ zone_text off z /\ instant_of x off (t - t mod 10 ^ 7).
Proof. exact DateTime_String_text. Qed.
Print Assumptions C115_text_partial.
(** and reads back as that. *)
Theorem C115_round_trip_partial : forall t off, 0 <= Year (t + off * ns_per_second) < 10000 -> off mod 60 = 0 -> -86400 < off < 86400 ->
  read_DateTime (DateTime_String (t, off)) = (t - t mod 10 ^ 7, off).
Proof. intros t off Y M B. unfold read_DateTime. rewrite (DateTime_round_trip t off Y M B). reflexivity. Qed.
Print Assumptions C115_round_trip_partial.
(** Milliseconds are lost. *)
Theorem C115_milliseconds_refuted : exists t t', t' = t + 9 * 10 ^ 6 /\ DateTime_String (t', 0) = DateTime_String (t, 0) /\
  fst (read_DateTime (lit "2020-02-29T12:00:00.129+00:00")) = t' /\ DateTime_String (read_DateTime (lit "2020-02-29T12:00:00.129+00:00")) = lit "2020-02-29T12:00:00.12+00:00".
Proof. exists 1582977600120000000, 1582977600129000000. split; [lia|]. split; [vm_compute; reflexivity|]. split; vm_compute; reflexivity. Qed.
Print Assumptions C115_milliseconds_refuted.

Lemma digits_lit k n l : length l = k -> forallb isDigit l = true -> dec_value l = n -> digits k n l.
Proof. intros L F V. split; [exact L|]. split; [|exact V]. apply List.Forall_forall. intros c C. rewrite forallb_forall in F. apply isDigit_is, F, C. Qed.
Example C115_nonvacuous : exists x off t,
  local_text x (lit "2020-02-29T23:59:59.1234567891") /\ zone_text off (lit "-05:30") /\ instant_of x off t /\
  read_DateTime (lit "2020-02-29T23:59:59.1234567891-05:30") = (t, off) /\ t = 1583040599123456789 /\
  DateTime_String (t, off) = lit "2020-02-29T23:59:59.12-05:30".
Proof.
  exists (Moment (2020, 2, 29) 23 59 59 123456789), (-19800), 1583040599123456789.
  split; [|split; [|split; [|split; [vm_compute; reflexivity|split; [reflexivity|vm_compute; reflexivity]]]]].
  - split; [split; [cbn; lia|cbn [m_hour m_minute m_second m_ns]; lia]|].
    exists (lit "2020-02-29"), (lit "23:59:59"), (lit ".1234567891"). cbn [m_date m_hour m_minute m_second m_ns]. split; [|split; [|split; [|reflexivity]]].
    + exists (lit "2020"), (lit "02"), (lit "29"). repeat (split; [apply digits_lit; reflexivity|]). reflexivity.
    + exists (lit "23"), (lit "59"), (lit "59"). repeat (split; [apply digits_lit; reflexivity|]). reflexivity.
    + right. exists (lit "1234567891"). split; [reflexivity|]. split; [discriminate|]. split; [|vm_compute; reflexivity].
      apply (digits_lit 10 1234567891); reflexivity.
  - exists 45, 5, 30, (lit "05"), (lit "30"). split; [lia|]. split; [lia|]. repeat (split; [apply digits_lit; reflexivity|]). split; [reflexivity|]. right. split; reflexivity.
  - exists (days_of_date 2020 2 29). split; [apply on_day_of_date; cbn; lia|]. vm_compute. reflexivity.
Qed.
