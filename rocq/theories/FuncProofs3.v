(** Proofs about the date functions (C92). *)
From Coq Require Import Lia ZifyBool ZifyNat QArith String.
From Verif Require Import Base GuidModel FormatModel StrModel CalModel CalSpec NumModel ExprModel ExprSpec FuncSpec ExprProofs
  ExprPanic StrProofs ExprPanic2 ExprProofs2 ExprProofs5 ExprProofs6 CalProofs FuncProofs FuncProofs2.
Close Scope Q_scope.
Open Scope list_scope.
Open Scope Z_scope.
Ltac Zify.zify_post_hook ::= Z.div_mod_to_equations.

(** ** Reading a time *)

Lemma time_parts t : at_time t (day_number t) (Hour t) (Minute t) (Second t) (Nanosecond t).
Proof.
  unfold at_time, day_number, Hour, Minute, Second, Nanosecond, ns_of_day, ns_per_day, day_ns, ns_per_second.
  change (86400 * 1000000000) with 86400000000000. change (3600 * 1000000000) with 3600000000000. change (60 * 1000000000) with 60000000000.
  set (r := t mod 86400000000000). assert (R : 0 <= r < 86400000000000) by (unfold r; lia).
  assert (T : t = t / 86400000000000 * 86400000000000 + r) by (unfold r; lia). clearbody r.
  assert (r / 60000000000 = r / 3600000000000 * 60 + (r / 60000000000) mod 60) by lia.
  assert (r / 1000000000 = r / 60000000000 * 60 + (r / 1000000000) mod 60) by lia.
  assert (r = r / 1000000000 * 1000000000 + r mod 1000000000) by lia.
  split; [|lia]. lia.
Qed.
Lemma time_unique t day h mi s ns : at_time t day h mi s ns ->
  day = day_number t /\ h = Hour t /\ mi = Minute t /\ s = Second t /\ ns = Nanosecond t.
Proof.
  intros (T & A). destruct (time_parts t) as (T' & A'). unfold day_ns in *. rewrite T in T' at 1.
  set (d' := day_number t) in *. set (h' := Hour t) in *. set (m' := Minute t) in *. set (s' := Second t) in *. set (n' := Nanosecond t) in *.
  clearbody d' h' m' s' n'. clear T t.
  assert (day = d') by lia. subst. assert (h = h') by lia. subst. assert (mi = m') by lia. subst. assert (s = s') by lia. lia.
Qed.
Lemma day_unique t day : day * day_ns <= t < (day + 1) * day_ns -> day = day_number t.
Proof. unfold day_number, ns_per_day, day_ns, ns_per_second. change (86400 * 1000000000) with 86400000000000. lia. Qed.
Lemma day_bounds t : day_number t * day_ns <= t < (day_number t + 1) * day_ns.
Proof. unfold day_number, ns_per_day, day_ns, ns_per_second. change (86400 * 1000000000) with 86400000000000. lia. Qed.

Lemma date_of t : on_day (day_number t) (Year t, Month t, Day t).
Proof.
  unfold Year, Month, Day. pose proof (on_day_date (day_number t)) as H. destruct (date_of_days (day_number t)) as [[y m] d]. exact H.
Qed.
Lemma on_day_fun n x x' : on_day n x -> on_day n x' -> x = x'.
Proof. intros A B. rewrite (on_day_unique n x A), (on_day_unique n x' B). reflexivity. Qed.
Lemma on_day_inj n n' x : on_day n x -> on_day n' x -> n = n'.
Proof. intros A B. apply date_of_days_inj. rewrite <- (on_day_unique n x A), <- (on_day_unique n' x B). reflexivity. Qed.
Lemma first_valid y m : 1 <= m <= 12 -> valid_date (y, m, 1).
Proof. intros M. split; [exact M|]. pose proof (month_days_pos y m). lia. Qed.
Lemma first_on_day y m : 1 <= m <= 12 -> on_day (days_of_date y m 1) (y, m, 1).
Proof. intros M. apply on_day_of_date, first_valid, M. Qed.
Lemma first_days n y m : on_day n (y, m, 1) -> 1 <= m <= 12 -> n = days_of_date y m 1.
Proof. intros H M. apply (on_day_inj _ _ (y, m, 1) H), first_on_day, M. Qed.

Lemma weekday_spec t : day_of_week (day_number t) (Weekday t + 1).
Proof. unfold day_of_week, Weekday. set (n := day_number t). clearbody n. lia. Qed.
Lemma weekday_unique n w w' : day_of_week n w -> day_of_week n w' -> w = w'.
Proof. unfold day_of_week. lia. Qed.
Lemma week_spec t : week_of_year (day_number t) (ISOWeek t).
Proof.
  unfold week_of_year, ISOWeek. set (n := day_number t). set (th := n + 3 - (Weekday t + 6) mod 7).
  assert (T : th mod 7 = 0 /\ th - 3 <= n <= th + 3) by (unfold th, Weekday; fold n; clearbody n; clear th; lia).
  pose proof (on_day_date th) as O. destruct (date_of_days th) as [[y m] d] eqn:D.
  exists th, y, m, d, (days_of_date y 1 1). destruct T as [T B].
  split; [unfold day_of_week; clear - T; lia|]. split; [exact B|]. split; [exact O|]. split; [apply first_on_day; lia|].
  set (q := th - days_of_date y 1 1). clearbody q. clear. lia.
Qed.
Lemma week_unique n w w' : week_of_year n w -> week_of_year n w' -> w = w'.
Proof.
  intros (th & y & m & d & j & D & B & O & J & W) (th' & y' & m' & d' & j' & D' & B' & O' & J' & W').
  assert (th = th') by (unfold day_of_week in *; lia). subst th'.
  pose proof (on_day_fun _ _ _ O O') as E. injection E as <- <- <-. pose proof (on_day_inj _ _ _ J J'). subst j'. lia.
Qed.

(** ** DatePart *)

Definition part_value (t : Z) (name : string) : Z :=
  match interval_by_name name with
  | TYear => Year t | TMonth => Month t | TDayOfYear => YearDay t | TDay => Day t | TWeekDay => Weekday t + 1
  | TWeek => ISOWeek t | THour => Hour t | TMinute => Minute t | TSecond => Second t | TMillisecond => Nanosecond t / 1000000
  end.
Lemma part_value_spec t name : In name interval_list -> part t name (part_value t name).
Proof.
  intros I. pose proof (time_parts t) as T. pose proof (date_of t) as D.
  cbn in I. repeat destruct I as [<- | I]; try contradiction.
  - change (part t "YEAR" (Year t)). eapply part_year; eassumption.
  - change (part t "MONTH" (Month t)). eapply part_month; eassumption.
  - change (part t "DAYOFYEAR" (YearDay t)). unfold YearDay.
    eapply part_day_of_year; [exact T|exact D|apply first_on_day; lia].
  - change (part t "DAY" (Day t)). eapply part_day; eassumption.
  - change (part t "WEEK" (ISOWeek t)). eapply part_week; [exact T|apply week_spec].
  - change (part t "WEEKDAY" (Weekday t + 1)). eapply part_weekday; [exact T|apply weekday_spec].
  - change (part t "HOUR" (Hour t)). eapply part_hour; exact T.
  - change (part t "MINUTE" (Minute t)). eapply part_minute; exact T.
  - change (part t "SECOND" (Second t)). eapply part_second; exact T.
  - change (part t "MILLISECOND" (Nanosecond t / 1000000)).
    eapply (part_millisecond t _ _ _ _ _ _ (Nanosecond t mod 1000000)); [exact T| |]; set (n := Nanosecond t); clearbody n; clear; lia.
Qed.
Lemma part_unique t name n : part t name n -> n = part_value t name.
Proof.
  intros P. destruct P as [day h mi s ns y m d T O|day h mi s ns y m d T O|day h mi s ns y m d T O|day h mi s ns y m d j T O J
    |day h mi s ns w T W|day h mi s ns w T W|day h mi s ns T|day h mi s ns T|day h mi s ns T|day h mi s ns ms us T E U];
    destruct (time_unique _ _ _ _ _ _ T) as (-> & -> & -> & -> & EN).
  - pose proof (on_day_fun _ _ _ O (date_of t)) as E. injection E as -> _ _. reflexivity.
  - pose proof (on_day_fun _ _ _ O (date_of t)) as E. injection E as _ -> _. reflexivity.
  - pose proof (on_day_fun _ _ _ O (date_of t)) as E. injection E as _ _ ->. reflexivity.
  - pose proof (on_day_fun _ _ _ O (date_of t)) as E. injection E as -> _ _.
    rewrite (first_days j (Year t) 1 J ltac:(lia)). reflexivity.
  - apply (week_unique _ _ _ W (week_spec t)).
  - apply (weekday_unique _ _ _ W (weekday_spec t)).
  - reflexivity.
  - reflexivity.
  - reflexivity.
  - change (ms = Nanosecond t / 1000000). rewrite <- EN, E. clear - U. lia.
Qed.

Lemma moment_convert L v t : moment L v t -> Convert L v VDateTime = Ok (vTime t) /\ date_or_string v = true /\ ~ null v.
Proof.
  intros [u|s u P].
  - split; [reflexivity|]. split; [reflexivity|discriminate].
  - split; [|split; [reflexivity|discriminate]]. unfold Convert. cbn [IsNull ve_value vStr ve_type].
    unfold convertFromString. cbn [stringValue ve_value vStr bind]. unfold date_of_string. rewrite P. reflexivity.
Qed.

Lemma date_part_eval L row x y v t s name : ascii_tables L ->
  Evaluate L row x = Ok v -> moment L v t -> Evaluate L row y = Ok (vStr s) -> In name interval_list -> spells s name ->
  Evaluate L row (EFunction FDatePart [x; y]) = Ok (vInt32 (i32 (part_value t name))).
Proof.
  intros AT X M Y I S. destruct (moment_convert L v t M) as (C & D & N).
  rewrite (eval_2 L row FDatePart x y v (vStr s) VDateTime VString (fn_datePart L) X N Y ltac:(discriminate)) by reflexivity.
  unfold fn_datePart. rewrite D. cbn [negb is_str ve_type vStr vtype_eqb]. cbn [IsNull ve_value vStr].
  rewrite (proj2 (IsNull_false v) N), C. cbn [bind stringValue ve_value vStr].
  rewrite (interval_known L s name AT I S). cbn [bind dateTimeValue ve_value vTime NewValueExpression]. reflexivity.
Qed.

(** ** DateAdd *)

Definition add_value (t k : Z) (name : string) : Z :=
  match interval_by_name name with
  | TYear => AddDate t k 0 0
  | TMonth => AddDate t 0 k 0
  | TDayOfYear | TDay | TWeekDay => AddDate t 0 0 k
  | TWeek => AddDate t 0 0 (k * 7)
  | THour => t + 3600 * ns_per_second * k
  | TMinute => t + 60 * ns_per_second * k
  | TSecond => t + ns_per_second * k
  | TMillisecond => t + 1000000 * k
  end.
Lemma ns_of_day_sub t : ns_of_day t = t - day_number t * day_ns.
Proof. unfold ns_of_day, day_number, ns_per_day, day_ns, ns_per_second. change (86400 * 1000000000) with 86400000000000. lia. Qed.
Lemma add_days t k : AddDate t 0 0 k = t + k * day_ns.
Proof.
  unfold AddDate. pose proof (date_valid (day_number t)) as V.
  destruct (date_of_days (day_number t)) as [[y m] d] eqn:DD. pose proof (days_of_date_of _ _ _ _ DD) as O. cbn in V.
  replace (y + 0 + (m - 1 + 0) / 12) with y by (clear - V; lia). replace ((m - 1 + 0) mod 12 + 1) with m by (clear - V; lia).
  rewrite days_of_date_month, ns_of_day_sub. pose proof (days_of_date_month y m d) as D.
  rewrite O in D. change ns_per_day with day_ns. set (f := days_of_date y m 1) in *. set (g := day_number t) in *. clearbody f g.
  clear - D. unfold day_ns. lia.
Qed.
Lemma add_months t k name n : month_length name n -> forall r,
  r = add_value t k name -> later t k name r.
Proof.
  intros M r ->.
  assert (V : add_value t k name =
    let '(y, m, d) := date_of_days (day_number t) in
    let q := 12 * y + m + k * n - 1 in
    days_of_date (q / 12) (q mod 12 + 1) d * ns_per_day + ns_of_day t).
  { destruct M; unfold add_value.
    - change (interval_by_name "MONTH") with TMonth. cbv iota. unfold AddDate. destruct (date_of_days (day_number t)) as [[y m] d].
      cbv zeta. f_equal. f_equal. f_equal; lia.
    - change (interval_by_name "YEAR") with TYear. cbv iota. unfold AddDate. destruct (date_of_days (day_number t)) as [[y m] d].
      cbv zeta. f_equal. f_equal. f_equal; lia. }
  rewrite V. clear V. pose proof (on_day_date (day_number t)) as O. destruct (date_of_days (day_number t)) as [[y m] d].
  set (q := 12 * y + m + k * n - 1). cbv zeta. rewrite days_of_date_month, ns_of_day_sub. change ns_per_day with day_ns.
  replace ((days_of_date (q / 12) (q mod 12 + 1) 1 + d - 1) * day_ns + (t - day_number t * day_ns))
    with (t + (days_of_date (q / 12) (q mod 12 + 1) 1 + (d - 1) - day_number t) * day_ns) by (unfold day_ns; lia).
  eapply later_months; [exact M|apply day_bounds|exact O| | |].
  - instantiate (2 := q / 12). instantiate (1 := q mod 12 + 1). assert (E : 12 * y + m + k * n = q + 1) by (unfold q; lia). rewrite E. clear. lia.
  - clearbody q. lia.
  - apply first_on_day. clearbody q. lia.
Qed.

Lemma add_value_later t k name : In name interval_list -> later t k name (add_value t k name).
Proof.
  intros I. cbn in I. repeat destruct I as [<- | I]; try contradiction;
    try (eapply add_months; [constructor|reflexivity]); unfold add_value.
  - change (interval_by_name "DAYOFYEAR") with TDayOfYear. cbv iota. rewrite add_days. apply later_fixed. constructor.
  - change (interval_by_name "DAY") with TDay. cbv iota. rewrite add_days. apply later_fixed. constructor.
  - change (interval_by_name "WEEK") with TWeek. cbv iota. rewrite add_days.
    replace (t + k * 7 * day_ns) with (t + k * (7 * day_ns)) by (clear; unfold day_ns; lia). apply later_fixed. constructor.
  - change (interval_by_name "WEEKDAY") with TWeekDay. cbv iota. rewrite add_days. apply later_fixed. constructor.
  - change (interval_by_name "HOUR") with THour. cbv iota. rewrite (Z.mul_comm _ k). apply later_fixed. constructor.
  - change (interval_by_name "MINUTE") with TMinute. cbv iota. rewrite (Z.mul_comm _ k). apply later_fixed. constructor.
  - change (interval_by_name "SECOND") with TSecond. cbv iota. rewrite (Z.mul_comm _ k). apply later_fixed. constructor.
  - change (interval_by_name "MILLISECOND") with TMillisecond. cbv iota. rewrite (Z.mul_comm _ k). apply later_fixed. constructor.
Qed.
Lemma fixed_not_month name unit n : fixed_length name unit -> month_length name n -> False.
Proof. intros F M. destruct M; inversion F. Qed.
Lemma later_unique t k name r r' : later t k name r -> later t k name r' -> r = r'.
Proof.
  intros A B. destruct A as [name unit F|name n day y m d first y' m' ML T O E M J].
  - inversion B as [name' unit' F' E1 E2|name' n day y m d first y' m' ML]; subst.
    + replace unit' with unit; [reflexivity|]. destruct F; inversion F'; reflexivity.
    + destruct (fixed_not_month _ _ _ F ML).
  - inversion B as [name' unit' F' E1 E2|name' n2 day2 y2 m2 d2 first2 y2' m2' ML2 T2 O2 E2 M2 J2 E3 E4]; subst.
    + destruct (fixed_not_month _ _ _ F' ML).
    + assert (n2 = n) by (destruct ML; inversion ML2; reflexivity). subst.
      rewrite (day_unique _ _ T), (day_unique _ _ T2) in *.
      pose proof (on_day_fun _ _ _ O O2) as Q. injection Q as <- <- <-.
      assert (y2' = y') by (clear - E E2 M M2; lia). assert (m2' = m') by (clear - E E2 M M2; lia). subst.
      rewrite (on_day_inj _ _ _ J J2). reflexivity.
Qed.

Lemma whole_integer w k : whole w k -> IsIntegerType (ve_type w) = true /\ integerValue w 0 = Ok k /\ ~ null w /\ is_i64 k.
Proof.
  intros W. destruct W as [b|v n [n' R|n' R]].
  - repeat split; try discriminate; destruct b; try reflexivity; unfold is_i64; lia.
  - repeat split; try discriminate; unfold is_i64, is_i32 in *; lia.
  - repeat split; try discriminate; unfold is_i64 in *; lia.
Qed.
Lemma i64_id n : is_i64 n -> i64 n = n.
Proof. unfold is_i64, i64. intros H. lia. Qed.
Lemma date_add_eval L row x y z v t w k s name : ascii_tables L ->
  Evaluate L row x = Ok v -> moment L v t -> Evaluate L row y = Ok w -> whole w k ->
  Evaluate L row z = Ok (vStr s) -> In name interval_list -> spells s name ->
  (forall unit, fixed_length name unit -> unit < day_ns -> is_i64 (k * unit)) -> (name = "WEEK"%string -> is_i64 (k * 7)) ->
  Evaluate L row (EFunction FDateAdd [x; y; z]) = Ok (vTime (add_value t k name)).
Proof.
  intros AT X M Y W Z I S FX FW. destruct (moment_convert L v t M) as (C & D & N). destruct (whole_integer w k W) as (IT & IV & NW & _).
  rewrite (eval_3 L row FDateAdd x y z v w (vStr s) VDateTime VInt32 VString (fn_dateAdd L) X N Y NW Z ltac:(discriminate)) by reflexivity.
  unfold fn_dateAdd. rewrite D, IT. cbn [negb is_str ve_type vStr vtype_eqb]. rewrite (proj2 (IsNull_false w) NW). cbn [IsNull ve_value vStr].
  rewrite (proj2 (IsNull_false v) N), C. cbn [bind stringValue ve_value vStr].
  rewrite (interval_known L s name AT I S), IV. cbn [bind dateTimeValue ve_value vTime NewValueExpression].
  assert (E : match interval_by_name name with
    | TYear => AddDate t k 0 0 | TMonth => AddDate t 0 k 0 | TDay | TDayOfYear | TWeekDay => AddDate t 0 0 k
    | TWeek => AddDate t 0 0 (i64 (k * 7)) | THour => t + i64 (3600 * ns_per_second * k) | TMinute => t + i64 (60 * ns_per_second * k)
    | TSecond => t + i64 (ns_per_second * k) | TMillisecond => t + i64 (1000000 * k) end = add_value t k name); [|rewrite <- E; reflexivity].
  clear - FX FW I. unfold add_value, ns_per_second. cbn in I. repeat destruct I as [<- | I]; try contradiction.
  - change (interval_by_name "YEAR") with TYear. reflexivity.
  - change (interval_by_name "MONTH") with TMonth. reflexivity.
  - change (interval_by_name "DAYOFYEAR") with TDayOfYear. reflexivity.
  - change (interval_by_name "DAY") with TDay. reflexivity.
  - change (interval_by_name "WEEK") with TWeek. cbv iota. rewrite i64_id by (apply FW; reflexivity). reflexivity.
  - change (interval_by_name "WEEKDAY") with TWeekDay. reflexivity.
  - change (interval_by_name "HOUR") with THour. cbv iota. rewrite (Z.mul_comm _ k). rewrite i64_id; [reflexivity|]. apply FX; [constructor|reflexivity].
  - change (interval_by_name "MINUTE") with TMinute. cbv iota. rewrite (Z.mul_comm _ k). rewrite i64_id; [reflexivity|]. apply FX; [constructor|reflexivity].
  - change (interval_by_name "SECOND") with TSecond. cbv iota. rewrite (Z.mul_comm _ k). rewrite i64_id; [reflexivity|]. apply FX; [constructor|reflexivity].
  - change (interval_by_name "MILLISECOND") with TMillisecond. cbv iota. rewrite (Z.mul_comm _ k). rewrite i64_id; [reflexivity|]. apply FX; [constructor|reflexivity].
Qed.
