(** Filter expressions: numeric, date, string and conversion functions, and
    arithmetic on doubles (C91-C95).  Every statement is about [Evaluate]; [L]
    stands for the behaviour of other packages. *)
From Coq Require Import Reals Lia Lra ZifyBool ZifyNat QArith Qabs String.
From Verif Require Import Base GuidModel GuidSpec FormatModel StrModel CalModel CalSpec NumModel ExprModel ExprSpec FuncSpec FloatSpec
  ExprProofs ExprProofs2 CalProofs FuncProofs FuncProofs2 FuncProofs3 FuncProofs5 FuncProofs6 FuncProofs7 FloatProofs FloatProofs2 PropertiesExpr.
From Flocq Require Import Core.Core.
Close Scope R_scope.
Close Scope Q_scope.
Open Scope list_scope.
Open Scope Z_scope.

(** ** C91: numeric functions *)

(** Floor, Ceiling and Round give the integer they name, as a value of the type of
    the argument. *)
Theorem C91_floor : forall L row x v q, Evaluate L row x = Ok v -> stands_for v q ->
  exists w n, Evaluate L row (EFunction FFloor [x]) = Ok w /\ ve_type w = ve_type v /\ stands_for w (inject_Z n) /\ is_floor q n.
Proof.
  intros L row x v q X S. rewrite (eval_1 L row FFloor x v VDouble fn_floor X (proj2 (stands_type v q S)) ltac:(reflexivity)). apply floor_value, S.
Qed.
Theorem C91_ceiling : forall L row x v q, Evaluate L row x = Ok v -> stands_for v q ->
  exists w n, Evaluate L row (EFunction FCeiling [x]) = Ok w /\ ve_type w = ve_type v /\ stands_for w (inject_Z n) /\ is_ceiling q n.
Proof.
  intros L row x v q X S. rewrite (eval_1 L row FCeiling x v VDouble fn_ceiling X (proj2 (stands_type v q S)) ltac:(reflexivity)). apply ceiling_value, S.
Qed.
Theorem C91_round : forall L row x v q, Evaluate L row x = Ok v -> stands_for v q ->
  exists w n, Evaluate L row (EFunction FRound [x]) = Ok w /\ ve_type w = ve_type v /\ stands_for w (inject_Z n) /\ is_rounded q n.
Proof.
  intros L row x v q X S. rewrite (eval_1 L row FRound x v VDouble fn_round X (proj2 (stands_type v q S)) ltac:(reflexivity)). apply round_value, S.
Qed.
(** Abs gives the absolute value, except of the least integers of both widths. *)
Theorem C91_abs_partial : forall L row x v q, Evaluate L row x = Ok v -> stands_for v q ->
  v <> vInt32 (- 2 ^ 31) -> v <> vInt64 (- 2 ^ 63) ->
  exists w, Evaluate L row (EFunction FAbs [x]) = Ok w /\ ve_type w = ve_type v /\ stands_for w (Qabs q).
Proof.
  intros L row x v q X S N1 N2. rewrite (eval_1 L row FAbs x v VDouble fn_abs X (proj2 (stands_type v q S)) ltac:(reflexivity)). apply abs_value; assumption.
Qed.
Theorem C91_abs_least_refuted : forall L row,
  Evaluate L row (EFunction FAbs [num (- 2 ^ 31)]) = Ok (vInt32 (- 2 ^ 31)) /\
  Evaluate L row (EFunction FAbs [EValue (vInt64 (- 2 ^ 63))]) = Ok (vInt64 (- 2 ^ 63)).
Proof. intros. split; vm_compute; reflexivity. Qed.
(** The square root is the double nearest to the exact one. *)
Theorem C91_sqrt : forall L row x v p, Evaluate L row x = Ok v -> as_real v p -> (0 <= p)%R ->
  exists f, Evaluate L row (EFunction FSqrt [x]) = Ok (vDouble f) /\ is_number f /\ real f = nearest (sqrt p).
Proof.
  intros L row x v p X A P. destruct (real_convert L v p A) as (_ & _ & _ & _ & N).
  rewrite (eval_1 L row FSqrt x v VDouble (fn_sqrt L) X (proj1 (IsNull_false v) N) ltac:(reflexivity)). apply double_sqrt; assumption.
Qed.
(** The descriptions determine the integer. *)
Theorem C91_unique : forall q n m,
  (is_floor q n -> is_floor q m -> n = m) /\ (is_ceiling q n -> is_ceiling q m -> n = m) /\
  (is_rounded q n -> is_rounded q m -> n = m) /\ (is_truncated q n -> is_truncated q m -> n = m).
Proof.
  intros q n m.
  assert (F : forall q, is_floor q n -> is_floor q m -> n = m).
  { intros r [A B] [C D]. pose proof (Qle_lt_trans _ _ _ A D) as E. pose proof (Qle_lt_trans _ _ _ C B) as G.
    rewrite <- Zlt_Qlt in E, G. lia. }
  assert (C : forall q, is_ceiling q n -> is_ceiling q m -> n = m).
  { intros r [A B] [C D]. pose proof (Qlt_le_trans _ _ _ A D) as E. pose proof (Qlt_le_trans _ _ _ C B) as G.
    rewrite <- Zlt_Qlt in E, G. lia. }
  split; [apply F|]. split; [apply C|]. split.
  - intros [A B] [A' B']. destruct (Qlt_le_dec q 0) as [Z|Z].
    + apply Qlt_le_weak in Z. apply (C (q - (1 # 2))%Q); auto.
    + apply (F (q + (1 # 2))%Q); auto.
  - intros [A B] [A' B']. destruct (Qlt_le_dec q 0) as [Z|Z].
    + apply Qlt_le_weak in Z. apply (C q); auto.
    + apply (F q); auto.
Qed.
Example C91_nonvacuous :
  stands_for (vDec (Dec (-25) (-1))) (- (5 # 2)) /\ is_rounded (- (5 # 2)) (-3) /\ is_floor (- (5 # 2)) (-3) /\ is_ceiling (- (5 # 2)) (-2) /\
  Evaluate example_lib None (EFunction FRound [EValue (vDec (Dec (-25) (-1)))]) = Ok (vDec (Dec (-3) 0)) /\
  Evaluate example_lib None (EFunction FFloor [EValue (vDouble (d_div (d_of_Z (-5)) (d_of_Z 2)))]) = Ok (vDouble (d_of_Z (-3))) /\
  as_real (vInt32 2) (nearest 2) /\ (0 <= nearest 2)%R.
Proof.
  split; [apply stands_decimal; reflexivity|]. split; [split; intros H; [exfalso; apply H; reflexivity|split; [reflexivity|vm_compute; discriminate]]|].
  split; [split; [vm_compute; discriminate|reflexivity]|]. split; [split; [reflexivity|vm_compute; discriminate]|].
  split; [reflexivity|]. split; [vm_compute; reflexivity|].
  split; [apply real_whole; constructor; constructor; unfold is_i32; lia|]. rewrite (nearest_integer 2) by lia. lra.
Qed.

(** ** C92: dates *)

Lemma spelled w name : is_ascii w -> map ascii_upper w = lit name -> spells w name.
Proof. intros A E. exists [], w, []. rewrite app_nil_r. repeat split; try constructor; assumption. Qed.

(** The calendar: every day has exactly one date and every date its day. *)
Theorem C92_calendar : forall n, exists x, on_day n x /\ valid_date x /\ (forall y, on_day n y -> y = x) /\
  (forall m, on_day m x -> m = n).
Proof.
  intros n. exists (date_of_days n). split; [apply on_day_date|]. split; [apply date_valid|]. split.
  - intros y Y. apply on_day_unique, Y.
  - intros m M. apply date_of_days_inj. symmetry. apply on_day_unique, M.
Qed.
Theorem C92_every_date : forall x, valid_date x -> exists n, on_day n x.
Proof. intros [[y m] d] V. exists (days_of_date y m d). apply on_day_of_date, V. Qed.
(** DatePart gives the part of the date with that name, which is unique. *)
Theorem C92_date_part : forall L row x y v t s name, ascii_tables L ->
  Evaluate L row x = Ok v -> moment L v t -> Evaluate L row y = Ok (vStr s) -> In name interval_list -> spells s name ->
  exists n, part t name n /\ (forall m, part t name m -> m = n) /\
    Evaluate L row (EFunction FDatePart [x; y]) = Ok (vInt32 (i32 n)).
Proof.
  intros L row x y v t s name AT X M Y I S. exists (part_value t name). split; [apply part_value_spec, I|].
  split; [intros m; apply part_unique|]. eapply date_part_eval; eassumption.
Qed.
(** DateAdd gives the moment that many intervals later.  Hours and shorter
    intervals must not add up to more than an int64 of nanoseconds. *)
Theorem C92_date_add_partial : forall L row x y z v t w k s name, ascii_tables L ->
  Evaluate L row x = Ok v -> moment L v t -> Evaluate L row y = Ok w -> whole w k ->
  Evaluate L row z = Ok (vStr s) -> In name interval_list -> spells s name ->
  (forall unit, fixed_length name unit -> unit < day_ns -> is_i64 (k * unit)) -> (name = "WEEK"%string -> is_i64 (k * 7)) ->
  exists t', later t k name t' /\ (forall u, later t k name u -> u = t') /\
    Evaluate L row (EFunction FDateAdd [x; y; z]) = Ok (vTime t').
Proof.
  intros L row x y z v t w k s name AT X M Y W Z I S FX FW. exists (add_value t k name). pose proof (add_value_later t k name I) as A.
  split; [exact A|]. split; [intros u U; apply (later_unique t k name _ _ U A)|]. eapply date_add_eval; eassumption.
Qed.
(** Three million hours after 1970 lie before it. *)
Theorem C92_date_add_refuted : forall L row, ascii_tables L ->
  Evaluate L row (EFunction FDateAdd [EValue (vTime 0); num 3000000; text "hour"]) = Ok (vTime (-7646744073709551616)) /\
  later 0 3000000 "HOUR" 10800000000000000000.
Proof.
  intros L row AT. split.
  - unfold Evaluate, num, text. cbn [evaluateAs map evaluateFunction vtype_eqb ve_type vTime vInt32 vStr bind]. unfold fn_dateAdd.
    cbn [date_or_string ve_type vTime vInt32 vStr negb IsIntegerType is_str vtype_eqb IsNull ve_value orb].
    unfold Convert. cbn [IsNull ve_type ve_value vTime convertFromDateTime dateTimeValue bind NewValueExpression stringValue vStr].
    rewrite (interval_known L (lit "hour") "HOUR" AT); [vm_compute; reflexivity|cbn; tauto|].
    apply spelled; [unfold is_ascii; repeat constructor; lia|reflexivity].
  - change 10800000000000000000 with (0 + 3000000 * 3600000000000). apply later_fixed. constructor.
Qed.
(** DateDiff counts calendar years and months. *)
Theorem C92_date_diff_months : forall L row x y z v t w u s a m a' m', ascii_tables L ->
  Evaluate L row x = Ok v -> moment L v t -> Evaluate L row y = Ok w -> moment L w u -> Evaluate L row z = Ok (vStr s) ->
  in_month t a m -> in_month u a' m' ->
  (spells s "YEAR" -> Evaluate L row (EFunction FDateDiff [x; y; z]) = Ok (vInt32 (i32 (a' - a)))) /\
  (spells s "MONTH" -> Evaluate L row (EFunction FDateDiff [x; y; z]) = Ok (vInt32 (i32 ((12 * a' + m') - (12 * a + m))))).
Proof.
  intros L row x y z v t w u s a m a' m' AT X M Y M' Z A A'. destruct (diff_years L t u a m a' m' A A') as [EY EM]. split; intros S.
  - rewrite <- EY. eapply date_diff_eval; try eassumption. cbn; tauto.
  - rewrite <- EM. eapply date_diff_eval; try eassumption. cbn; tauto.
Qed.
(** Of the other intervals it counts those that fit in the difference, which must
    be an int64 of nanoseconds; it can count one more when less than a millisecond
    is missing for that. *)
Theorem C92_date_diff_partial : forall L row x y z v t w u s name unit n, ascii_tables L ->
  Evaluate L row x = Ok v -> moment L v t -> Evaluate L row y = Ok w -> moment L w u -> Evaluate L row z = Ok (vStr s) ->
  fixed_length name unit -> spells s name -> is_i64 (u - t) -> whole_units (u - t) unit n ->
  is_i32 n -> is_i32 (n + Z.sgn (u - t)) ->
  exists k, Evaluate L row (EFunction FDateDiff [x; y; z]) = Ok (vInt32 k) /\ (k = n \/ k = n + Z.sgn (u - t)) /\
    (1000000 <= (Z.abs n + 1) * unit - Z.abs (u - t) -> k = n).
Proof.
  intros L row x y z v t w u s name unit n AT X M Y M' Z F S D W I I'. exists (diff_value L t u name).
  split; [eapply date_diff_eval; try eassumption; apply (fixed_in name unit F)|].
  apply (diff_fixed L t u name unit n F D W I I').
Qed.
Theorem C92_units_exist : forall d unit, 0 < unit -> exists n, whole_units d unit n /\ forall m, whole_units d unit m -> m = n.
Proof.
  intros d unit P. exists (Z.quot d unit). split; [apply units_of, P|]. intros m. apply units_quot, P.
Qed.
(** A nanosecond less than 100000 days counts as 100000 days. *)
Theorem C92_date_diff_refuted : forall L row, ascii_tables L ->
  Evaluate L row (EFunction FDateDiff [EValue (vTime 0); EValue (vTime (100000 * day_ns - 1)); text "day"]) = Ok (vInt32 100000) /\
  whole_units (100000 * day_ns - 1 - 0) day_ns 99999.
Proof.
  intros L row AT. split.
  - rewrite (date_diff_eval L row _ _ _ (vTime 0) 0 (vTime (100000 * day_ns - 1)) (100000 * day_ns - 1) (lit "day") "DAY" AT).
    + vm_compute. reflexivity.
    + reflexivity.
    + constructor.
    + reflexivity.
    + constructor.
    + reflexivity.
    + cbn; tauto.
    + apply spelled; [unfold is_ascii; repeat constructor; lia|reflexivity].
  - unfold whole_units, day_ns. lia.
Qed.
(** Thirty days are a negative number of milliseconds. *)
Theorem C92_date_diff_wraps_refuted : forall L row, ascii_tables L ->
  Evaluate L row (EFunction FDateDiff [EValue (vTime 0); EValue (vTime (30 * day_ns)); text "millisecond"]) = Ok (vInt32 (-1702967296)) /\
  whole_units (30 * day_ns - 0) 1000000 2592000000.
Proof.
  intros L row AT. split.
  - rewrite (date_diff_eval L row _ _ _ (vTime 0) 0 (vTime (30 * day_ns)) (30 * day_ns) (lit "millisecond") "MILLISECOND" AT).
    + vm_compute. reflexivity.
    + reflexivity.
    + constructor.
    + reflexivity.
    + constructor.
    + reflexivity.
    + cbn; tauto.
    + apply spelled; [unfold is_ascii; repeat constructor; lia|reflexivity].
  - unfold whole_units, day_ns. lia.
Qed.
(** Moments more than 292 years apart count as 106751 days apart. *)
Theorem C92_date_diff_far_refuted : forall L row days, ascii_tables L -> 106752 <= days ->
  Evaluate L row (EFunction FDateDiff [EValue (vTime 0); EValue (vTime (days * day_ns)); text "day"]) = Ok (vInt32 106751) /\
  whole_units (days * day_ns - 0) day_ns days.
Proof.
  intros L row days AT H. split.
  - rewrite (date_diff_eval L row _ _ _ (vTime 0) 0 (vTime (days * day_ns)) (days * day_ns) (lit "day") "DAY" AT).
    + assert (E : time_Sub (days * day_ns) 0 = 2 ^ 63 - 1).
      { unfold time_Sub, day_ns. repeat match goal with |- context [if ?b then _ else _] => destruct b eqn:? end; lia. }
      unfold diff_value. cbn [String.eqb Ascii.eqb Bool.eqb]. rewrite E. vm_compute. reflexivity.
    + reflexivity.
    + constructor.
    + reflexivity.
    + constructor.
    + reflexivity.
    + cbn; tauto.
    + apply spelled; [unfold is_ascii; repeat constructor; lia|reflexivity].
  - unfold whole_units, day_ns. lia.
Qed.
(** Anything else as the interval is an error. *)
Theorem C92_unknown_interval : forall L row x y z v t w u k c s, ascii_tables L ->
  Evaluate L row x = Ok v -> moment L v t -> Evaluate L row y = Ok w -> moment L w u -> Evaluate L row k = Ok c -> (exists n, whole c n) ->
  Evaluate L row z = Ok (vStr s) -> is_ascii s -> (forall name, In name interval_list -> ~ spells s name) ->
  Evaluate L row (EFunction FDatePart [x; z]) = Err /\ Evaluate L row (EFunction FDateAdd [x; k; z]) = Err /\
  Evaluate L row (EFunction FDateDiff [x; y; z]) = Err.
Proof.
  intros L row x y z v t w u k c s AT X M Y M' K [n W] Z A N. pose proof (interval_unknown L s AT A N) as U.
  destruct (moment_convert L v t M) as (C & D & NV). destruct (moment_convert L w u M') as (C' & D' & NW). destruct (whole_integer c n W) as (IT & IV & NC & _).
  split; [|split].
  - rewrite (eval_2 L row FDatePart x z v (vStr s) VDateTime VString (fn_datePart L) X NV Z ltac:(discriminate)) by reflexivity.
    unfold fn_datePart. rewrite D. cbn [negb is_str ve_type vStr vtype_eqb]. cbn [IsNull ve_value vStr].
    rewrite (proj2 (IsNull_false v) NV), C. cbn [bind stringValue ve_value vStr]. rewrite U. reflexivity.
  - rewrite (eval_3 L row FDateAdd x k z v c (vStr s) VDateTime VInt32 VString (fn_dateAdd L) X NV K NC Z ltac:(discriminate)) by reflexivity.
    unfold fn_dateAdd. rewrite D, IT. cbn [negb is_str ve_type vStr vtype_eqb]. rewrite (proj2 (IsNull_false c) NC). cbn [IsNull ve_value vStr].
    rewrite (proj2 (IsNull_false v) NV), C. cbn [bind stringValue ve_value vStr]. rewrite U. reflexivity.
  - rewrite (eval_3 L row FDateDiff x y z v w (vStr s) VDateTime VDateTime VString (fn_dateDiff L) X NV Y NW Z ltac:(discriminate)) by reflexivity.
    unfold fn_dateDiff. rewrite D, D'. cbn [negb is_str ve_type vStr vtype_eqb]. cbn [IsNull ve_value vStr].
    rewrite (proj2 (IsNull_false v) NV), (proj2 (IsNull_false w) NW), C, C'. cbn [orb bind stringValue ve_value vStr]. rewrite U. reflexivity.
Qed.
(** Text that is no date counts as the first day of the year 1. *)
Theorem C92_bad_date_refuted : forall L row s, ascii_tables L -> parse_date L s = None ->
  Evaluate L row (EFunction FDatePart [EValue (vStr s); text "year"]) = Ok (vInt32 1).
Proof.
  intros L row s AT P. unfold Evaluate, text. cbn [evaluateAs map evaluateFunction vtype_eqb ve_type vStr bind]. unfold fn_datePart.
  cbn [date_or_string is_str ve_type vStr vtype_eqb negb orb IsNull ve_value]. unfold Convert. cbn [IsNull ve_type ve_value vStr convertFromString stringValue bind NewValueExpression].
  unfold date_of_string. rewrite P. rewrite (interval_known L (lit "year") "YEAR" AT); [vm_compute; reflexivity|cbn; tauto|].
  apply spelled; [unfold is_ascii; repeat constructor; lia|reflexivity].
Qed.
Example C92_nonvacuous :
  (* 2024-02-29 12:34:56.789 is a Thursday *)
  Evaluate example_lib None (EFunction FDatePart [EValue (vTime 1709210096789000000); text " Month"]) = Ok (vInt32 2) /\
  Evaluate example_lib None (EFunction FDatePart [EValue (vTime 1709210096789000000); text "DayOfYear"]) = Ok (vInt32 60) /\
  Evaluate example_lib None (EFunction FDatePart [EValue (vTime 1709210096789000000); text "weekday"]) = Ok (vInt32 5) /\
  Evaluate example_lib None (EFunction FDatePart [EValue (vTime 1709210096789000000); text "week"]) = Ok (vInt32 9) /\
  Evaluate example_lib None (EFunction FDateAdd [EValue (vTime 1709210096789000000); num 12; text "month"]) = Ok (vTime (1709210096789000000 + 366 * day_ns)) /\
  Evaluate example_lib None (EFunction FDateDiff [EValue (vTime 1709210096789000000); EValue (vTime 0); text "day"]) = Ok (vInt32 (-19782)) /\
  spells (lit " Month") "MONTH" /\ moment example_lib (vTime 1709210096789000000) 1709210096789000000.
Proof.
  do 6 (split; [vm_compute; reflexivity|]). split; [|constructor].
  exists [32], (lit "Month"), []. repeat split; repeat constructor; cbn; unfold blank; lia.
Qed.

(** ** C93: string functions *)

Theorem C93_trim : forall L row x s u w v, Evaluate L row x = Ok (vStr s) -> text_of s (u ++ w ++ v) ->
  Forall white u -> Forall white v -> no_first white w -> no_last white w ->
  exists r, text_of r w /\ Evaluate L row (EFunction FTrim [x]) = Ok (vStr r).
Proof. exact trim_eval. Qed.
(** TrimLeft and TrimRight remove ASCII white space only. *)
Theorem C93_trim_left_partial : forall L row x s u w, Evaluate L row x = Ok (vStr s) -> text_of s (u ++ w) ->
  Forall blank u -> no_first (fun r => white r \/ r = 65533) w ->
  exists r, text_of r w /\ Evaluate L row (EFunction FTrimLeft [x]) = Ok (vStr r).
Proof. exact trim_left_eval. Qed.
Theorem C93_trim_right_partial : forall L row x s w v, Evaluate L row x = Ok (vStr s) -> text_of s (w ++ v) ->
  Forall blank v -> no_last (fun r => white r \/ r = 65533) w ->
  exists r, text_of r w /\ Evaluate L row (EFunction FTrimRight [x]) = Ok (vStr r).
Proof. exact trim_right_eval. Qed.
(** A no-break space stays, though it is white space and among the characters the
    code lists; U+FFFD, which is not, goes. *)
Theorem C93_no_break_space_refuted : forall L row,
  white 160 /\ text_of [194; 160; 97; 194; 160] [160; 97; 160] /\
  Evaluate L row (EFunction FTrimLeft [EValue (vStr [194; 160; 97; 194; 160])]) = Ok (vStr [194; 160; 97; 194; 160]) /\
  Evaluate L row (EFunction FTrimRight [EValue (vStr [194; 160; 97; 194; 160])]) = Ok (vStr [194; 160; 97; 194; 160]) /\
  ~ white 65533 /\ text_of [239; 191; 189; 97] [65533; 97] /\
  Evaluate L row (EFunction FTrimLeft [EValue (vStr [239; 191; 189; 97])]) = Ok (vStr [97]).
Proof.
  intros L row. split; [unfold white; lia|]. split; [split; [repeat constructor|reflexivity]|].
  split; [vm_compute; reflexivity|]. split; [vm_compute; reflexivity|]. split; [unfold white; lia|].
  split; [split; [repeat constructor|reflexivity]|]. vm_compute. reflexivity.
Qed.
Theorem C93_upper_lower : forall L row x s, ascii_tables L -> lower_table L -> Evaluate L row x = Ok (vStr s) -> is_ascii s ->
  Evaluate L row (EFunction FUpper [x]) = Ok (vStr (map ascii_upper s)) /\
  Evaluate L row (EFunction FLower [x]) = Ok (vStr (map ascii_lower s)).
Proof. intros L row x s T T' X A. split; [apply upper_eval|apply lower_eval]; assumption. Qed.
(** Replace replaces the occurrences from left to right (case regarded). *)
Theorem C93_replace : forall L row x y z s t r, t <> [] ->
  Evaluate L row x = Ok (vStr s) -> Evaluate L row y = Ok (vStr t) -> Evaluate L row z = Ok (vStr r) ->
  exists w, replaced t r s w /\ (forall w', replaced t r s w' -> w' = w) /\
    Evaluate L row (EFunction FReplace [x; y; z]) = Ok (vStr w) /\
    forall b, Evaluate L row b = Ok (vBool false) -> Evaluate L row (EFunction FReplace [x; y; z; b]) = Ok (vStr w).
Proof.
  intros L row x y z s t r N X Y Z. exists (replace_from s t r 0). split; [apply replace_spec, N|].
  split; [intros w' R; apply (replaced_unique t r s w' _ N R), replace_spec, N|].
  split; [apply replace_eval; assumption|]. intros b B. apply replace_eval_4; assumption.
Qed.
(** StrCmp is the sign of the order of the texts; a NULL comes after every text. *)
Theorem C93_str_cmp : forall L row args s t, ascii_tables L -> texts L row args s t ->
  Evaluate L row (EFunction FStrCmp args) = Ok (vInt32 (sign_of (lex s t))).
Proof. exact strcmp_eval. Qed.
Theorem C93_nulls : forall L row x y z s t, null_text L row x -> Evaluate L row y = Ok (vStr s) -> Evaluate L row z = Ok (vStr t) ->
  (forall f, In f [FTrim; FTrimLeft; FTrimRight; FUpper; FLower; FReverse] -> Evaluate L row (EFunction f [x]) = Ok (vNull VString)) /\
  Evaluate L row (EFunction FReplace [x; y; z]) = Ok (vNull VString) /\
  Evaluate L row (EFunction FStrCmp [x; x]) = Ok (vInt32 0) /\
  Evaluate L row (EFunction FStrCmp [x; y]) = Ok (vInt32 1) /\
  Evaluate L row (EFunction FStrCmp [y; x]) = Ok (vInt32 (-1)) /\
  Evaluate L row (EFunction FStrCount [x; y]) = Ok (vInt32 0) /\
  Evaluate L row (EFunction FStrCount [y; x]) = Ok (vInt32 0).
Proof.
  intros L row x y z s t X Y Z. split.
  - intros f F. cbn in F. repeat destruct F as [<-|F]; try contradiction; eapply string_map_null; try exact X; reflexivity.
  - split; [eapply replace_null; eassumption|]. destruct (strcmp_nulls L row x y s Y X) as (A & B & C). destruct (strcount_nulls L row x y s Y X) as (D & E). auto 10.
Qed.
Example C93_nonvacuous :
  text_of [32; 194; 160; 97; 32; 98; 9] ([32; 160] ++ [97; 32; 98] ++ [9]) /\ Forall white [32; 160] /\ no_first white [97; 32; 98] /\
  Evaluate example_lib None (EFunction FTrim [EValue (vStr [32; 194; 160; 97; 32; 98; 9])]) = Ok (vStr [97; 32; 98]) /\
  Evaluate example_lib None (EFunction FReplace [text "aaab"; text "aa"; text "b"]) = Ok (vStr (lit "bab")) /\
  Evaluate example_lib None (EFunction FStrCmp [text "a"; text "B"]) = Ok (vInt32 1) /\
  Evaluate example_lib None (EFunction FStrCmp [text "a"; text "B"; truth true]) = Ok (vInt32 (-1)) /\
  null_text example_lib None NULL /\ lower_table example_lib.
Proof.
  split; [split; [repeat constructor|reflexivity]|]. split; [repeat constructor; unfold white; lia|].
  split; [intros r w E; injection E as <- <-; unfold white; lia|]. do 4 (split; [vm_compute; reflexivity|]).
  split; [left; reflexivity|]. intros r R. reflexivity.
Qed.

(** ** C94: conversions and type tests *)

(** Convert with the name of a type: NULL stays NULL and numbers keep their whole
    part as far as the type can hold it. *)
Theorem C94_integers_partial : forall L row x y v s q n, ascii_tables L ->
  Evaluate L row x = Ok v -> stands_for v q -> is_truncated q n -> Evaluate L row y = Ok (vStr s) ->
  (denotes s VInt64 -> is_i64 n -> Evaluate L row (EFunction FConvert [x; y]) = Ok (vInt64 n)) /\
  (denotes s VInt32 -> is_i32 n -> ve_type v <> VBoolean -> Evaluate L row (EFunction FConvert [x; y]) = Ok (vInt32 n)).
Proof.
  intros L row x y v s q n AT X S T Y. pose proof (proj2 (stands_type v q S)) as N. split; intros D.
  - intros I. rewrite (convert_eval L row x y v s VInt64 AT X N Y D). eapply to_int64; eassumption.
  - intros I B. rewrite (convert_eval L row x y v s VInt32 AT X N Y D). eapply to_int32; eassumption.
Qed.
Theorem C94_booleans : forall L row x y v s q, ascii_tables L ->
  Evaluate L row x = Ok v -> stands_for v q -> Evaluate L row y = Ok (vStr s) -> denotes s VBoolean ->
  exists b, Evaluate L row (EFunction FConvert [x; y]) = Ok (vBool b) /\ (b = false <-> (q == 0)%Q).
Proof.
  intros L row x y v s q AT X S Y D. pose proof (proj2 (stands_type v q S)) as N.
  rewrite (convert_eval L row x y v s VBoolean AT X N Y D). apply to_boolean, S.
Qed.
Theorem C94_decimals : forall L row x y v s n, ascii_tables L ->
  Evaluate L row x = Ok v -> whole v n -> Evaluate L row y = Ok (vStr s) -> denotes s VDecimal ->
  exists d, Evaluate L row (EFunction FConvert [x; y]) = Ok (vDec d) /\ (dec_number d == inject_Z n)%Q.
Proof.
  intros L row x y v s n AT X W Y D. destruct (whole_integer v n W) as (_ & _ & N & _).
  rewrite (convert_eval L row x y v s VDecimal AT X N Y D). apply to_decimal, W.
Qed.
Theorem C94_doubles : forall L row x y v s n, ascii_tables L ->
  Evaluate L row x = Ok v -> whole v n -> Evaluate L row y = Ok (vStr s) -> denotes s VDouble ->
  exists f, Evaluate L row (EFunction FConvert [x; y]) = Ok (vDouble f) /\ is_number f /\ real f = nearest (IZR n).
Proof.
  intros L row x y v s n AT X W Y D. destruct (whole_integer v n W) as (_ & _ & N & I).
  rewrite (convert_eval L row x y v s VDouble AT X N Y D). exists (d_of_Z n). split; [apply to_double, W|]. apply of_Z_nearest, I.
Qed.
(** A value of the named type is unchanged, and NULL becomes a NULL of that type. *)
Theorem C94_same_type : forall L row x y v s, ascii_tables L ->
  Evaluate L row x = Ok v -> ~ null v -> well_typed v -> Evaluate L row y = Ok (vStr s) -> denotes s (ve_type v) ->
  Evaluate L row (EFunction FConvert [x; y]) = Ok v.
Proof.
  intros L row x y v s AT X N W Y D. rewrite (convert_eval L row x y v s _ AT X N Y D).
  destruct W as [U H]. destruct v as [t [g|]]; [|exfalso; apply N; reflexivity]. specialize (H g eq_refl). cbn [ve_type] in *.
  destruct t; destruct g; try contradiction; try reflexivity.
  destruct b; reflexivity.
Qed.
Theorem C94_null : forall L row x y v s t, ascii_tables L ->
  Evaluate L row x = Ok v -> null v -> Evaluate L row y = Ok (vStr s) -> denotes s t ->
  Evaluate L row (EFunction FConvert [x; y]) = Ok (vNull t).
Proof. exact convert_null. Qed.
(** A conversion that makes no sense is an error, and so is the name of no type;
    but every name that begins like an integer or floating-point type is taken for
    one. *)
Theorem C94_impossible : forall L row x y v s t, ascii_tables L ->
  Evaluate L row x = Ok v -> ~ null v -> well_typed v -> Evaluate L row y = Ok (vStr s) -> denotes s t -> ~ convertible (ve_type v) t ->
  Evaluate L row (EFunction FConvert [x; y]) = Err.
Proof.
  intros L row x y v s t AT X N W Y D C. rewrite (convert_eval L row x y v s t AT X N Y D).
  apply not_convertible; try assumption; [apply W|]. destruct D as (_ & name & TN & _). destruct TN; discriminate.
Qed.
Theorem C94_unknown_type_partial : forall L row x y v s b, ascii_tables L ->
  Evaluate L row x = Ok v -> Evaluate L row y = Ok (vStr s) -> is_ascii s -> base_name s b -> (forall t, ~ denotes s t) ->
  ~ begins b "INT" -> ~ begins b "UINT" -> ~ begins b "FLOAT" ->
  Evaluate L row (EFunction FConvert [x; y]) = Err.
Proof. exact convert_unknown. Qed.
Theorem C94_interval_refuted : forall L row, ascii_tables L ->
  Evaluate L row (EFunction FConvert [num 7; text "Interval"]) = Ok (vInt64 7).
Proof.
  intros L row AT. unfold Evaluate, num, text. cbn [evaluateAs map evaluateFunction vtype_eqb ve_type vInt32 vStr bind]. unfold fn_convert.
  cbn [is_str ve_type vStr vtype_eqb negb IsNull ve_value stringValue bind]. rewrite (ToUpper_ascii L _ AT) by (repeat constructor; lia). vm_compute. reflexivity.
Qed.
(** Text converts to what it reads as. *)
Theorem C94_text : forall L row x y s name d f g t, ascii_tables L -> Evaluate L row x = Ok (vStr s) -> Evaluate L row y = Ok (vStr name) ->
  (denotes name VDecimal -> parse_decimal s = Some d -> Evaluate L row (EFunction FConvert [x; y]) = Ok (vDec d)) /\
  (denotes name VInt64 -> parse_decimal s = Some d -> forall n, is_truncated (dec_number d) n -> is_i64 n ->
     Evaluate L row (EFunction FConvert [x; y]) = Ok (vInt64 n)) /\
  (denotes name VDouble -> parse_float s = Some f -> Evaluate L row (EFunction FConvert [x; y]) = Ok (vDouble f)) /\
  (denotes name VGuid -> parse_guid s = Some g -> Evaluate L row (EFunction FConvert [x; y]) = Ok (vGuid g)) /\
  (denotes name VDateTime -> parse_date L s = Some t -> Evaluate L row (EFunction FConvert [x; y]) = Ok (vTime t)).
Proof.
  intros L row x y s name d f g t AT X Y.
  assert (E : forall u, denotes name u -> Evaluate L row (EFunction FConvert [x; y]) = convertFromString L (vStr s) u).
  { intros u D. rewrite (convert_eval L row x y (vStr s) name u AT X ltac:(discriminate) Y D). reflexivity. }
  split; [|split; [|split; [|split]]]; intros D P; try (intros n T I); rewrite (E _ D); unfold convertFromString; cbn [stringValue ve_value vStr bind NewValueExpression].
  - unfold decimal_of_string. rewrite P. reflexivity.
  - unfold decimal_of_string. rewrite P. rewrite (dec_trunc d (dec_number d) n (Qeq_refl _) T I). reflexivity.
  - unfold float_of_string. rewrite P. reflexivity.
  - unfold guid_of_string. unfold parse_guid in P. destruct (guid_Parse s) as [g' [|]]; [|discriminate]. injection P as ->. reflexivity.
  - unfold date_of_string. rewrite P. reflexivity.
Qed.
(** Text that reads as nothing of the kind is not an error but gives 0, FALSE, the
    year 1, or for GUIDs the bytes before the mistake. *)
Theorem C94_bad_text_refuted : forall L row x y s name, ascii_tables L -> Evaluate L row x = Ok (vStr s) -> Evaluate L row y = Ok (vStr name) ->
  (denotes name VInt64 -> parse_decimal s = None -> Evaluate L row (EFunction FConvert [x; y]) = Ok (vInt64 0)) /\
  (denotes name VGuid -> s = lit "anything" -> Evaluate L row (EFunction FConvert [x; y]) = Ok (vGuid Empty)) /\
  (denotes name VGuid -> s = lit "01020304-0506-0708-090a-0b0c0d0e0f1?" -> Evaluate L row (EFunction FConvert [x; y]) = Ok (vGuid [1; 2; 3; 4; 5; 6; 7; 8; 9; 10; 11; 12; 13; 14; 15; 0])) /\
  (denotes name VBoolean -> s = lit "yes" -> Evaluate L row (EFunction FConvert [x; y]) = Ok (vBool false)).
Proof.
  intros L row x y s name AT X Y.
  assert (E : forall u, denotes name u -> Evaluate L row (EFunction FConvert [x; y]) = convertFromString L (vStr s) u).
  { intros u D. rewrite (convert_eval L row x y (vStr s) name u AT X ltac:(discriminate) Y D). reflexivity. }
  split; [|split; [|split]]; intros D P; rewrite (E _ D); unfold convertFromString; cbn [stringValue ve_value vStr bind NewValueExpression].
  - unfold decimal_of_string. rewrite P. vm_compute. reflexivity.
  - rewrite P. vm_compute. reflexivity.
  - rewrite P. vm_compute. reflexivity.
  - rewrite P. vm_compute. reflexivity.
Qed.
(** IsNull(x, y) is x unless that is NULL, else y, which may not be NULL. *)
Theorem C94_is_null : forall L row x y v w, Evaluate L row x = Ok v -> Evaluate L row y = Ok w ->
  (null w -> Evaluate L row (EFunction FIsNull [x; y]) = Err) /\
  (~ null w -> ~ null v -> Evaluate L row (EFunction FIsNull [x; y]) = Ok v) /\
  (~ null w -> null v -> Evaluate L row (EFunction FIsNull [x; y]) = Ok w).
Proof.
  intros L row x y v w X Y.
  assert (NA : forall e a t, Evaluate L row e = Ok a -> null a -> exists b, evaluateAs L row e t = Ok b /\ null b).
  { intros e a t E N. destruct a as [ty [g|]]; [discriminate|]. destruct (Evaluate_null L row e ty t E) as (t' & E' & _). exists (vNull t'). split; [exact E'|reflexivity]. }
  assert (AA : forall e a, Evaluate L row e = Ok a -> exists b, evaluateAs L row e VString = Ok b /\ (null a <-> null b) /\ (~ null a -> b = a)).
  { intros e a E. destruct (ve_value a) as [g|] eqn:V.
    - assert (N : ~ null a) by (unfold null; rewrite V; discriminate). exists a. split; [apply Evaluate_as; assumption|]. split; [reflexivity|reflexivity].
    - assert (N : null a) by exact V. destruct (NA e a VString E N) as (b & B & NB). exists b. split; [exact B|]. split; [split; auto|]. intros C. contradiction. }
  destruct (AA x v X) as (v' & XV & NV & EV). destruct (AA y w Y) as (w' & YW & NW & EW).
  unfold Evaluate. cbn [evaluateAs map evaluateFunction]. rewrite XV, YW. cbn [bind]. unfold fn_isNull. split; [|split].
  - intros N. rewrite (proj2 (IsNull_spec w') (proj1 NW N)). reflexivity.
  - intros N NN. rewrite (EV NN), (EW N). rewrite (proj2 (IsNull_false w) N), (proj2 (IsNull_false v) NN). reflexivity.
  - intros N NN. rewrite (EW N), (proj2 (IsNull_false w) N). rewrite (proj2 (IsNull_spec v') (proj1 NV NN)). reflexivity.
Qed.
(** The type tests hold of values of the type and of text that reads as one. *)
Theorem C94_type_tests : forall L row x v, Evaluate L row x = Ok v -> ~ null v -> well_typed v ->
  let reads (f : bytes -> Prop) := exists s, v = vStr s /\ f s in
  (exists b, Evaluate L row (EFunction FIsNumeric [x]) = Ok (vBool b) /\
    (b = true <-> numeric (ve_type v) \/ reads (fun s => parse_float s <> None \/ parse_decimal s <> None))) /\
  (exists b, Evaluate L row (EFunction FIsInteger [x]) = Ok (vBool b) /\
    (b = true <-> integer (ve_type v) \/ reads (fun s => parse_int0 s = true))) /\
  (exists b, Evaluate L row (EFunction FIsDate [x]) = Ok (vBool b) /\
    (b = true <-> ve_type v = VDateTime \/ reads (fun s => parse_date L s <> None))) /\
  (exists b, Evaluate L row (EFunction FIsGuid [x]) = Ok (vBool b) /\
    (b = true <-> ve_type v = VGuid \/ reads (fun s => parse_guid s <> None))).
Proof.
  intros L row x v X N [U W] reads. destruct (type_tests L row x v X N) as (-> & -> & -> & ->).
  destruct v as [t [g|]]; [|exfalso; apply N; reflexivity]. specialize (W g eq_refl). cbn [ve_type ve_value] in *.
  assert (S : forall f, reads f <-> t = VString /\ exists s, g = GStr s /\ f s).
  { intros f. unfold reads. split.
    - intros (s & E & F). unfold vStr in E. injection E as -> ->. split; [reflexivity|]. exists s. auto.
    - intros (-> & s & -> & F). exists s. split; [reflexivity|exact F]. }
  split; [|split; [|split]]; setoid_rewrite S; clear S reads X N; unfold fn_isNumeric, fn_isInteger, fn_isDate, fn_isGuid; cbn [IsNull ve_value ve_type].
  - destruct t, g; try contradiction; cbn [IsNumericType is_str ve_type vtype_eqb stringValue ve_value bind];
      try (exists true; split; [reflexivity|]; split; [intros _; left; unfold numeric; cbn; lia|reflexivity]);
      try (exists false; split; [reflexivity|]; split; [discriminate|intros [H|[H _]]; [unfold numeric in H; cbn in H; lia|discriminate]]).
    destruct (parse_float s) eqn:PF; [|destruct (parse_decimal s) eqn:PD].
    + exists true. split; [reflexivity|]. split; [intros _; right; split; [reflexivity|]; exists s; split; [reflexivity|left; congruence]|reflexivity].
    + exists true. split; [reflexivity|]. split; [intros _; right; split; [reflexivity|]; exists s; split; [reflexivity|right; congruence]|reflexivity].
    + exists false. split; [reflexivity|]. split; [discriminate|]. intros [H|(_ & s' & E & H)]; [unfold numeric in H; cbn in H; lia|]. injection E as <-. destruct H; congruence.
  - destruct t, g; try contradiction; cbn [IsIntegerType is_str ve_type vtype_eqb stringValue ve_value bind];
      try (exists true; split; [reflexivity|]; split; [intros _; left; unfold integer; cbn; lia|reflexivity]);
      try (exists false; split; [reflexivity|]; split; [discriminate|intros [H|[H _]]; [unfold integer in H; cbn in H; lia|discriminate]]).
    destruct (parse_int0 s) eqn:P.
    + exists true. split; [reflexivity|]. split; [intros _; right; split; [reflexivity|]; exists s; split; [reflexivity|exact P]|reflexivity].
    + exists false. split; [reflexivity|]. split; [discriminate|]. intros [H|(_ & s' & E & H)]; [unfold integer in H; cbn in H; lia|]. injection E as <-. congruence.
  - destruct t, g; try contradiction; cbn [is_str ve_type vtype_eqb stringValue ve_value bind];
      try (exists true; split; [reflexivity|]; split; [intros _; left; reflexivity|reflexivity]);
      try (exists false; split; [reflexivity|]; split; [discriminate|intros [H|[H _]]; discriminate]).
    destruct (parse_date L s) eqn:P.
    + exists true. split; [reflexivity|]. split; [intros _; right; split; [reflexivity|]; exists s; split; [reflexivity|congruence]|reflexivity].
    + exists false. split; [reflexivity|]. split; [discriminate|]. intros [H|(_ & s' & E & H)]; [discriminate|]. injection E as <-. congruence.
  - destruct t, g; try contradiction; cbn [is_str ve_type vtype_eqb stringValue ve_value bind];
      try (exists true; split; [reflexivity|]; split; [intros _; left; reflexivity|reflexivity]);
      try (exists false; split; [reflexivity|]; split; [discriminate|intros [H|[H _]]; discriminate]).
    destruct (parse_guid s) eqn:P.
    + exists true. split; [reflexivity|]. split; [intros _; right; split; [reflexivity|]; exists s; split; [reflexivity|congruence]|reflexivity].
    + exists false. split; [reflexivity|]. split; [discriminate|]. intros [H|(_ & s' & E & H)]; [discriminate|]. injection E as <-. congruence.
Qed.
Theorem C94_type_tests_null : forall L row x v, Evaluate L row x = Ok v -> null v ->
  forall f, In f [FIsNumeric; FIsInteger; FIsDate; FIsGuid] -> Evaluate L row (EFunction f [x]) = Ok (vBool false).
Proof. exact type_tests_null. Qed.
Example C94_nonvacuous :
  denotes (lit "System.int32") VInt32 /\ is_truncated (- (7 # 2)) (-3) /\
  Evaluate example_lib None (EFunction FConvert [EValue (vDec (Dec (-35) (-1))); text "System.int32"]) = Ok (vInt32 (-3)) /\
  Evaluate example_lib None (EFunction FConvert [NULL; text "double"]) = Ok (vNull VDouble) /\
  Evaluate example_lib None (EFunction FConvert [num 1; text "datetime"]) = Err /\ ~ convertible VInt32 VDateTime /\
  base_name (lit "system.ulong") (lit "ULONG") /\
  Evaluate example_lib None (EFunction FConvert [num 1; text "system.ulong"]) = Err /\
  Evaluate example_lib None (EFunction FIsNull [NULL; num 3]) = Ok (vInt32 3) /\
  Evaluate example_lib None (EFunction FIsNumeric [num 3]) = Ok (vBool true).
Proof.
  split. { split; [repeat constructor; lia|]. exists "INT32"%string. split; [constructor|]. right. vm_compute. reflexivity. }
  split; [split; intros H; [exfalso; apply H; reflexivity|split; [reflexivity|discriminate]]|].
  do 3 (split; [vm_compute; reflexivity|]). split; [intros (_ & _ & H); apply H; reflexivity|].
  split; [left; vm_compute; reflexivity|]. repeat split; vm_compute; reflexivity.
Qed.

(** ** C95: arithmetic and order of doubles *)

(** An operation on doubles, or a double and an integer, gives the double nearest
    to the exact result. *)
Theorem C95_arithmetic : forall L row o l r a b p q e,
  Evaluate L row l = Ok a -> Evaluate L row r = Ok b -> as_real a p -> as_real b q ->
  ve_type a = VDouble \/ ve_type b = VDouble -> real_operation o p q = Some e -> (o = ODivide -> q <> 0%R) ->
  exists f, Evaluate L row (EOperator o l r) = Ok (vDouble f) /\ rounds_to f e.
Proof.
  intros L row o l r a b p q e A B P Q T O Z. rewrite (eval_op L row o l r a b A B). eapply double_arithmetic; eassumption.
Qed.
Theorem C95_order : forall L row o l r a b p q,
  Evaluate L row l = Ok a -> Evaluate L row r = Ok b -> as_real a p -> as_real b q ->
  ve_type a = VDouble \/ ve_type b = VDouble -> relational o ->
  Evaluate L row (EOperator o l r) = Ok (vBool (holds o (Rcompare p q))).
Proof.
  intros L row o l r a b p q A B P Q T O. rewrite (eval_op L row o l r a b A B). apply double_comparison; assumption.
Qed.
(** Integers up to 2^53 take part exactly. *)
Theorem C95_exact_integers : forall n, Z.abs n <= 2 ^ 53 -> nearest (IZR n) = IZR n.
Proof. exact nearest_integer. Qed.
Example C95_nonvacuous :
  is_number (d_of_Z 3) /\ real (d_of_Z 3) = 3%R /\ as_real (vInt32 2) 2 /\
  Evaluate example_lib None (EOperator ODivide (EValue (vDouble (d_of_Z 3))) (num 2)) = Ok (vDouble (S754_finite false 6755399441055744 (-52))) /\
  Evaluate example_lib None (EOperator OLessThan (num 2) (EValue (vDouble (d_of_Z 3)))) = Ok (vBool true).
Proof.
  destruct (of_Z_rounds 3 ltac:(lia)) as [N R]. split; [exact N|]. split; [exact R|]. split.
  - rewrite <- (nearest_integer 2) by lia. apply real_whole. constructor. constructor. unfold is_i32. lia.
  - split; vm_compute; reflexivity.
Qed.

Print Assumptions C91_floor.
Print Assumptions C91_ceiling.
Print Assumptions C91_round.
Print Assumptions C91_abs_partial.
Print Assumptions C91_abs_least_refuted.
Print Assumptions C91_sqrt.
Print Assumptions C91_unique.
Print Assumptions C92_calendar.
Print Assumptions C92_every_date.
Print Assumptions C92_date_part.
Print Assumptions C92_date_add_partial.
Print Assumptions C92_date_add_refuted.
Print Assumptions C92_date_diff_months.
Print Assumptions C92_date_diff_partial.
Print Assumptions C92_units_exist.
Print Assumptions C92_date_diff_refuted.
Print Assumptions C92_date_diff_wraps_refuted.
Print Assumptions C92_date_diff_far_refuted.
Print Assumptions C92_unknown_interval.
Print Assumptions C92_bad_date_refuted.
Print Assumptions C93_trim.
Print Assumptions C93_trim_left_partial.
Print Assumptions C93_trim_right_partial.
Print Assumptions C93_no_break_space_refuted.
Print Assumptions C93_upper_lower.
Print Assumptions C93_replace.
Print Assumptions C93_str_cmp.
Print Assumptions C93_nulls.
Print Assumptions C94_integers_partial.
Print Assumptions C94_booleans.
Print Assumptions C94_decimals.
Print Assumptions C94_doubles.
Print Assumptions C94_same_type.
Print Assumptions C94_null.
Print Assumptions C94_impossible.
Print Assumptions C94_unknown_type_partial.
Print Assumptions C94_interval_refuted.
Print Assumptions C94_text.
Print Assumptions C94_bad_text_refuted.
Print Assumptions C94_is_null.
Print Assumptions C94_type_tests.
Print Assumptions C94_type_tests_null.
Print Assumptions C95_arithmetic.
Print Assumptions C95_order.
Print Assumptions C95_exact_integers.
