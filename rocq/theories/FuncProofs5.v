(** Proofs about DateDiff (C92). *)
From Coq Require Import Reals Lia Lra ZifyBool ZifyNat QArith String.
From Verif Require Import Base GuidModel FormatModel StrModel CalModel CalSpec NumModel ExprModel ExprSpec FuncSpec ExprProofs
  ExprPanic StrProofs ExprPanic2 ExprProofs2 ExprProofs5 ExprProofs6 CalProofs FuncProofs FuncProofs2 FuncProofs3 FloatSpec FloatProofs FuncProofs4.
From Flocq Require Import Core.Core.
Close Scope Q_scope.
Open Scope list_scope.
Open Scope Z_scope.

Definition diff_value (L : lib) (ld rd : Z) (name : string) : Z :=
  let delta := time_Sub rd ld in
  let hours := duration_in (3600 * ns_per_second) delta in
  match interval_by_name name with
  | TYear => i32 (Year rd - Year ld)
  | TMonth => i32 ((Year rd - Year ld) * 12 + (Month rd - Month ld))
  | TDayOfYear | TDay | TWeekDay => float_to_i32 L (d_div hours (d_of_Z 24))
  | TWeek => float_to_i32 L (d_div (d_div hours (d_of_Z 24)) (d_of_Z 7))
  | THour => float_to_i32 L hours
  | TMinute => float_to_i32 L (duration_in (60 * ns_per_second) delta)
  | TSecond => float_to_i32 L (duration_in ns_per_second delta)
  | TMillisecond => i32 (Z.quot delta 1000000)
  end.
Lemma date_diff_eval L row x y z v t w u s name : ascii_tables L ->
  Evaluate L row x = Ok v -> moment L v t -> Evaluate L row y = Ok w -> moment L w u ->
  Evaluate L row z = Ok (vStr s) -> In name interval_list -> spells s name ->
  Evaluate L row (EFunction FDateDiff [x; y; z]) = Ok (vInt32 (diff_value L t u name)).
Proof.
  intros AT X M Y M' Z I S. destruct (moment_convert L v t M) as (C & D & N). destruct (moment_convert L w u M') as (C' & D' & N').
  rewrite (eval_3 L row FDateDiff x y z v w (vStr s) VDateTime VDateTime VString (fn_dateDiff L) X N Y N' Z ltac:(discriminate)) by reflexivity.
  unfold fn_dateDiff. rewrite D, D'. cbn [negb is_str ve_type vStr vtype_eqb]. cbn [IsNull ve_value vStr].
  rewrite (proj2 (IsNull_false v) N), (proj2 (IsNull_false w) N'), C, C'. cbn [orb bind stringValue ve_value vStr].
  rewrite (interval_known L s name AT I S). cbn [bind dateTimeValue ve_value vTime NewValueExpression]. reflexivity.
Qed.

Lemma in_month_date t y m : in_month t y m -> y = Year t /\ m = Month t.
Proof.
  intros (day & d & B & O). rewrite (day_unique t day B) in O. pose proof (on_day_fun _ _ _ O (date_of t)) as E.
  injection E as -> -> _. split; reflexivity.
Qed.
Lemma in_month_exists t : exists y m, in_month t y m.
Proof. exists (Year t), (Month t), (day_number t), (Day t). split; [apply day_bounds|apply date_of]. Qed.

Lemma sub_exact t u : is_i64 (u - t) -> time_Sub u t = u - t.
Proof.
  unfold is_i64, time_Sub. intros B. destruct (Z.ltb_spec (u - t) (- 2 ^ 63)); [lia|]. destruct (Z.ltb_spec (2 ^ 63 - 1) (u - t)); lia.
Qed.
Lemma units_quot d unit n : 0 < unit -> whole_units d unit n -> n = Z.quot d unit.
Proof.
  intros P (S & L & H). destruct (Z_le_gt_dec 0 d) as [D|D].
  - rewrite (Z.abs_eq d) in * by lia. assert (n = Z.abs n).
    { destruct (Z.eq_dec d 0) as [->|]; [nia|]. nia. }
    rewrite Z.quot_div_nonneg by lia. apply (Z.div_unique_pos d unit n (d - unit * n)); nia.
  - rewrite (Z.abs_neq d) in * by lia. assert (n = - Z.abs n) by nia.
    rewrite <- (Z.opp_involutive d), Z.quot_opp_l by lia. rewrite Z.quot_div_nonneg by lia.
    rewrite <- (Z.div_unique_pos (- d) unit (- n) (- d - unit * - n)); nia.
Qed.
Lemma units_of d unit : 0 < unit -> whole_units d unit (Z.quot d unit).
Proof.
  intros P. destruct (quot_bounds d unit P) as [Q _]. unfold whole_units. rewrite Q.
  pose proof (Z.div_mod (Z.abs d) unit ltac:(lia)). pose proof (Z.mod_pos_bound (Z.abs d) unit P).
  split; [|split; nia]. pose proof (Z.quot_rem d unit ltac:(lia)).
  destruct (Z_le_gt_dec 0 d) as [D|D].
  - pose proof (Z.quot_pos d unit D P). nia.
  - assert (Z.quot d unit <= 0); [|nia]. rewrite <- (Z.opp_involutive d), Z.quot_opp_l by lia. pose proof (Z.quot_pos (- d) unit ltac:(lia) P). lia.
Qed.

Lemma to_i32 L x n : is_number x -> Ztrunc (real x) = n -> is_i32 n -> float_to_i32 L x = n.
Proof.
  intros N T R. unfold float_to_i32. rewrite (trunc_real x N), T. unfold is_i32 in R.
  replace (- 2 ^ 31 <=? n) with true by lia. replace (n <? 2 ^ 31) with true by lia. reflexivity.
Qed.

Lemma fixed_in name unit : fixed_length name unit -> In name interval_list /\ 0 < unit.
Proof. intros F. destruct F; (split; [cbn; tauto|reflexivity]). Qed.

Lemma abs_small r n b : (Rabs r <= 1)%R -> (Z.abs n + 1 <= b)%Z -> (Rabs (IZR n + r) <= IZR b)%R.
Proof.
  intros X B. apply Rle_trans with (1 := Rabs_triang _ _). rewrite <- abs_IZR. apply IZR_le in B. rewrite plus_IZR in B. lra.
Qed.
Lemma odd_abs (x : Z -> R) b d : (forall d, x (- d)%Z = (- x d)%R) -> (forall d, 0 <= d <= 2 ^ 63 -> (0 <= x d <= IZR b)%R) -> Z.abs d <= 2 ^ 63 ->
  (Rabs (x d) <= IZR b)%R.
Proof.
  intros O B D. destruct (Z_le_gt_dec 0 d) as [Z|Z].
  - specialize (B d ltac:(lia)). rewrite Rabs_pos_eq; tauto.
  - specialize (B (- d) ltac:(lia)). rewrite O in B. rewrite <- Rabs_Ropp, Rabs_pos_eq; tauto.
Qed.

Lemma hours_number d : Z.abs d <= 2 ^ 63 ->
  is_number (duration_in hour_ns d) /\ real (duration_in hour_ns d) = hours d /\ (Rabs (hours d) <= IZR (2 ^ 53))%R.
Proof.
  intros D. destruct (duration_number hour_ns d) as [N R].
  - unfold hour_ns. lia.
  - pose proof (Z.div_le_mono (Z.abs d) (2 ^ 63) hour_ns ltac:(reflexivity) D). change (2 ^ 63 / hour_ns) with 2562047 in *. lia.
  - split; [exact N|]. split; [exact R|]. apply odd_abs; [apply hours_opp| |exact D]. clear d D N R. intros d D.
    pose proof (hours_between d D) as [L H]. pose proof (hour_count d D) as C. split.
    + apply Rle_trans with (2 := L). apply (IZR_le 0), C.
    + apply Rle_trans with (1 := H). apply IZR_le. lia.
Qed.
Lemma days_number d : Z.abs d <= 2 ^ 63 ->
  is_number (d_div (duration_in hour_ns d) (d_of_Z 24)) /\ real (d_div (duration_in hour_ns d) (d_of_Z 24)) = days d /\ (Rabs (days d) <= IZR (2 ^ 53))%R.
Proof.
  intros D. destruct (hours_number d D) as (N & R & B). destruct (div_number _ 24 N ltac:(lia) ltac:(rewrite R; exact B)) as [N' R'].
  rewrite R in R'. split; [exact N'|]. split; [exact R'|]. apply odd_abs; [apply days_opp| |exact D]. clear d D N R B N' R'. intros d D.
  pose proof (days_between d D) as [L H]. pose proof (hour_count d D) as C. split.
  - apply Rle_trans with (2 := L). apply (IZR_le 0), Z.div_pos; lia.
  - apply Rle_trans with (1 := H). apply IZR_le. pose proof (Z.div_le_upper_bound (d / hour_ns) 24 200000). lia.
Qed.
Lemma weeks_number d : Z.abs d <= 2 ^ 63 ->
  is_number (d_div (d_div (duration_in hour_ns d) (d_of_Z 24)) (d_of_Z 7)) /\ real (d_div (d_div (duration_in hour_ns d) (d_of_Z 24)) (d_of_Z 7)) = weeks d.
Proof.
  intros D. destruct (days_number d D) as (N & R & B). destruct (div_number _ 7 N ltac:(lia) ltac:(rewrite R; exact B)) as [N' R'].
  rewrite R in R'. split; [exact N'|exact R'].
Qed.

Lemma diff_fixed L t u name unit n : fixed_length name unit -> is_i64 (u - t) -> whole_units (u - t) unit n ->
  is_i32 n -> is_i32 (n + Z.sgn (u - t)) ->
  (diff_value L t u name = n \/ diff_value L t u name = n + Z.sgn (u - t)) /\
  (1000000 <= (Z.abs n + 1) * unit - Z.abs (u - t) -> diff_value L t u name = n).
Proof.
  intros F D W I I'. pose proof (units_quot _ _ _ (proj2 (fixed_in name unit F)) W) as Q. clear W.
  assert (A : Z.abs (u - t) <= 2 ^ 63) by (unfold is_i64 in D; lia).
  unfold diff_value. rewrite (sub_exact t u D). set (d := u - t) in *. clearbody d. clear D.
  rewrite (Z.mul_comm (Z.abs n + 1) unit).
  assert (FIN : forall x T, is_number x -> real x = T ->
    ((Ztrunc T = n \/ Ztrunc T = n + Z.sgn d) /\ (1000000 <= unit * (Z.abs n + 1) - Z.abs d -> Ztrunc T = n)) ->
    (float_to_i32 L x = n \/ float_to_i32 L x = n + Z.sgn d) /\ (1000000 <= unit * (Z.abs n + 1) - Z.abs d -> float_to_i32 L x = n)).
  { intros x T N <- [B S]. split.
    - destruct B as [B|B]; [left|right]; (apply to_i32; [exact N|exact B|assumption]).
    - intros M. apply to_i32; [exact N|exact (S M)|exact I]. }
  cbv zeta. change (3600 * ns_per_second) with hour_ns. change (60 * ns_per_second) with 60000000000. change ns_per_second with 1000000000.
  destruct F.
  - change (interval_by_name "DAY") with TDay. cbv iota. destruct (days_number d A) as (N & R & _).
    apply (FIN _ _ N R). apply (days_trunc d n A Q).
  - change (interval_by_name "DAYOFYEAR") with TDayOfYear. cbv iota. destruct (days_number d A) as (N & R & _).
    apply (FIN _ _ N R). apply (days_trunc d n A Q).
  - change (interval_by_name "WEEKDAY") with TWeekDay. cbv iota. destruct (days_number d A) as (N & R & _).
    apply (FIN _ _ N R). apply (days_trunc d n A Q).
  - change (interval_by_name "WEEK") with TWeek. cbv iota. destruct (weeks_number d A) as (N & R).
    apply (FIN _ _ N R). apply (weeks_trunc d n A Q).
  - change (interval_by_name "HOUR") with THour. cbv iota. destruct (hours_number d A) as (N & R & _).
    apply (FIN _ _ N R). apply (hours_trunc d n A Q).
  - change (interval_by_name "MINUTE") with TMinute. cbv iota.
    destruct (duration_number 60000000000 d ltac:(lia)) as [N R].
    + pose proof (Z.div_le_mono (Z.abs d) (2 ^ 63) 60000000000 ltac:(lia) A). change (2 ^ 63 / 60000000000) with 153722867 in *. lia.
    + apply (FIN _ _ N R). apply (span_trunc 60000000000 16); try lia; assumption.
  - change (interval_by_name "SECOND") with TSecond. cbv iota.
    destruct (duration_number 1000000000 d ltac:(lia)) as [N R].
    + pose proof (Z.div_le_mono (Z.abs d) (2 ^ 63) 1000000000 ltac:(lia) A). change (2 ^ 63 / 1000000000) with 9223372036 in *. lia.
    + apply (FIN _ _ N R). apply (span_trunc 1000000000 10); try lia; assumption.
  - change (interval_by_name "MILLISECOND") with TMillisecond. cbv iota. rewrite <- Q.
    assert (E : i32 n = n) by (clear - I; unfold is_i32, i32 in *; lia). rewrite E. split; [left; reflexivity|reflexivity].
Qed.
Lemma diff_years L t u y m y' m' : in_month t y m -> in_month u y' m' ->
  diff_value L t u "YEAR" = i32 (y' - y) /\ diff_value L t u "MONTH" = i32 ((12 * y' + m') - (12 * y + m)).
Proof.
  intros A B. apply in_month_date in A as [-> ->], B as [-> ->]. split; [reflexivity|].
  change (i32 ((Year u - Year t) * 12 + (Month u - Month t)) = i32 ((12 * Year u + Month u) - (12 * Year t + Month t))). f_equal. lia.
Qed.
