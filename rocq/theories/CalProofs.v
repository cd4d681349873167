(** Proofs about the calendar (C92). *)
From Coq Require Import Lia ZifyBool.
From Verif Require Import Base CalModel CalSpec.
Ltac Zify.zify_post_hook ::= Z.div_mod_to_equations.

(** Years of 400, counted from March. *)
Definition yf (doe : Z) : Z := doe - doe / 1460 + doe / 36524 - doe / 146096.
Definition ystart (y : Z) : Z := 365 * y + y / 4 - y / 100.
Lemma yf_step a : yf a <= yf (a + 1).
Proof. unfold yf. lia. Qed.
Lemma yf_mono a b : a <= b -> yf a <= yf b.
Proof.
  intros H. replace b with (a + Z.of_nat (Z.to_nat (b - a))) by lia. induction (Z.to_nat (b - a)) as [|k IH].
  - rewrite Z.add_0_r. lia.
  - pose proof (yf_step (a + Z.of_nat k)). replace (a + Z.of_nat (S k)) with (a + Z.of_nat k + 1) by lia. lia.
Qed.
Definition years : list Z := map Z.of_nat (seq 0 400).
Lemma in_years y : 0 <= y < 400 -> In y years.
Proof. intros H. apply in_map_iff. exists (Z.to_nat y). split; [lia|]. apply in_seq. lia. Qed.
Lemma ystart_check : forallb (fun y => (365 * y <=? yf (ystart y)) && ((y =? 0) || (yf (ystart y - 1) <? 365 * y))) years = true.
Proof. vm_compute. reflexivity. Qed.
Lemma yoe_bounds doe : 0 <= doe < 146097 ->
  let yoe := yf doe / 365 in
  0 <= yoe < 400 /\ ystart yoe <= doe /\ (yoe < 399 -> doe < ystart (yoe + 1)).
Proof.
  intros H. cbv zeta. set (y := yf doe / 365).
  assert (Y : 365 * y <= yf doe < 365 * y + 365) by (unfold y; lia).
  assert (C : forall y, 0 <= y < 400 -> 365 * y <= yf (ystart y) /\ (y = 0 \/ yf (ystart y - 1) < 365 * y)).
  { intros z Z. pose proof (proj1 (forallb_forall _ _) ystart_check z (in_years z Z)) as E. cbv beta in E. lia. }
  assert (B : 0 <= yf doe < 146000).
  { pose proof (yf_mono 0 doe ltac:(lia)). pose proof (yf_mono doe 146096 ltac:(lia)).
    change (yf 0) with 0 in *. change (yf 146096) with 145999 in *. lia. }
  split; [lia|]. split.
  - destruct (Z_le_gt_dec (ystart y) doe) as [|G]; [assumption|].
    pose proof (yf_mono doe (ystart y - 1) ltac:(lia)). pose proof (C y ltac:(lia)) as [_ [-> | ?]]; [change (ystart 0) with 0 in G|]; lia.
  - intros L. destruct (Z_lt_ge_dec doe (ystart (y + 1))) as [|G]; [assumption|].
    pose proof (yf_mono (ystart (y + 1)) doe ltac:(lia)). pose proof (C (y + 1) ltac:(lia)). lia.
Qed.

(** Days from the epoch of eras to March 1 of the year Y. *)
Definition mstart (y : Z) : Z := 365 * y + y / 4 - y / 100 + y / 400.
Definition mlen (y : Z) : Z := if leap (y + 1) then 366 else 365.
Lemma mstart_next y : mstart (y + 1) = mstart y + mlen y.
Proof.
  unfold mstart, mlen, leap.
  destruct ((y + 1) mod 4 =? 0) eqn:A, ((y + 1) mod 100 =? 0) eqn:B, ((y + 1) mod 400 =? 0) eqn:C; cbn [andb orb negb]; lia.
Qed.
Lemma mlen_pos y : 365 <= mlen y <= 366.
Proof. unfold mlen. destruct (leap (y + 1)); lia. Qed.
Lemma mstart_mono a b : a <= b -> mstart a + 365 * (b - a) <= mstart b.
Proof.
  intros H. replace b with (a + Z.of_nat (Z.to_nat (b - a))) by lia. induction (Z.to_nat (b - a)) as [|k IH].
  - rewrite Z.add_0_r. lia.
  - pose proof (mstart_next (a + Z.of_nat k)). pose proof (mlen_pos (a + Z.of_nat k)).
    replace (a + Z.of_nat (S k)) with (a + Z.of_nat k + 1) by lia. lia.
Qed.
Lemma march_unique y k y' k' : mstart y + k = mstart y' + k' -> 0 <= k < mlen y -> 0 <= k' < mlen y' -> y = y' /\ k = k'.
Proof.
  intros E K K'. pose proof (mstart_next y). pose proof (mstart_next y').
  destruct (Z.lt_trichotomy y y') as [L|[->|L]]; [| lia |].
  - pose proof (mstart_mono (y + 1) y' ltac:(lia)). lia.
  - pose proof (mstart_mono (y' + 1) y ltac:(lia)). lia.
Qed.

(** The date of day k of the year from March of y. *)
Definition march (y k : Z) : date :=
  let mp := (5 * k + 2) / 153 in
  let m := if mp <? 10 then mp + 3 else mp - 9 in
  (y + (if m <=? 2 then 1 else 0), m, k - (153 * mp + 2) / 5 + 1).
Lemma date_of_days_march n : exists y k, date_of_days n = march y k /\ n + 719468 = mstart y + k /\ 0 <= k < mlen y.
Proof.
  unfold date_of_days. set (z := n + 719468). set (era := z / 146097). set (doe := z mod 146097).
  assert (D : 0 <= doe < 146097) by (unfold doe; lia). assert (Z : z = 146097 * era + doe) by (unfold era, doe; lia).
  clearbody era doe. pose proof (yoe_bounds doe D) as B. cbv zeta in B. unfold yf in B.
  set (yoe := (doe - doe / 1460 + doe / 36524 - doe / 146096) / 365) in *. clearbody yoe.
  exists (yoe + era * 400), (doe - ystart yoe). unfold march, ystart in *. split.
  - reflexivity.
  - destruct B as (B1 & B2 & B3).
    assert (M : mstart (yoe + era * 400) = 146097 * era + (365 * yoe + yoe / 4 - yoe / 100)) by (unfold mstart; lia).
    rewrite M. split; [lia|]. split; [lia|].
    assert (E : mlen (yoe + era * 400) = if yoe =? 399 then 366 else 365 + ((yoe + 1) / 4 - yoe / 4) - ((yoe + 1) / 100 - yoe / 100)).
    { pose proof (mstart_next (yoe + era * 400)) as N. rewrite M in N. unfold mstart in N. destruct (yoe =? 399) eqn:Q; lia. }
    rewrite E. destruct (yoe =? 399) eqn:Q; lia.
Qed.
Lemma date_of_march y k n : n + 719468 = mstart y + k -> 0 <= k < mlen y -> date_of_days n = march y k.
Proof.
  intros E K. destruct (date_of_days_march n) as (y' & k' & D & E' & K').
  destruct (march_unique y k y' k' ltac:(lia) K K') as [-> ->]. exact D.
Qed.

Lemma march_valid y k : 0 <= k < mlen y -> valid_date (march y k).
Proof.
  intros K. unfold march, valid_date, mlen in *. set (mp := (5 * k + 2) / 153).
  assert (M : 0 <= mp <= 11) by (unfold mp; destruct (leap (y + 1)); lia).
  assert (E : 153 * mp <= 5 * k + 2 < 153 * mp + 153) by (unfold mp; lia). clearbody mp.
  assert (C : mp = 0 \/ mp = 1 \/ mp = 2 \/ mp = 3 \/ mp = 4 \/ mp = 5 \/ mp = 6 \/ mp = 7 \/ mp = 8 \/ mp = 9 \/ mp = 10 \/ mp = 11) by lia.
  repeat destruct C as [-> | C]; try subst mp;
    cbn [Z.ltb Z.leb Z.compare Pos.compare Pos.compare_cont Z.add Z.sub Z.opp Z.pos_sub Pos.add Pos.sub Pos.succ Pos.pred_double Z.double Z.succ_double Z.pred_double Pos.sub_mask Pos.double_mask Pos.succ_double_mask Pos.double_pred_mask Pos.pred_mask];
    unfold month_days; cbn -[Z.add Z.mul Z.sub Z.div leap]; try (destruct (leap (y + 1))); lia.
Qed.

Lemma date_eq (a b c a' b' c' : Z) : a = a' -> b = b' -> c = c' -> (a, b, c) = (a', b', c').
Proof. intros -> -> ->. reflexivity. Qed.
Lemma march_next y k : 0 <= k -> k + 1 < mlen y -> march y (k + 1) = next_day (march y k).
Proof.
  intros K L. unfold march, next_day, mlen in *. set (mp := (5 * k + 2) / 153).
  assert (M : 0 <= mp <= 11) by (unfold mp; destruct (leap (y + 1)); lia).
  assert (E : 153 * mp <= 5 * k + 2 < 153 * mp + 153) by (unfold mp; lia). clearbody mp.
  assert (N : (5 * (k + 1) + 2) / 153 = if 153 * mp + 153 <=? 5 * k + 7 then mp + 1 else mp)
    by (destruct (153 * mp + 153 <=? 5 * k + 7) eqn:Q; lia).
  rewrite N. clear N.
  assert (C : mp = 0 \/ mp = 1 \/ mp = 2 \/ mp = 3 \/ mp = 4 \/ mp = 5 \/ mp = 6 \/ mp = 7 \/ mp = 8 \/ mp = 9 \/ mp = 10 \/ mp = 11) by lia.
  destruct (153 * mp + 153 <=? 5 * k + 7) eqn:Q;
  repeat destruct C as [-> | C]; try subst mp;
    unfold month_days;
    repeat match goal with |- context [?a <? ?b] => match a with context [k] => fail 1 | _ => let v := eval vm_compute in (a <? b) in change (a <? b) with v end
           | |- context [?a <=? ?b] => match a with context [k] => fail 1 | _ => let v := eval vm_compute in (a <=? b) in change (a <=? b) with v end end; cbv iota;
    repeat match goal with |- context [?a =? ?b] => let v := eval vm_compute in (a =? b) in change (a =? b) with v end; cbn [orb]; cbv iota;
    try (destruct (leap (y + 1)));
    match goal with |- context [?a <? ?b] => destruct (a <? b) eqn:R end; try (exfalso; lia);
    apply date_eq; lia.
Qed.
Lemma march_wrap y : march (y + 1) 0 = next_day (march y (mlen y - 1)).
Proof.
  unfold march, next_day, mlen, month_days. destruct (leap (y + 1)) eqn:Q.
  - change ((5 * (366 - 1) + 2) / 153) with 11. change ((5 * 0 + 2) / 153) with 0.
    change (11 <? 10) with false. change (0 <? 10) with true. cbv iota.
    change (11 - 9 <=? 2) with true. change (0 + 3 <=? 2) with false. change (11 - 9 =? 2) with true. cbv iota.
    rewrite Q. match goal with |- context [?a <? ?b] => change (a <? b) with false end. apply date_eq; lia.
  - change ((5 * (365 - 1) + 2) / 153) with 11. change ((5 * 0 + 2) / 153) with 0.
    change (11 <? 10) with false. change (0 <? 10) with true. cbv iota.
    change (11 - 9 <=? 2) with true. change (0 + 3 <=? 2) with false. change (11 - 9 =? 2) with true. cbv iota.
    rewrite Q. match goal with |- context [?a <? ?b] => change (a <? b) with false end. apply date_eq; lia.
Qed.

Lemma date_next n : date_of_days (n + 1) = next_day (date_of_days n).
Proof.
  destruct (date_of_days_march n) as (y & k & D & E & K). rewrite D.
  destruct (Z.eq_dec (k + 1) (mlen y)) as [W|W].
  - replace k with (mlen y - 1) by lia. rewrite <- march_wrap. apply date_of_march.
    + pose proof (mstart_next y). lia.
    + pose proof (mlen_pos (y + 1)). lia.
  - rewrite <- march_next by lia. apply date_of_march; lia.
Qed.
Lemma date_valid n : valid_date (date_of_days n).
Proof. destruct (date_of_days_march n) as (y & k & -> & _ & K). apply march_valid, K. Qed.

Lemma month_days_pos y m : 28 <= month_days y m <= 31.
Proof. unfold month_days. destruct (m =? 2), (leap y), ((m =? 4) || (m =? 6) || (m =? 9) || (m =? 11)); lia. Qed.
Lemma next_day_inj x x' : valid_date x -> valid_date x' -> next_day x = next_day x' -> x = x'.
Proof.
  destruct x as [[y m] d], x' as [[y' m'] d']. cbn [valid_date next_day]. intros V V' E.
  destruct (d <? month_days y m) eqn:A, (d' <? month_days y' m') eqn:B.
  - injection E as ? ? ?. apply date_eq; lia.
  - exfalso. destruct (m' <? 12); injection E; intros; lia.
  - exfalso. destruct (m <? 12); injection E; intros; lia.
  - assert (V1 : m = m' -> y = y' -> month_days y m = month_days y' m') by (intros -> ->; reflexivity).
    destruct (m <? 12) eqn:P, (m' <? 12) eqn:Q; injection E; intros; try (exfalso; lia); apply date_eq; lia.
Qed.

Lemma on_day_date n : on_day n (date_of_days n).
Proof.
  assert (F : forall k, on_day (Z.of_nat k) (date_of_days (Z.of_nat k))).
  { induction k as [|k IH]; [exact epoch|]. replace (Z.of_nat (S k)) with (Z.of_nat k + 1) by lia.
    rewrite date_next. apply tomorrow, IH. }
  assert (G : forall k, on_day (- Z.of_nat k) (date_of_days (- Z.of_nat k))).
  { induction k as [|k IH]; [exact epoch|]. apply yesterday; [apply date_valid|].
    rewrite <- date_next. replace (- Z.of_nat (S k) + 1) with (- Z.of_nat k) by lia. exact IH. }
  destruct (Z_le_gt_dec 0 n) as [H|H].
  - replace n with (Z.of_nat (Z.to_nat n)) by lia. apply F.
  - replace n with (- Z.of_nat (Z.to_nat (- n))) by lia. apply G.
Qed.
Lemma on_day_unique n x : on_day n x -> x = date_of_days n.
Proof.
  induction 1 as [|n x H IH|n x V H IH].
  - reflexivity.
  - rewrite date_next, IH. reflexivity.
  - rewrite date_next in IH. apply next_day_inj; [exact V|apply date_valid|exact IH].
Qed.
Lemma on_day_iff n x : on_day n x <-> date_of_days n = x.
Proof. split; [intros H; symmetry; apply on_day_unique, H|intros <-; apply on_day_date]. Qed.

(** days_of_date counts the days to the first of a month. *)
Lemma days_of_date_month y m d : days_of_date y m d = days_of_date y m 1 + d - 1.
Proof. unfold days_of_date. lia. Qed.
Lemma days_march y m d : 1 <= m <= 12 ->
  days_of_date y m d = mstart (if m <=? 2 then y - 1 else y) + (153 * ((m + 9) mod 12) + 2) / 5 + d - 1 - 719468.
Proof.
  intros M. unfold days_of_date. set (Y := if m <=? 2 then y - 1 else y).
  set (w := (153 * ((m + 9) mod 12) + 2) / 5). clearbody Y w. unfold mstart. lia.
Qed.
Lemma date_of_days_of_date y m d : valid_date (y, m, d) -> date_of_days (days_of_date y m d) = (y, m, d).
Proof.
  intros [M D].
  assert (C : m = 1 \/ m = 2 \/ m = 3 \/ m = 4 \/ m = 5 \/ m = 6 \/ m = 7 \/ m = 8 \/ m = 9 \/ m = 10 \/ m = 11 \/ m = 12) by lia.
  pose proof (days_march y m d M) as E.
  set (Y := if m <=? 2 then y - 1 else y) in *. set (w := (153 * ((m + 9) mod 12) + 2) / 5) in *.
  assert (LY : leap (Y + 1) = if m <=? 2 then leap y else leap (Y + 1))
    by (unfold Y; destruct (m <=? 2); [f_equal; lia|reflexivity]).
  rewrite (date_of_march Y (w + d - 1)).
  - unfold march. unfold month_days in D.
    assert (MP : (5 * (w + d - 1) + 2) / 153 = (m + 9) mod 12).
    { unfold w. repeat destruct C as [-> | C]; try subst m; cbn -[Z.add Z.mul Z.sub Z.div leap] in D |- *; try (destruct (leap y)); lia. }
    rewrite MP. unfold Y, w. clear MP.
    repeat destruct C as [-> | C]; try subst m;
      match goal with |- context [(?a + 9) mod 12] => let v := eval vm_compute in ((a + 9) mod 12) in change ((a + 9) mod 12) with v end;
      apply date_eq; try reflexivity; try lia;
      repeat match goal with |- context [if ?b then _ else _] => let v := eval vm_compute in b in change b with v; cbv iota end; lia.
  - rewrite E. lia.
  - unfold mlen. rewrite LY. clear LY. unfold w, month_days in *.
    repeat destruct C as [-> | C]; try subst m;
      match goal with |- context [(?a + 9) mod 12] => let v := eval vm_compute in ((a + 9) mod 12) in change ((a + 9) mod 12) with v end;
      cbn -[Z.add Z.mul Z.sub Z.div leap] in D |- *; try (destruct (leap y)); repeat match goal with |- context [if ?b then _ else _] => destruct b end; lia.
Qed.
Lemma on_day_of_date y m d : valid_date (y, m, d) -> on_day (days_of_date y m d) (y, m, d).
Proof. intros V. apply on_day_iff, date_of_days_of_date, V. Qed.
Lemma date_of_days_inj n n' : date_of_days n = date_of_days n' -> n = n'.
Proof.
  intros E. destruct (date_of_days_march n) as (y & k & D & N & K), (date_of_days_march n') as (y' & k' & D' & N' & K').
  enough (y = y' /\ k = k') as [-> ->] by lia.
  rewrite D, D' in E. unfold march in E.
  set (p := (5 * k + 2) / 153) in *. set (q := (5 * k' + 2) / 153) in *.
  apply pair_equal_spec in E as [E ED]. apply pair_equal_spec in E as [EY EM].
  assert (p = q).
  { assert (0 <= p <= 11) by (unfold p; pose proof (mlen_pos y); lia). assert (0 <= q <= 11) by (unfold q; pose proof (mlen_pos y'); lia).
    clearbody p q. revert EM. clear EY ED D D'. destruct (p <? 10) eqn:P, (q <? 10) eqn:Q; intros EM; lia. }
  clearbody p q. subst q. split; lia.
Qed.
Lemma days_of_date_of n y m d : date_of_days n = (y, m, d) -> days_of_date y m d = n.
Proof.
  intros E. apply date_of_days_inj. rewrite E. apply date_of_days_of_date. rewrite <- E. apply date_valid.
Qed.
