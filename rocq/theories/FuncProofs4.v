(** Proofs about date differences (C92), which are computed in floating point. *)
From Coq Require Import Reals Lia Lra ZifyBool.
From Verif Require Import Base CalModel NumModel ExprModel FloatSpec FloatProofs.
From Flocq Require Import Core.Core.
Open Scope R_scope.

(** ** Rounding between integers *)

Lemma number_small r : Rabs r <= IZR (2 ^ 53) -> Rabs (nearest r) < bpow radix2 1024.
Proof.
  intros B. apply Rle_lt_trans with (IZR (2 ^ 53)).
  - unfold nearest. apply abs_round_le_generic; [apply FLT_exp_valid; reflexivity|auto with typeclass_instances| |exact B].
    apply integer_format. lia.
  - change (IZR (2 ^ 53)) with (bpow radix2 53). apply bpow_lt. lia.
Qed.
Lemma between n r : (0 <= n)%Z -> (n + 1 <= 2 ^ 53)%Z -> IZR n <= r <= IZR (n + 1) -> IZR n <= nearest r <= IZR (n + 1).
Proof.
  intros P B [A C]. split.
  - rewrite <- (nearest_integer n) by lia. apply nearest_le, A.
  - rewrite <- (nearest_integer (n + 1)) by lia. apply nearest_le, C.
Qed.
(** Just below an integer. *)
Lemma below_format n p : (0 < n)%Z -> (0 <= p <= 53)%Z -> (n * 2 ^ p <= 2 ^ 53)%Z ->
  nearest (IZR n - bpow radix2 (- p)) = IZR n - bpow radix2 (- p).
Proof.
  intros N P B. apply nearest_format. apply generic_format_FLT.
  assert (Q : (0 < 2 ^ p)%Z) by (apply Z.pow_pos_nonneg; lia).
  exists (Float radix2 (n * 2 ^ p - 1) (- p)); cbn [Fnum Fexp]; [|change (radix_val radix2) with 2%Z; nia|lia].
  unfold F2R; cbn [Fnum Fexp]. rewrite minus_IZR, mult_IZR.
  change (IZR (2 ^ p)) with (IZR (Zpower radix2 p)). rewrite (IZR_Zpower radix2 p) by lia.
  assert (I : bpow radix2 p * bpow radix2 (- p) = 1) by (rewrite <- bpow_plus; replace (p + - p)%Z with 0%Z by lia; reflexivity).
  replace ((IZR n * bpow radix2 p - 1) * bpow radix2 (- p)) with (IZR n * (bpow radix2 p * bpow radix2 (- p)) - bpow radix2 (- p)) by ring.
  rewrite I. ring.
Qed.
Lemma nearest_below n p r : (0 < n)%Z -> (0 <= p <= 53)%Z -> (n * 2 ^ p <= 2 ^ 53)%Z ->
  r <= IZR n - bpow radix2 (- p) -> nearest r <= IZR n - bpow radix2 (- p).
Proof. intros N P B R. rewrite <- (below_format n p N P B). apply nearest_le, R. Qed.
Lemma nearest_opp r : nearest (- r) = - nearest r.
Proof. apply round_NE_opp. Qed.

(** ** A duration as a number of units *)

Definition span (U d : Z) : R := nearest (IZR (Z.quot d U) + nearest (IZR (Z.rem d U) / IZR U)).
Lemma span_opp U d : (0 < U)%Z -> span U (- d) = - span U d.
Proof.
  intros P. unfold span. rewrite Z.quot_opp_l, Z.rem_opp_l, !opp_IZR by lia.
  unfold Rdiv. rewrite <- Ropp_mult_distr_l, nearest_opp, <- Ropp_plus_distr. apply nearest_opp.
Qed.
Lemma span_nonneg U d : (0 < U <= 2 ^ 53)%Z -> (0 <= d)%Z -> (d / U + 1 <= 2 ^ 53)%Z -> IZR (d / U) <= span U d <= IZR (d / U + 1).
Proof.
  intros P D B. unfold span. rewrite Z.quot_div_nonneg, Z.rem_mod_nonneg by lia.
  assert (UP : 0 < IZR U) by (apply IZR_lt; lia).
  assert (R : 0 <= nearest (IZR (d mod U) / IZR U) <= 1).
  { apply (between 0); [lia|lia|]. assert (M : (0 <= d mod U < U)%Z) by (apply Z.mod_pos_bound; lia).
    split; [apply Rmult_le_pos; [apply IZR_le; lia|apply Rlt_le, Rinv_0_lt_compat, UP]|].
    apply Rmult_le_reg_r with (IZR U); [exact UP|]. unfold Rdiv. rewrite Rmult_assoc, Rinv_l, Rmult_1_r by lra.
    change (IZR (0 + 1)) with 1. rewrite Rmult_1_l. apply IZR_le; lia. }
  apply between; [apply Z.div_pos; lia|exact B|]. rewrite plus_IZR. lra.
Qed.
Lemma span_below U d p : (0 < U <= 2 ^ 53)%Z -> (0 <= d)%Z -> (0 <= p <= 53)%Z -> ((d / U + 1) * 2 ^ p <= 2 ^ 53)%Z ->
  (U <= (U * (d / U + 1) - d) * 2 ^ p)%Z -> span U d <= IZR (d / U + 1) - bpow radix2 (- p).
Proof.
  intros P D PP B C. unfold span. rewrite Z.quot_div_nonneg, Z.rem_mod_nonneg by lia.
  assert (UP : 0 < IZR U) by (apply IZR_lt; lia). assert (Q : (0 <= d / U)%Z) by (apply Z.div_pos; lia).
  assert (PW : 0 < bpow radix2 p) by apply bpow_gt_0.
  assert (I : bpow radix2 p * bpow radix2 (- p) = 1) by (rewrite <- bpow_plus; replace (p + - p)%Z with 0%Z by lia; reflexivity).
  assert (R : nearest (IZR (d mod U) / IZR U) <= 1 - bpow radix2 (- p)).
  { apply (nearest_below 1); [lia|lia|nia|].
    assert (M : (U - d mod U = U * (d / U + 1) - d)%Z) by (pose proof (Z.div_mod d U ltac:(lia)); lia).
    rewrite <- M in C. apply IZR_le in C. rewrite mult_IZR, minus_IZR in C.
    change (IZR (2 ^ p)) with (IZR (Zpower radix2 p)) in C. rewrite (IZR_Zpower radix2 p) in C by lia.
    apply Rmult_le_reg_r with (IZR U); [exact UP|]. unfold Rdiv. rewrite Rmult_assoc, Rinv_l, Rmult_1_r by lra.
    apply Rmult_le_reg_r with (bpow radix2 p); [exact PW|]. nra. }
  apply nearest_below; [lia|exact PP|exact B|]. rewrite plus_IZR. lra.
Qed.

(** Division of such a number by a whole number. *)
Lemma part_nonneg n c x : (0 <= n)%Z -> (0 < c)%Z -> (n + 1 <= 2 ^ 53)%Z -> IZR n <= x <= IZR (n + 1) ->
  IZR (n / c) <= nearest (x / IZR c) <= IZR (n / c + 1).
Proof.
  intros N C B [L H]. assert (CP : 0 < IZR c) by (apply IZR_lt; lia).
  pose proof (Z.div_mod n c ltac:(lia)) as DM. pose proof (Z.mod_pos_bound n c ltac:(lia)) as MB.
  assert (Q : (0 <= n / c)%Z) by (apply Z.div_pos; lia). assert (Q2 : (n / c <= n)%Z) by nia.
  apply between; [exact Q|lia|]. split.
  - apply Rmult_le_reg_r with (IZR c); [exact CP|]. unfold Rdiv. rewrite Rmult_assoc, Rinv_l, Rmult_1_r by lra.
    rewrite <- mult_IZR. apply Rle_trans with (IZR n); [apply IZR_le; nia|exact L].
  - apply Rmult_le_reg_r with (IZR c); [exact CP|]. unfold Rdiv. rewrite Rmult_assoc, Rinv_l, Rmult_1_r by lra.
    rewrite <- mult_IZR. apply Rle_trans with (IZR (n + 1)); [exact H|apply IZR_le; nia].
Qed.
Lemma part_below m c p j x : (0 < m)%Z -> (0 < c <= 2 ^ j)%Z -> (0 <= p)%Z -> (0 <= j)%Z -> (p + j <= 53)%Z -> (m * 2 ^ (p + j) <= 2 ^ 53)%Z ->
  x <= IZR (c * m) - bpow radix2 (- p) -> nearest (x / IZR c) <= IZR m - bpow radix2 (- (p + j)).
Proof.
  intros M C P J PJ B X. assert (CP : 0 < IZR c) by (apply IZR_lt; lia).
  apply nearest_below; [exact M|lia|exact B|].
  apply Rmult_le_reg_r with (IZR c); [exact CP|]. unfold Rdiv. rewrite Rmult_assoc, Rinv_l, Rmult_1_r by lra.
  apply Rle_trans with (1 := X). rewrite mult_IZR.
  replace (- (p + j))%Z with (- p + - j)%Z by lia. rewrite bpow_plus.
  assert (CJ : IZR c <= bpow radix2 j). { rewrite <- (IZR_Zpower radix2 j) by lia. apply IZR_le. change (Zpower radix2 j) with (2 ^ j)%Z. lia. }
  assert (I : bpow radix2 j * bpow radix2 (- j) = 1) by (rewrite <- bpow_plus; replace (j + - j)%Z with 0%Z by lia; reflexivity).
  pose proof (bpow_gt_0 radix2 (- p)). pose proof (bpow_gt_0 radix2 (- j)).
  assert (bpow radix2 (- j) * IZR c <= 1) by nra. nra.
Qed.

(** Truncation. *)
Lemma trunc_between n x : (0 <= n)%Z -> IZR n <= x <= IZR (n + 1) -> (Ztrunc x = n \/ Ztrunc x = n + 1)%Z.
Proof.
  intros N [L H]. assert (X : 0 <= x) by (apply Rle_trans with (IZR n); [apply IZR_le; lia|exact L]).
  rewrite Ztrunc_floor by exact X. apply Zfloor_le in L, H. rewrite !Zfloor_IZR in *. lia.
Qed.
Lemma trunc_below n x : (0 <= n)%Z -> IZR n <= x < IZR (n + 1) -> Ztrunc x = n.
Proof.
  intros N [L H]. assert (X : 0 <= x) by (apply Rle_trans with (IZR n); [apply IZR_le; lia|exact L]).
  rewrite Ztrunc_floor by exact X. apply Zfloor_imp. split; assumption.
Qed.

(** ** Hours, days and weeks of a duration *)

Definition hour_ns : Z := 3600000000000.
Definition hours (d : Z) : R := span hour_ns d.
Definition days (d : Z) : R := nearest (hours d / IZR 24).
Definition weeks (d : Z) : R := nearest (days d / IZR 7).
Lemma hours_opp d : hours (- d) = - hours d.
Proof. apply span_opp. reflexivity. Qed.
Lemma days_opp d : days (- d) = - days d.
Proof. unfold days. rewrite hours_opp. unfold Rdiv. rewrite <- Ropp_mult_distr_l. apply nearest_opp. Qed.
Lemma weeks_opp d : weeks (- d) = - weeks d.
Proof. unfold weeks. rewrite days_opp. unfold Rdiv. rewrite <- Ropp_mult_distr_l. apply nearest_opp. Qed.

Section Nonnegative.
  Variable d : Z.
  Hypothesis D : (0 <= d <= 2 ^ 63)%Z.
  Let h := (d / hour_ns)%Z.
  Fact hour_count : (0 <= h <= 2562048)%Z.
  Proof. unfold h, hour_ns. split; [apply Z.div_pos; lia|apply Z.div_le_upper_bound; lia]. Qed.
  Fact hour_span : (hour_ns * h <= d < hour_ns * (h + 1))%Z.
  Proof. unfold h. pose proof (Z.div_mod d hour_ns ltac:(discriminate)). pose proof (Z.mod_pos_bound d hour_ns ltac:(reflexivity)). lia. Qed.
  Fact hours_between : IZR h <= hours d <= IZR (h + 1).
  Proof. apply span_nonneg; [unfold hour_ns; lia|lia|fold h; pose proof hour_count; lia]. Qed.
  Fact hours_below : (1000000 <= hour_ns * (h + 1) - d)%Z -> hours d <= IZR (h + 1) - bpow radix2 (- 22).
  Proof.
    intros M. apply (span_below hour_ns d 22); [unfold hour_ns; lia|lia|lia| |]; fold h; pose proof hour_count; [lia|unfold hour_ns in *; lia].
  Qed.
  Fact days_between : IZR (h / 24) <= days d <= IZR (h / 24 + 1).
  Proof. apply (part_nonneg h 24); [apply hour_count|lia|pose proof hour_count; lia|apply hours_between]. Qed.
  Fact days_below : (1000000 <= 24 * hour_ns * (h / 24 + 1) - d)%Z -> days d <= IZR (h / 24 + 1) - bpow radix2 (- 27).
  Proof.
    intros M. apply (part_below (h / 24 + 1) 24 22 5); try lia.
    - pose proof (Z.div_pos h 24 ltac:(apply hour_count) ltac:(lia)). lia.
    - pose proof (Z.div_le_upper_bound h 24 200000 ltac:(lia) ltac:(pose proof hour_count; lia)). lia.
    - pose proof (Z.div_mod h 24 ltac:(lia)). pose proof (Z.mod_pos_bound h 24 ltac:(lia)).
      destruct (Z.eq_dec (h + 1) (24 * (h / 24 + 1))) as [E|N].
      + rewrite <- E. apply hours_below. lia.
      + apply Rle_trans with (1 := proj2 hours_between).
        apply Rle_trans with (IZR (24 * (h / 24 + 1) - 1)); [apply IZR_le; lia|].
        change (Z.opp 22) with (-22)%Z. rewrite minus_IZR. assert (bpow radix2 (- 22) <= bpow radix2 0) by (apply bpow_le; lia). change (bpow radix2 0) with 1 in *. lra.
  Qed.
  Fact weeks_between : IZR (h / 24 / 7) <= weeks d <= IZR (h / 24 / 7 + 1).
  Proof.
    apply (part_nonneg (h / 24) 7); [apply Z.div_pos; [apply hour_count|lia]|lia| |apply days_between].
    pose proof (Z.div_le_upper_bound h 24 200000 ltac:(lia) ltac:(pose proof hour_count; lia)). lia.
  Qed.
  Fact weeks_below : (1000000 <= 168 * hour_ns * (h / 24 / 7 + 1) - d)%Z -> weeks d <= IZR (h / 24 / 7 + 1) - bpow radix2 (- 30).
  Proof.
    intros M. apply (part_below (h / 24 / 7 + 1) 7 27 3); try lia.
    - pose proof (Z.div_pos (h / 24) 7 ltac:(apply Z.div_pos; [apply hour_count|lia]) ltac:(lia)). lia.
    - pose proof (Z.div_le_upper_bound h 24 200000 ltac:(lia) ltac:(pose proof hour_count; lia)).
      pose proof (Z.div_le_upper_bound (h / 24) 7 200000 ltac:(lia) ltac:(lia)). lia.
    - pose proof (Z.div_mod (h / 24) 7 ltac:(lia)). pose proof (Z.mod_pos_bound (h / 24) 7 ltac:(lia)).
      destruct (Z.eq_dec (h / 24 + 1) (7 * (h / 24 / 7 + 1))) as [E|N].
      + rewrite <- E. apply days_below. lia.
      + apply Rle_trans with (1 := proj2 days_between).
        apply Rle_trans with (IZR (7 * (h / 24 / 7 + 1) - 1)); [apply IZR_le; lia|].
        change (Z.opp 27) with (-27)%Z. rewrite minus_IZR. assert (bpow radix2 (- 27) <= bpow radix2 0) by (apply bpow_le; lia). change (bpow radix2 0) with 1 in *. lra.
  Qed.
End Nonnegative.

(** ** The doubles *)

Lemma rounds_small x r : rounds_to x r -> Rabs r <= IZR (2 ^ 53) -> is_number x /\ real x = nearest r.
Proof. intros [F _] B. apply F, number_small, B. Qed.
Lemma abs_between n x : (0 <= n)%Z -> IZR n <= x <= IZR (n + 1) -> Rabs x <= IZR (n + 1).
Proof. intros N [L H]. rewrite Rabs_pos_eq; [exact H|]. apply Rle_trans with (IZR n); [apply IZR_le; lia|exact L]. Qed.
Lemma quot_bounds d U : (0 < U)%Z -> (Z.abs (Z.quot d U) = Z.abs d / U /\ Z.abs (Z.rem d U) < U)%Z.
Proof.
  intros P. split.
  - rewrite <- Z.quot_abs by lia. rewrite (Z.abs_eq U) by lia. apply Z.quot_div_nonneg; lia.
  - pose proof (Z.rem_bound_abs d U ltac:(lia)). lia.
Qed.
Lemma abs_le_IZR n x b : Rabs x <= IZR b -> (Z.abs n + b <= 2 ^ 53)%Z -> Rabs (IZR n + x) <= IZR (2 ^ 53).
Proof.
  intros X B. apply Rle_trans with (1 := Rabs_triang _ _). rewrite <- abs_IZR. apply IZR_le in B. rewrite plus_IZR in B. lra.
Qed.
Lemma div_number x c : is_number x -> (0 < c <= 2 ^ 53)%Z -> Rabs (real x) <= IZR (2 ^ 53) ->
  is_number (d_div x (d_of_Z c)) /\ real (d_div x (d_of_Z c)) = nearest (real x / IZR c).
Proof.
  intros X C B. destruct (of_Z_rounds c ltac:(lia)) as [NC RC].
  assert (CP : 1 <= IZR c) by (apply IZR_le; lia).
  pose proof (div_rounds x (d_of_Z c) X NC ltac:(rewrite RC; lra)) as R. rewrite RC in R. apply (rounds_small _ _ R).
  unfold Rdiv. rewrite Rabs_mult, (Rabs_pos_eq (/ IZR c)) by (apply Rlt_le, Rinv_0_lt_compat; lra).
  apply Rle_trans with (2 := B). rewrite <- (Rmult_1_r (Rabs (real x))) at 2.
  apply Rmult_le_compat_l; [apply Rabs_pos|]. rewrite <- Rinv_1. apply Rinv_le; lra.
Qed.
Lemma duration_number U d : (0 < U <= 2 ^ 53)%Z -> (Z.abs d / U + 1 <= 2 ^ 53)%Z ->
  is_number (duration_in U d) /\ real (duration_in U d) = span U d.
Proof.
  intros P B. unfold duration_in. destruct (quot_bounds d U ltac:(lia)) as [Q R].
  destruct (of_Z_rounds (Z.quot d U) ltac:(lia)) as [NQ RQ]. destruct (of_Z_rounds (Z.rem d U) ltac:(lia)) as [NR RR].
  assert (RB : Rabs (real (d_of_Z (Z.rem d U))) <= IZR (2 ^ 53)) by (rewrite RR, <- abs_IZR; apply IZR_le; lia).
  destruct (div_number (d_of_Z (Z.rem d U)) U NR P RB) as [NX RX]. rewrite RR in RX.
  pose proof (add_rounds _ _ NQ NX) as A. rewrite RQ, RX in A. apply (rounds_small _ _ A).
  apply (abs_le_IZR _ _ 1); [|lia]. unfold nearest.
  apply abs_round_le_generic; [apply FLT_exp_valid; reflexivity|auto with typeclass_instances|apply (integer_format 1); lia|].
  assert (UP : 0 < IZR U) by (apply IZR_lt; lia).
  unfold Rdiv. rewrite Rabs_mult, (Rabs_pos_eq (/ IZR U)) by (apply Rlt_le, Rinv_0_lt_compat; lra).
  apply Rmult_le_reg_r with (IZR U); [exact UP|]. rewrite Rmult_assoc, Rinv_l by lra. rewrite Rmult_1_r, Rmult_1_l, <- abs_IZR. apply IZR_le. lia.
Qed.

(** From positive durations to all of them. *)
Lemma signed_trunc (x : Z -> R) unit eps d n : (0 < unit)%Z -> 0 < eps -> (forall d, x (- d)%Z = - x d) ->
  (forall d, (0 <= d <= 2 ^ 63)%Z -> IZR (d / unit) <= x d <= IZR (d / unit + 1)) ->
  (forall d, (0 <= d <= 2 ^ 63)%Z -> (1000000 <= unit * (d / unit + 1) - d)%Z -> x d <= IZR (d / unit + 1) - eps) ->
  (Z.abs d <= 2 ^ 63)%Z -> n = Z.quot d unit ->
  (Ztrunc (x d) = n \/ Ztrunc (x d) = n + Z.sgn d)%Z /\
  ((1000000 <= unit * (Z.abs n + 1) - Z.abs d)%Z -> Ztrunc (x d) = n).
Proof.
  intros U E O B S D ->. destruct (quot_bounds d unit U) as [Q _]. rewrite Q.
  assert (P : forall d, (0 <= d <= 2 ^ 63)%Z -> (Ztrunc (x d) = d / unit \/ (0 < d)%Z /\ Ztrunc (x d) = d / unit + 1)%Z /\
    ((1000000 <= unit * (d / unit + 1) - d)%Z -> Ztrunc (x d) = (d / unit)%Z)).
  { clear d D Q. intros d D. assert (N : (0 <= d / unit)%Z) by (apply Z.div_pos; lia). split.
    - destruct (Z.eq_dec d 0) as [->|NZ].
      + left. rewrite Z.div_0_l by lia. assert (Z0 : x 0%Z = 0) by (pose proof (O 0%Z) as OO; change (- 0)%Z with 0%Z in OO; lra).
        rewrite Z0. apply Ztrunc_IZR.
      + destruct (trunc_between _ _ N (B d D)); [left|right; split; [lia|]]; assumption.
    - intros M. specialize (S d D M). apply trunc_below; [exact N|]. specialize (B d D). lra. }
  destruct (Z_le_gt_dec 0 d) as [Z|Z].
  - rewrite (Z.abs_eq d) by lia. rewrite Z.quot_div_nonneg by lia. destruct (P d ltac:(lia)) as [[A|[A A']] C]; split; try exact C.
    + left. exact A.
    + right. rewrite A', Z.sgn_pos by lia. reflexivity.
  - remember (- d)%Z as e eqn:Ee. assert (d = - e)%Z by lia. subst d. clear Ee Q. rewrite Z.abs_opp, (Z.abs_eq e) by lia.
    rewrite Z.sgn_neg by lia. rewrite O, Ztrunc_opp, Z.quot_opp_l by lia. rewrite Z.quot_div_nonneg by lia.
    destruct (P e ltac:(lia)) as [A C]. split.
    + destruct A as [A|[A A']]; [left; rewrite A; reflexivity|right; rewrite A'; lia].
    + intros M. rewrite (C M). reflexivity.
Qed.

Lemma hours_trunc d n : (Z.abs d <= 2 ^ 63)%Z -> n = Z.quot d hour_ns ->
  (Ztrunc (hours d) = n \/ Ztrunc (hours d) = n + Z.sgn d)%Z /\
  ((1000000 <= hour_ns * (Z.abs n + 1) - Z.abs d)%Z -> Ztrunc (hours d) = n).
Proof.
  apply (signed_trunc hours hour_ns (bpow radix2 (-22))); [reflexivity|apply bpow_gt_0|apply hours_opp|apply hours_between|apply hours_below].
Qed.
Lemma days_trunc d n : (Z.abs d <= 2 ^ 63)%Z -> n = Z.quot d (24 * hour_ns) ->
  (Ztrunc (days d) = n \/ Ztrunc (days d) = n + Z.sgn d)%Z /\
  ((1000000 <= 24 * hour_ns * (Z.abs n + 1) - Z.abs d)%Z -> Ztrunc (days d) = n).
Proof.
  apply (signed_trunc days (24 * hour_ns) (bpow radix2 (-27))); [reflexivity|apply bpow_gt_0|apply days_opp| |].
  - intros e E. rewrite (Z.mul_comm 24), <- Z.div_div by (unfold hour_ns; lia). apply days_between, E.
  - intros e E. rewrite (Z.mul_comm 24) at 2 3. rewrite <- Z.div_div by (unfold hour_ns; lia). apply days_below, E.
Qed.
Lemma weeks_trunc d n : (Z.abs d <= 2 ^ 63)%Z -> n = Z.quot d (168 * hour_ns) ->
  (Ztrunc (weeks d) = n \/ Ztrunc (weeks d) = n + Z.sgn d)%Z /\
  ((1000000 <= 168 * hour_ns * (Z.abs n + 1) - Z.abs d)%Z -> Ztrunc (weeks d) = n).
Proof.
  assert (DD : forall e, (e / (168 * hour_ns) = e / hour_ns / 24 / 7)%Z).
  { intros e. replace (168 * hour_ns)%Z with (hour_ns * 24 * 7)%Z by reflexivity. rewrite <- !Z.div_div by (unfold hour_ns; lia). reflexivity. }
  apply (signed_trunc weeks (168 * hour_ns) (bpow radix2 (-30))); [reflexivity|apply bpow_gt_0|apply weeks_opp| |].
  - intros e E. rewrite DD. apply weeks_between, E.
  - intros e E. rewrite DD. apply weeks_below, E.
Qed.
Lemma span_trunc U p d n : (0 < U <= 2 ^ 53)%Z -> (0 <= p <= 53)%Z -> ((2 ^ 63 / U + 1) * 2 ^ p <= 2 ^ 53)%Z -> (U <= 1000000 * 2 ^ p)%Z ->
  (Z.abs d <= 2 ^ 63)%Z -> n = Z.quot d U ->
  (Ztrunc (span U d) = n \/ Ztrunc (span U d) = n + Z.sgn d)%Z /\
  ((1000000 <= U * (Z.abs n + 1) - Z.abs d)%Z -> Ztrunc (span U d) = n).
Proof.
  intros UP PP B M. assert (P2 : (0 < 2 ^ p)%Z) by (apply Z.pow_pos_nonneg; lia).
  apply (signed_trunc (span U) U (bpow radix2 (- p))); [lia|apply bpow_gt_0|intros; apply span_opp; lia| |].
  - intros e E. apply span_nonneg; [exact UP|lia|]. pose proof (Z.div_le_mono e (2 ^ 63) U ltac:(lia) ltac:(lia)). nia.
  - intros e E C. pose proof (Z.div_le_mono e (2 ^ 63) U ltac:(lia) ltac:(lia)).
    apply span_below; [exact UP|lia|exact PP|nia|nia].
Qed.
