(** Lemmas about the Ticks model. *)
From Coq Require Import Lia ZifyBool.
From Verif Require Import Base BaseProofs TicksModel.
Ltac Zify.zify_post_hook ::= Z.div_mod_to_equations.

Lemma ValueMask_ones : ValueMask = Z.ones 62.
Proof. reflexivity. Qed.

Lemma land_mask t : Z.land t ValueMask = t mod 2 ^ 62.
Proof. rewrite ValueMask_ones. apply Z.land_ones. lia. Qed.

Lemma TimestampValue_mod t : TimestampValue t = t mod 2 ^ 62.
Proof.
  unfold TimestampValue. rewrite land_mask. apply i64_small. unfold is_i64. lia.
Qed.

Lemma land_pow2 t n : 0 <= n -> Z.land t (2 ^ n) = if Z.testbit t n then 2 ^ n else 0.
Proof.
  intros Hn. apply Z.bits_inj'. intros k Hk. rewrite Z.land_spec.
  destruct (Z.eq_dec k n) as [->|Hne].
  - rewrite Z.pow2_bits_true by lia. rewrite andb_true_r.
    destruct (Z.testbit t n); [rewrite Z.pow2_bits_true by lia|rewrite Z.bits_0]; reflexivity.
  - rewrite Z.pow2_bits_false by lia. rewrite andb_false_r.
    destruct (Z.testbit t n); [rewrite Z.pow2_bits_false by lia|rewrite Z.bits_0]; reflexivity.
Qed.

Lemma IsLeapSecond_bit t : IsLeapSecond t = Z.testbit t 63.
Proof.
  unfold IsLeapSecond, LeapSecondFlag. rewrite land_pow2 by lia.
  destruct (Z.testbit t 63); reflexivity.
Qed.
Lemma IsLeapSecond_fn_bit t : IsLeapSecond_fn t = Z.testbit t 63.
Proof.
  unfold IsLeapSecond_fn, LeapSecondFlag. rewrite land_pow2 by lia.
  destruct (Z.testbit t 63); reflexivity.
Qed.
Lemma IsNegativeLeapSecond_bit t :
  IsNegativeLeapSecond t = Z.testbit t 63 && Z.testbit t 62.
Proof.
  unfold IsNegativeLeapSecond, LeapSecondDirection. rewrite IsLeapSecond_bit, land_pow2 by lia.
  destruct (Z.testbit t 62); reflexivity.
Qed.
Lemma IsNegativeLeapSecond_fn_bit t :
  IsNegativeLeapSecond_fn t = Z.testbit t 63 && Z.testbit t 62.
Proof.
  unfold IsNegativeLeapSecond_fn, LeapSecondDirection. rewrite IsLeapSecond_fn_bit, land_pow2 by lia.
  destruct (Z.testbit t 62); reflexivity.
Qed.

(** Bit-wise description of one operation. *)
Lemma leap_step_bits t o n : is_u64 t -> 0 <= n ->
  Z.testbit (leap_step t o) n =
    match o with
    | OpSetLeapSecond => if n =? 63 then true else Z.testbit t n
    | OpSetNegativeLeapSecond => if (n =? 63) || (n =? 62) then true else Z.testbit t n
    | OpSetDirection d => if n =? 62 then d else Z.testbit t n
    end.
Proof.
  intros Ht Hn. destruct o as [| |[|]]; cbn [leap_step SetLeapSecondDirection].
  - unfold SetLeapSecond, LeapSecondFlag. rewrite Z.lor_spec, Z.pow2_bits_eqb by lia.
    destruct (Z.eqb_spec n 63), (Z.eqb_spec 63 n); subst; try lia;
      rewrite ?orb_true_r, ?orb_false_r; reflexivity.
  - unfold SetNegativeLeapSecond, LeapSecondFlag, LeapSecondDirection.
    rewrite !Z.lor_spec, !Z.pow2_bits_eqb by lia.
    destruct (Z.eqb_spec n 63), (Z.eqb_spec 63 n), (Z.eqb_spec n 62), (Z.eqb_spec 62 n);
      subst; try lia; cbn [orb]; rewrite ?orb_true_r, ?orb_false_r; reflexivity.
  - unfold LeapSecondDirection. rewrite Z.lor_spec, Z.pow2_bits_eqb by lia.
    destruct (Z.eqb_spec n 62), (Z.eqb_spec 62 n); subst; try lia;
      rewrite ?orb_true_r, ?orb_false_r; reflexivity.
  - change (Z.lxor (2 ^ 64 - 1) LeapSecondDirection) with (Z.lxor (Z.ones 64) (2 ^ 62)).
    rewrite Z.land_spec, Z.lxor_spec, Z.pow2_bits_eqb by lia.
    destruct (Z_lt_le_dec n 64) as [Hlt|Hge].
    + rewrite Z.ones_spec_low by lia.
      destruct (Z.eqb_spec n 62), (Z.eqb_spec 62 n); subst; try lia; cbn [xorb];
        rewrite ?andb_true_r, ?andb_false_r; reflexivity.
    + destruct (Z.eqb_spec n 62); [lia|].
      assert (Hz : Z.testbit t n = false).
      { unfold is_u64 in Ht. destruct (Z.eq_dec t 0) as [->|Hnz]; [apply Z.bits_0|].
        apply Z.bits_above_log2; [lia|]. apply Z.log2_lt_pow2; [lia|].
        apply Z.lt_le_trans with (2 ^ 64); [lia|]. apply Z.pow_le_mono_r; lia. }
      rewrite Hz. reflexivity.
Qed.

Lemma u64_bits t : 0 <= t -> (forall n, 64 <= n -> Z.testbit t n = false) -> is_u64 t.
Proof.
  intros H0 H. unfold is_u64. split; [exact H0|].
  replace t with (t mod 2 ^ 64); [apply Z.mod_pos_bound; reflexivity|].
  rewrite <- Z.land_ones by lia. apply Z.bits_inj'. intros n Hn. rewrite Z.land_spec.
  destruct (Z_lt_le_dec n 64).
  - rewrite Z.ones_spec_low by lia. apply andb_true_r.
  - rewrite H by lia. reflexivity.
Qed.

Lemma bits_u64 t n : is_u64 t -> 64 <= n -> Z.testbit t n = false.
Proof.
  intros Ht Hn. unfold is_u64 in Ht. destruct (Z.eq_dec t 0) as [->|Hnz]; [apply Z.bits_0|].
  apply Z.bits_above_log2; [lia|]. apply Z.log2_lt_pow2; [lia|].
  apply Z.lt_le_trans with (2 ^ 64); [lia|]. apply Z.pow_le_mono_r; lia.
Qed.

Lemma leap_step_u64 t o : is_u64 t -> is_u64 (leap_step t o).
Proof.
  intros Ht. apply u64_bits.
  - assert (0 <= t) by (unfold is_u64 in Ht; lia).
    destruct o as [| |[|]]; cbn [leap_step SetLeapSecondDirection];
      unfold SetLeapSecond, SetNegativeLeapSecond;
      rewrite ?Z.lor_nonneg, ?Z.land_nonneg; repeat split; try assumption;
      try (left; assumption); try discriminate.
  - intros n Hn. rewrite leap_step_bits by (try exact Ht; lia).
    destruct o as [| |d];
      repeat match goal with |- context[?a =? ?b] => destruct (Z.eqb_spec a b); [lia|] end;
      cbn [orb]; apply bits_u64; auto.
Qed.

Lemma leap_step_value t o : is_u64 t -> TimestampValue (leap_step t o) = TimestampValue t.
Proof.
  intros Ht. rewrite !TimestampValue_mod, <- !Z.land_ones by lia.
  apply Z.bits_inj'. intros n Hn. rewrite !Z.land_spec.
  destruct (Z_lt_le_dec n 62).
  - rewrite leap_step_bits by (try exact Ht; lia).
    destruct o as [| |d];
      repeat match goal with |- context[n =? ?b] => destruct (Z.eqb_spec n b); [lia|] end;
      reflexivity.
  - rewrite !Z.ones_spec_high by lia. rewrite !andb_false_r. reflexivity.
Qed.

(** Conversions. *)
Lemma FromUnixNano_val ns : is_u64 ns -> FromUnixNano ns = ns / 100 + UnixBaseOffset.
Proof.
  intros H. unfold FromUnixNano. apply u64_small. unfold is_u64, UnixBaseOffset in *. lia.
Qed.

Lemma ToUnixNano_FromUnixNano ns : is_u64 ns ->
  ToUnixNano (FromUnixNano ns) = ns - ns mod 100.
Proof.
  intros H. rewrite FromUnixNano_val by exact H. unfold ToUnixNano. rewrite land_mask.
  unfold is_u64 in H. unfold UnixBaseOffset.
  rewrite (Z.mod_small (ns / 100 + _)) by lia.
  rewrite (u64_small (_ - _)) by (unfold is_u64; lia).
  rewrite u64_small by (unfold is_u64; lia). lia.
Qed.

Lemma ToUnixNano_val t :
  UnixBaseOffset <= t mod 2 ^ 62 -> (t mod 2 ^ 62 - UnixBaseOffset) * 100 < 2 ^ 64 ->
  ToUnixNano t = (t mod 2 ^ 62 - UnixBaseOffset) * 100.
Proof.
  intros H1 H2. unfold ToUnixNano. rewrite land_mask.
  rewrite (u64_small (_ - _)) by (unfold is_u64, UnixBaseOffset in *; lia).
  rewrite u64_small; [reflexivity|]. unfold is_u64, UnixBaseOffset in *; lia.
Qed.

Lemma ToTime_val t : is_u64 t ->
  UnixBaseOffset <= t mod 2 ^ 62 -> (t mod 2 ^ 62 - UnixBaseOffset) * 100 < 2 ^ 63 ->
  ToTime t = (t mod 2 ^ 62 - UnixBaseOffset) * 100.
Proof.
  intros Ht H1 H2. unfold ToTime. rewrite land_mask.
  unfold is_u64 in Ht.
  rewrite (u64_small (t - _)) by (unfold is_u64, UnixBaseOffset in *; lia).
  assert (E : (t - UnixBaseOffset) mod 2 ^ 62 = t mod 2 ^ 62 - UnixBaseOffset)
    by (unfold UnixBaseOffset in *; lia).
  rewrite E.
  rewrite (i64_small (_ - _)) by (unfold is_i64, UnixBaseOffset in *; lia).
  rewrite i64_small; [reflexivity|]. unfold is_i64, UnixBaseOffset in *; lia.
Qed.

Lemma FromUnixNano_ToUnixNano t :
  UnixBaseOffset <= t mod 2 ^ 62 -> (t mod 2 ^ 62 - UnixBaseOffset) * 100 < 2 ^ 64 ->
  FromUnixNano (ToUnixNano t) = TimestampValue t.
Proof.
  intros H1 H2. rewrite ToUnixNano_val by assumption.
  rewrite FromUnixNano_val by (unfold is_u64, UnixBaseOffset in *; lia).
  rewrite Z.div_mul by lia. rewrite TimestampValue_mod. lia.
Qed.

Lemma FromTime_exact ns : is_i64 ns ->
  (FromTime ns = (ns + UnixBaseOffset * 100) / 100 <-> 0 <= ns).
Proof.
  intros H. unfold FromTime. rewrite FromUnixNano_val by apply u64_range.
  unfold is_i64, u64, UnixBaseOffset in *. lia.
Qed.
