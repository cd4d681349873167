(** The lemmas the Ticks property theorems are closed with. *)
From Coq Require Import Lia ZifyBool.
From Verif Require Import Base BaseProofs TicksModel TicksSpec TicksProofs.
Ltac Zify.zify_post_hook ::= Z.div_mod_to_equations.

Lemma leap_ops_preserve_time t ops : is_u64 t ->
  is_u64 (fold_left leap_step ops t) /\
  TimestampValue (fold_left leap_step ops t) = t mod 2 ^ 62.
Proof.
  revert t. induction ops as [|o ops IH]; intros t Ht; cbn [fold_left].
  - split; [exact Ht | apply TimestampValue_mod].
  - destruct (IH (leap_step t o) (leap_step_u64 t o Ht)) as [H1 H2].
    split; [exact H1|]. rewrite H2, <- !TimestampValue_mod. apply leap_step_value. exact Ht.
Qed.

Lemma leap_step_marks t o : is_u64 t ->
  (Z.testbit (leap_step t o) 63, Z.testbit (leap_step t o) 62) =
  marks_step (Z.testbit t 63, Z.testbit t 62) o.
Proof.
  intros Ht. rewrite !leap_step_bits by (try exact Ht; lia).
  destruct o; reflexivity.
Qed.

Lemma leap_marks t ops : is_u64 t ->
  (Z.testbit (fold_left leap_step ops t) 63, Z.testbit (fold_left leap_step ops t) 62) =
  fold_left marks_step ops (Z.testbit t 63, Z.testbit t 62).
Proof.
  revert t. induction ops as [|o ops IH]; intros t Ht; cbn [fold_left]; [reflexivity|].
  rewrite IH by (apply leap_step_u64; exact Ht). rewrite leap_step_marks by exact Ht. reflexivity.
Qed.

Lemma leap_marks_read_back t ops : is_u64 t ->
  let m := fold_left marks_step ops (Z.testbit t 63, Z.testbit t 62) in
  let t' := fold_left leap_step ops t in
  IsLeapSecond t' = fst m /\ IsLeapSecond_fn t' = fst m /\
  IsNegativeLeapSecond t' = (fst m && snd m) /\
  IsNegativeLeapSecond_fn t' = (fst m && snd m).
Proof.
  intros Ht. cbv zeta. rewrite <- leap_marks by exact Ht. cbn [fst snd].
  rewrite IsLeapSecond_bit, IsLeapSecond_fn_bit, IsNegativeLeapSecond_bit, IsNegativeLeapSecond_fn_bit.
  repeat split; reflexivity.
Qed.

Lemma epoch_ticks_eq : epoch_ticks = UnixBaseOffset.
Proof. reflexivity. Qed.

Lemma FromUnixNano_count ns : is_u64 ns -> FromUnixNano ns = intervals_since_year1 ns.
Proof.
  intros H. rewrite FromUnixNano_val by exact H. unfold intervals_since_year1.
  rewrite epoch_ticks_eq. lia.
Qed.

Lemma FromUnixNano_mono ns1 ns2 :
  is_u64 ns1 -> is_u64 ns2 -> ns1 <= ns2 -> FromUnixNano ns1 <= FromUnixNano ns2.
Proof. intros H1 H2 H. rewrite !FromUnixNano_val by assumption. lia. Qed.

Lemma ticks_round_trip t :
  is_u64 t ->
  epoch_ticks <= t mod 2 ^ 62 ->
  (t mod 2 ^ 62 - epoch_ticks) * 100 < 2 ^ 63 ->
  ToUnixNano t = (t mod 2 ^ 62 - epoch_ticks) * 100 /\
  ToTime t = (t mod 2 ^ 62 - epoch_ticks) * 100 /\
  FromUnixNano (ToUnixNano t) = TimestampValue t /\
  FromTime (ToTime t) = TimestampValue t.
Proof.
  rewrite epoch_ticks_eq. intros Ht H1 H2.
  assert (HU : ToUnixNano t = (t mod 2 ^ 62 - UnixBaseOffset) * 100)
    by (apply ToUnixNano_val; [exact H1 | lia]).
  assert (HT : ToTime t = (t mod 2 ^ 62 - UnixBaseOffset) * 100)
    by (apply ToTime_val; assumption).
  assert (HF : FromUnixNano (ToUnixNano t) = TimestampValue t)
    by (apply FromUnixNano_ToUnixNano; [exact H1 | lia]).
  split; [exact HU|]. split; [exact HT|]. split; [exact HF|].
  unfold FromTime. rewrite HT. rewrite u64_small by (unfold is_u64; lia).
  rewrite <- HU. exact HF.
Qed.

Lemma FromTime_iff ns :
  is_i64 ns -> (FromTime ns = intervals_since_year1 ns <-> 0 <= ns).
Proof. unfold intervals_since_year1. rewrite epoch_ticks_eq. apply FromTime_exact. Qed.

Lemma FromTime_ToTime_nonneg ns :
  is_i64 ns -> 0 <= ns -> ToTime (FromTime ns) = ns - ns mod 100.
Proof.
  intros H H0. unfold FromTime. unfold is_i64 in H.
  rewrite u64_small by (unfold is_u64; lia).
  rewrite FromUnixNano_val by (unfold is_u64; lia).
  assert (E : (ns / 100 + UnixBaseOffset) mod 2 ^ 62 = ns / 100 + UnixBaseOffset)
    by (unfold UnixBaseOffset; lia).
  rewrite ToTime_val; rewrite ?E; unfold is_u64, UnixBaseOffset; lia.
Qed.

Lemma FromTime_refuted : exists ns : Z,
  is_i64 ns /\ FromTime ns <> intervals_since_year1 ns /\
  FromTime ns > FromTime 0 /\ ns < 0 /\ ToTime (FromTime ns) <> ns - ns mod 100.
Proof. exists (-1000000000). vm_compute. repeat split; discriminate. Qed.
