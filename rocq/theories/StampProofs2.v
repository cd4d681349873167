(** The text of a time of day determines it to the millisecond. *)
From Coq Require Import Lia.
From Verif Require Import Base FormatSpec CalSpec TicksSpec StampModel StampSpec StampProofs.
Open Scope Z_scope.
Lemma time_of_day_unique l t t' : shows_time_of_day l t -> shows_time_of_day l t' -> t mod (86400 * 10 ^ 9) / 10 ^ 6 = t' mod (86400 * 10 ^ 9) / 10 ^ 6.
Proof.
  intros (x & ct & ft & V & (n & _ & I) & C & F & E) (x' & ct' & ft' & V' & (n' & _ & I') & C' & F' & E').
  rewrite E in E'. pose proof (clock_text_len _ _ _ _ C) as L. pose proof (clock_text_len _ _ _ _ C') as L'.
  destruct (app_eq_len _ _ _ _ ltac:(rewrite L, L'; reflexivity) E') as [-> ->].
  destruct (clock_text_unique _ _ _ _ _ _ _ C C') as (EH & EM & ES).
  pose proof (fraction_unique _ _ _ (short_fraction_text _ _ _ F) (short_fraction_text _ _ _ F')) as EN.
  destruct V as (_ & H & M & S & N), V' as (_ & _ & _ & _ & N').
  assert (G : forall k h m s ns, 0 <= h < 24 -> 0 <= m < 60 -> 0 <= s < 60 -> 0 <= ns < 10 ^ 9 ->
    ((k * 86400 + h * 3600 + m * 60 + s - 0) * 10 ^ 9 + ns) mod (86400 * 10 ^ 9) / 10 ^ 6 = (h * 3600 + m * 60 + s) * 1000 + (ns - ns mod 10 ^ 6) / 10 ^ 6).
  { clear. intros k h m s ns H M S N. change (10 ^ 9) with 1000000000 in *. change (10 ^ 6) with 1000000.
    replace ((k * 86400 + h * 3600 + m * 60 + s - 0) * 1000000000 + ns) with ((h * 3600 + m * 60 + s) * 1000000000 + ns + k * (86400 * 1000000000)) by lia.
    rewrite Z.mod_add by lia. rewrite Z.mod_small by lia.
    pose proof (Z.div_mod ns 1000000 ltac:(lia)). replace (ns - ns mod 1000000) with (ns / 1000000 * 1000000) by lia. rewrite Z.div_mul by lia.
    replace ((h * 3600 + m * 60 + s) * 1000000000 + ns) with (ns + ((h * 3600 + m * 60 + s) * 1000) * 1000000) by lia. rewrite Z.div_add by lia. lia. }
  rewrite I, I', !G by (try lia; congruence || lia). rewrite EH, EM, ES, EN. reflexivity.
Qed.
Lemma short_time_determines t t' : is_u64 t -> is_u64 t' -> is_i64 ((t mod 2 ^ 62 - epoch_ticks) * 100) -> is_i64 ((t' mod 2 ^ 62 - epoch_ticks) * 100) ->
  Ticks_ShortTime t = Ticks_ShortTime t' -> t mod 2 ^ 62 mod 864000000000 / 10000 = t' mod 2 ^ 62 mod 864000000000 / 10000.
Proof.
  intros U U' B B' E. pose proof (Ticks_ShortTime_shows t U B) as H. pose proof (Ticks_ShortTime_shows t' U' B') as H'. rewrite <- E in H'.
  pose proof (time_of_day_unique _ _ _ H H') as D.
  assert (G : forall x, (x - epoch_ticks) * 100 mod (86400 * 10 ^ 9) / 10 ^ 6 = x mod 864000000000 / 10000).
  { intros x. replace ((x - epoch_ticks) * 100) with (x * 100 + (- 719162) * (86400 * 10 ^ 9)) by (unfold epoch_ticks; lia).
    rewrite Z.mod_add by lia. replace (86400 * 10 ^ 9) with (864000000000 * 100) by reflexivity. rewrite Z.mul_mod_distr_r by lia.
    replace (10 ^ 6) with (10000 * 100) by reflexivity. rewrite Z.div_mul_cancel_r by lia. reflexivity. }
  rewrite !G in D. exact D.
Qed.
