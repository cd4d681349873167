(** Lemmas about the texts of times. *)
From Coq Require Import Lia Zify ZifyBool ZifyNat.
From Verif Require Import Base BaseProofs FormatModel FormatSpec FormatProofs CalModel CalSpec CalProofs TicksModel TicksSpec TicksProofs.
From Verif Require Import StampModel StampSpec.
Ltac Zify.zify_post_hook ::= Z.div_mod_to_equations.

(** ** Digits *)
Lemma dec_value_app l1 : forall l2, dec_value (l1 ++ l2) = dec_value l1 * 10 ^ len l2 + dec_value l2.
Proof. intros l2. unfold dec_value at 1. rewrite fold_left_app. rewrite fold_dec_shift. reflexivity. Qed.
Lemma dec_value_bound l : Forall is_digit l -> 0 <= dec_value l < 10 ^ len l.
Proof.
  induction 1 as [|c l C F IH]; [unfold dec_value, len; cbn; lia|].
  rewrite dec_value_cons. unfold is_digit in C. unfold len in *. cbn [length]. rewrite Nat2Z.inj_succ, Z.pow_succ_r by lia. nia.
Qed.
Lemma dec_value_zeros n l : dec_value (repeat 48 n ++ l) = dec_value l.
Proof. induction n as [|n IH]; [reflexivity|]. cbn [repeat app]. rewrite dec_value_cons, IH. lia. Qed.
Lemma digits_unique k : forall n l l', digits k n l -> digits k n l' -> l = l'.
Proof.
  induction k as [|k IH]; intros n l l' (L & F & V) (L' & F' & V').
  - destruct l; [|discriminate L]. destruct l'; [reflexivity|discriminate L'].
  - destruct l as [|c l]; [discriminate L|]. destruct l' as [|c' l']; [discriminate L'|].
    injection L as L. injection L' as L'. apply List.Forall_cons_iff in F, F'. destruct F as [C F], F' as [C' F'].
    rewrite dec_value_cons in V, V'. pose proof (dec_value_bound l F) as B. pose proof (dec_value_bound l' F') as B'.
    unfold len in *. rewrite L in *. rewrite L' in *. unfold is_digit in C, C'.
    assert (E : c = c'). { set (p := 10 ^ Z.of_nat k) in *. clearbody p. nia. }
    subst c'. f_equal. apply (IH (dec_value l)); split; auto; split; auto. lia.
Qed.
Lemma digits_bound k n l : digits k n l -> 0 <= n < 10 ^ Z.of_nat k.
Proof. intros (L & F & V). pose proof (dec_value_bound l F) as B. unfold len in B. rewrite L in B. lia. Qed.
Lemma decimal_length x l k : is_decimal_of x l -> (1 <= k)%nat -> x < 10 ^ Z.of_nat k -> (length l <= k)%nat.
Proof.
  intros (F & V & N & H) K B. destruct H as [H|H]; [lia|].
  destruct l as [|c l]; [contradiction|]. cbn [hd] in H. apply List.Forall_cons_iff in F. destruct F as [C F].
  rewrite dec_value_cons in V. pose proof (dec_value_bound l F) as B'. unfold is_digit in C. unfold len in *. cbn [length].
  destruct (Nat.le_gt_cases (S (length l)) k) as [Q|Q]; [exact Q|exfalso].
  assert (10 ^ Z.of_nat k <= 10 ^ Z.of_nat (length l)) by (apply Z.pow_le_mono_r; lia). nia.
Qed.
Lemma appendInt_digits k x : (1 <= k <= 18)%nat -> 0 <= x < 10 ^ Z.of_nat k -> digits k x (appendInt x k).
Proof.
  intros K B. assert (U : is_u64 x).
  { unfold is_u64. assert (10 ^ Z.of_nat k <= 10 ^ 18) by (apply Z.pow_le_mono_r; lia). lia. }
  pose proof (FormatUint_decimal x U) as D. pose proof (decimal_length x _ k D ltac:(lia) ltac:(lia)) as L.
  destruct D as (F & V & _ & _). unfold appendInt. replace (x <? 0) with false by lia. rewrite Z.abs_eq by lia. cbn [app].
  split; [|split].
  - rewrite app_length, repeat_length. lia.
  - apply Forall_app. split; [|exact F]. apply Forall_forall. intros c C. apply repeat_spec in C. unfold is_digit. lia.
  - rewrite dec_value_zeros. exact V.
Qed.

(** ** Fractions *)
Lemma trim_zeros_spec l : exists k, l = trim_zeros l ++ repeat 48 k.
Proof.
  induction l as [|c l [k IH]]; [exists 0%nat; reflexivity|]. cbn [trim_zeros]. destruct (trim_zeros l) as [|e r].
  - destruct (Z.eqb_spec c 48) as [->|N].
    + exists (S k). cbn [repeat app] in *. f_equal. exact IH.
    + exists k. cbn [app] in *. f_equal. exact IH.
  - exists k. cbn [app] in *. f_equal. exact IH.
Qed.
Lemma trim_zeros_last l : trim_zeros l <> [] -> last (trim_zeros l) 0 <> 48.
Proof.
  induction l as [|c l IH]; [intros H; contradiction|]. cbn [trim_zeros]. destruct (trim_zeros l) as [|e r] eqn:T.
  - destruct (Z.eqb_spec c 48) as [->|N]; [intros H; contradiction|]. intros _. cbn. exact N.
  - intros _. change (last (c :: e :: r) 0) with (last (e :: r) 0). apply IH. discriminate.
Qed.
Lemma dec_value_repeat k : dec_value (repeat 48 k) = 0.
Proof. rewrite <- (app_nil_r (repeat 48 k)), dec_value_zeros. reflexivity. Qed.
Lemma len_repeat k : len (repeat 48 k) = Z.of_nat k.
Proof. unfold len. rewrite repeat_length. reflexivity. Qed.
Lemma appendNano_short ns k : 0 <= ns < 10 ^ 9 -> (k <= 9)%nat ->
  short_fraction k (ns - ns mod 10 ^ (9 - Z.of_nat k)) (appendNano ns k).
Proof.
  intros B K. destruct (appendInt_digits 9 ns ltac:(lia) B) as (L & F & V).
  set (l := appendInt ns 9) in *. pose proof (firstn_skipn k l) as SP.
  assert (LF : length (firstn k l) = k) by (rewrite firstn_length; lia).
  assert (LS : length (skipn k l) = (9 - k)%nat) by (rewrite skipn_length; lia).
  assert (FF : Forall is_digit (firstn k l) /\ Forall is_digit (skipn k l)) by (apply Forall_app; rewrite SP; exact F).
  destruct FF as [FF FS]. rewrite <- SP, dec_value_app in V. pose proof (dec_value_bound _ FS) as BS.
  unfold appendNano. fold l. destruct (trim_zeros_spec (firstn k l)) as [j T]. pose proof (trim_zeros_last (firstn k l)) as TL.
  unfold len in V, BS. rewrite LS in V, BS. replace (Z.of_nat (9 - k)) with (9 - Z.of_nat k) in * by lia.
  assert (Q : ns - ns mod 10 ^ (9 - Z.of_nat k) = dec_value (firstn k l) * 10 ^ (9 - Z.of_nat k)).
  { set (p := 10 ^ (9 - Z.of_nat k)) in *. assert (0 < p) by (apply Z.pow_pos_nonneg; lia).
    replace (ns mod p) with (dec_value (skipn k l)); [lia|]. apply (Z.mod_unique_pos _ _ (dec_value (firstn k l))); lia. }
  rewrite Q. set (m := firstn k l) in *. destruct (trim_zeros m) as [|c r] eqn:E.
  - left. split; [reflexivity|]. cbn [app] in T. rewrite T, dec_value_repeat. lia.
  - right. exists (c :: r). assert (LT : (length m = length (c :: r) + j)%nat) by (rewrite T at 1; rewrite app_length, repeat_length; lia).
    split; [reflexivity|]. split; [discriminate|]. split; [lia|].
    split; [rewrite T in FF; apply Forall_app in FF; apply FF|]. split; [apply TL; discriminate|].
    rewrite T, dec_value_app, dec_value_repeat, len_repeat. unfold len. set (v := dec_value (c :: r)). set (z := length (c :: r)) in *.
    replace (10 ^ 9) with (10 ^ Z.of_nat j * 10 ^ (9 - Z.of_nat k) * 10 ^ Z.of_nat z); [ring|].
    rewrite <- !Z.pow_add_r by lia. f_equal. lia.
Qed.
Lemma short_fraction_text k ns l : short_fraction k ns l -> fraction_text ns l.
Proof.
  intros [H|(ds & -> & N & L & F & Z & E)]; [left; exact H|right]. exists ds. repeat (split; [assumption || reflexivity|]).
  rewrite <- E. symmetry. apply Z.div_mul. pose proof (Z.pow_pos_nonneg 10 (len ds)). unfold len in *. lia.
Qed.
Lemma fraction_unique ns ns' l : fraction_text ns l -> fraction_text ns' l -> ns = ns'.
Proof.
  intros [[-> ->]|(ds & -> & N & F & E)] [[H ->]|(ds' & H & N' & F' & E')]; [reflexivity|discriminate H|discriminate H|].
  injection H as <-. lia.
Qed.

(** ** The moment of an instant *)
Definition moment_of (t : Z) : moment :=
  Moment (date_of_days (day_number t)) (Hour t) (Minute t) (Second t) (Nanosecond t).
Lemma moment_of_valid t : valid_moment (moment_of t).
Proof.
  unfold valid_moment, moment_of, Hour, Minute, Second, Nanosecond, ns_of_day, ns_per_day, ns_per_second. cbn [m_date m_hour m_minute m_second m_ns].
  split; [apply date_valid|]. lia.
Qed.
Lemma moment_of_instant t off : instant_of (moment_of (t + off * ns_per_second)) off t.
Proof.
  exists (day_number (t + off * ns_per_second)). split; [apply on_day_date|].
  cbn [m_hour m_minute m_second m_ns moment_of]. set (u := t + off * ns_per_second). assert (U : t = u - off * ns_per_second) by (unfold u; lia). clearbody u. subst t.
  unfold day_number, Hour, Minute, Second, Nanosecond, ns_of_day, ns_per_day, ns_per_second. lia.
Qed.
Lemma instant_unique x off t t' : instant_of x off t -> instant_of x off t' -> t = t'.
Proof.
  intros (n & D & E) (n' & D' & E'). apply on_day_iff in D, D'. rewrite <- D' in D. apply date_of_days_inj in D. subst. reflexivity.
Qed.

(** ** Formatting *)
Definition year_ok (t : Z) : Prop := 0 <= Year t < 10000.
Lemma format_date_text t : year_ok t ->
  date_text (m_date (moment_of t)) (appendInt (Year t) 4 ++ [45] ++ appendInt (Month t) 2 ++ [45] ++ appendInt (Day t) 2).
Proof.
  intros Y. unfold year_ok, Year, Month, Day in *. cbn [m_date moment_of]. pose proof (date_valid (day_number t)) as V.
  destruct (date_of_days (day_number t)) as [[y m] d]. destruct V as [M D]. pose proof (month_days_pos y m).
  exists (appendInt y 4), (appendInt m 2), (appendInt d 2). repeat (split; [apply appendInt_digits; lia|]). reflexivity.
Qed.
Lemma format_clock_text t : clock_text (Hour t) (Minute t) (Second t) (appendInt (Hour t) 2 ++ [58] ++ appendInt (Minute t) 2 ++ [58] ++ appendInt (Second t) 2).
Proof.
  destruct (moment_of_valid t) as (_ & H & M & S & _). cbn [m_hour m_minute m_second moment_of] in *.
  exists (appendInt (Hour t) 2), (appendInt (Minute t) 2), (appendInt (Second t) 2). repeat (split; [apply appendInt_digits; lia|]). reflexivity.
Qed.
Lemma format_zone_text off : off mod 60 = 0 -> -86400 < off < 86400 -> zone_text off (appendZone off).
Proof.
  intros M B. assert (E : off = Z.quot off 60 * 60).
  { pose proof (Z.quot_rem' off 60). assert (Z.rem off 60 = 0); [|lia]. apply Z.rem_divide; [lia|]. apply Z.mod_divide; [lia|exact M]. }
  unfold appendZone. set (z := Z.quot off 60) in *. clearbody z. set (h := Z.abs z / 60). set (m := Z.abs z mod 60).
  assert (R : Z.abs z = h * 60 + m /\ 0 <= h < 24 /\ 0 <= m < 60) by (unfold h, m; lia). destruct R as (R & H & Mm). clearbody h m.
  exists (if z <? 0 then 45 else 43), h, m, (appendInt h 2), (appendInt m 2).
  split; [exact H|]. split; [exact Mm|]. split; [apply appendInt_digits; lia|]. split; [apply appendInt_digits; lia|].
  split; [reflexivity|]. destruct (Z.ltb_spec z 0); [right|left]; split; lia.
Qed.

(** ** Ticks *)
Lemma ToTime_exact t : is_u64 t -> ToTime t = i64 ((t mod 2 ^ 62 - epoch_ticks) * 100).
Proof.
  intros U. unfold ToTime. assert (M : forall x, 0 <= x -> Z.land x ValueMask = x mod 2 ^ 62).
  { intros x X. change ValueMask with (Z.ones 62). rewrite Z.land_ones by lia. reflexivity. }
  rewrite M by (unfold u64; apply Z.mod_pos_bound; lia).
  change UnixBaseOffset with epoch_ticks. unfold u64. 
  replace ((t - epoch_ticks) mod 2 ^ 64 mod 2 ^ 62) with ((t - epoch_ticks) mod 2 ^ 62) by lia.
  assert (E : i64 ((t - epoch_ticks) mod 2 ^ 62) = (t - epoch_ticks) mod 2 ^ 62) by (unfold i64; lia). rewrite E.
  unfold i64. f_equal.
  assert (D : exists k, (t - epoch_ticks) mod 2 ^ 62 = t mod 2 ^ 62 - epoch_ticks + k * 2 ^ 62).
  { exists (t / 2 ^ 62 - (t - epoch_ticks) / 2 ^ 62). lia. }
  destruct D as [k ->]. replace ((t mod 2 ^ 62 - epoch_ticks + k * 2 ^ 62) * 100 + 2 ^ 63) with ((t mod 2 ^ 62 - epoch_ticks) * 100 + 2 ^ 63 + (k * 25) * 2 ^ 64) by lia.
  apply Z_mod_plus_full.
Qed.
Lemma i64_years ns : is_i64 ns -> 1677 <= Year ns <= 2262.
Proof.
  intros B. unfold is_i64 in B. unfold Year. assert (D : -106752 <= day_number ns <= 106751) by (unfold day_number, ns_per_day, ns_per_second; lia).
  set (n := day_number ns) in *. clearbody n. pose proof (date_valid n) as V. destruct (date_of_days n) as [[y m] d] eqn:E.
  pose proof (days_of_date_of n y m d E) as Q. destruct V as [M DD]. pose proof (month_days_pos y m).
  unfold days_of_date in Q. assert (MM : 0 <= (m + 9) mod 12 <= 11) by lia. set (w := (m + 9) mod 12) in *.
  assert (W : (m <=? 2) = true /\ 10 <= w \/ (m <=? 2) = false /\ w <= 9) by (unfold w; lia). clearbody w.
  destruct W as [[W0 W]|[W0 W]]; rewrite W0 in Q; lia.
Qed.
Lemma is_i64_i64 x : is_i64 (i64 x).
Proof. unfold is_i64, i64. lia. Qed.
Lemma Format_shows ns : year_ok ns -> shows (Format TimeFormat (ns, 0)) ns.
Proof.
  intros Y. exists (moment_of ns), (appendInt (Year ns) 4 ++ [45] ++ appendInt (Month ns) 2 ++ [45] ++ appendInt (Day ns) 2),
    (appendInt (Hour ns) 2 ++ [58] ++ appendInt (Minute ns) 2 ++ [58] ++ appendInt (Second ns) 2), (appendNano (Nanosecond ns) 9).
  split; [apply moment_of_valid|]. split.
  { pose proof (moment_of_instant ns 0) as I. replace (ns + 0 * ns_per_second) with ns in I by lia. exact I. }
  split; [apply format_date_text, Y|]. split; [apply format_clock_text|]. split.
  { pose proof (moment_of_valid ns) as (_ & _ & _ & _ & N). cbn [m_ns moment_of] in *.
    pose proof (appendNano_short (Nanosecond ns) 9 N ltac:(lia)) as S. change (10 ^ (9 - Z.of_nat 9)) with 1 in S. rewrite Z.mod_1_r, Z.sub_0_r in S. exact S. }
  unfold Format, TimeFormat. cbn [flat_map format_chunk fst snd]. replace (ns + 0 * ns_per_second) with ns by lia.
  rewrite app_nil_r. rewrite <- !app_assoc. reflexivity.
Qed.
Lemma Format_shows_tod ns : shows_time_of_day (Format ShortTimeFormat (ns, 0)) ns.
Proof.
  exists (moment_of ns), (appendInt (Hour ns) 2 ++ [58] ++ appendInt (Minute ns) 2 ++ [58] ++ appendInt (Second ns) 2), (appendNano (Nanosecond ns) 3).
  split; [apply moment_of_valid|]. split.
  { pose proof (moment_of_instant ns 0) as I. replace (ns + 0 * ns_per_second) with ns in I by lia. exact I. }
  split; [apply format_clock_text|]. split.
  { pose proof (moment_of_valid ns) as (_ & _ & _ & _ & N). cbn [m_ns moment_of] in *. exact (appendNano_short (Nanosecond ns) 3 N ltac:(lia)). }
  unfold Format, ShortTimeFormat. cbn [flat_map format_chunk fst snd]. replace (ns + 0 * ns_per_second) with ns by lia.
  rewrite app_nil_r. rewrite <- !app_assoc. reflexivity.
Qed.

(** ** Reading a text determines the instant *)
Lemma app_eq_len {A} (a a' b b' : list A) : length a = length a' -> a ++ b = a' ++ b' -> a = a' /\ b = b'.
Proof.
  revert a'. induction a as [|x a IH]; intros [|x' a'] L E; try discriminate L; [split; [reflexivity|exact E]|].
  injection L as L. cbn in E. injection E as -> E. destruct (IH a' L E) as [-> ->]. split; reflexivity.
Qed.
Lemma date_text_len x l : date_text x l -> length l = 10%nat.
Proof. destruct x as [[y m] d]. intros (a & b & c & (A & _) & (B & _) & (C & _) & ->). rewrite !app_length. cbn [length]. lia. Qed.
Lemma clock_text_len h m s l : clock_text h m s l -> length l = 8%nat.
Proof. intros (a & b & c & (A & _) & (B & _) & (C & _) & ->). rewrite !app_length. cbn [length]. lia. Qed.
Lemma three_digits k sep y m d y' m' d' a b c a' b' c' :
  digits k y a -> digits 2 m b -> digits 2 d c -> digits k y' a' -> digits 2 m' b' -> digits 2 d' c' ->
  a ++ [sep] ++ b ++ [sep] ++ c = a' ++ [sep] ++ b' ++ [sep] ++ c' -> y = y' /\ m = m' /\ d = d'.
Proof.
  intros (A & _ & VA) (B & _ & VB) (C & _ & VC) (A' & _ & VA') (B' & _ & VB') (C' & _ & VC') E.
  apply app_eq_len in E; [|lia]. destruct E as [-> E]. cbn [app] in E. injection E as E.
  apply app_eq_len in E; [|lia]. destruct E as [-> E]. injection E as ->. lia.
Qed.
Lemma date_text_unique x x' l : date_text x l -> date_text x' l -> x = x'.
Proof.
  destruct x as [[y m] d], x' as [[y' m'] d']. intros (a & b & c & A & B & C & E) (a' & b' & c' & A' & B' & C' & E').
  rewrite E in E'. destruct (three_digits 4 45 y m d y' m' d' a b c a' b' c' A B C A' B' C' E') as (-> & -> & ->). reflexivity.
Qed.
Lemma clock_text_unique h m s h' m' s' l : clock_text h m s l -> clock_text h' m' s' l -> h = h' /\ m = m' /\ s = s'.
Proof.
  intros (a & b & c & A & B & C & E) (a' & b' & c' & A' & B' & C' & E').
  rewrite E in E'. exact (three_digits 2 58 h m s h' m' s' a b c a' b' c' A B C A' B' C' E').
Qed.
Lemma shows_unique l t t' : shows l t -> shows l t' -> t = t'.
Proof.
  intros (x & dt & ct & ft & V & I & D & C & F & E) (x' & dt' & ct' & ft' & V' & I' & D' & C' & F' & E').
  rewrite E in E'. pose proof (date_text_len _ _ D). pose proof (date_text_len _ _ D').
  apply app_eq_len in E'; [|lia]. destruct E' as [<- E']. cbn [app] in E'. injection E' as E'.
  pose proof (clock_text_len _ _ _ _ C). pose proof (clock_text_len _ _ _ _ C').
  apply app_eq_len in E'; [|lia]. destruct E' as [<- <-].
  pose proof (date_text_unique _ _ _ D D') as XD. destruct (clock_text_unique _ _ _ _ _ _ _ C C') as (XH & XM & XS).
  pose proof (fraction_unique _ _ _ (short_fraction_text _ _ _ F) (short_fraction_text _ _ _ F')) as XN.
  assert (X : x = x'). { destruct x as [xd xh xm xs xn], x' as [xd' xh' xm' xs' xn']. cbn [m_date m_hour m_minute m_second m_ns] in *. subst. reflexivity. }
  subst x'. exact (instant_unique _ _ _ _ I I').
Qed.
Lemma Ticks_String_shows t : is_u64 t -> shows (Ticks_String t) (i64 ((t mod 2 ^ 62 - epoch_ticks) * 100)).
Proof.
  intros U. unfold Ticks_String. rewrite (ToTime_exact t U). apply Format_shows. unfold year_ok.
  pose proof (i64_years _ (is_i64_i64 ((t mod 2 ^ 62 - epoch_ticks) * 100))). lia.
Qed.
Lemma Ticks_String_exact t : is_u64 t ->
  (shows (Ticks_String t) ((t mod 2 ^ 62 - epoch_ticks) * 100) <-> is_i64 ((t mod 2 ^ 62 - epoch_ticks) * 100)).
Proof.
  intros U. pose proof (Ticks_String_shows t U) as S. split; intros H.
  - rewrite <- (shows_unique _ _ _ S H). apply is_i64_i64.
  - replace ((t mod 2 ^ 62 - epoch_ticks) * 100) with (i64 ((t mod 2 ^ 62 - epoch_ticks) * 100)); [exact S|]. unfold i64, is_i64 in *. lia.
Qed.
Lemma Ticks_ShortTime_shows t : is_u64 t -> is_i64 ((t mod 2 ^ 62 - epoch_ticks) * 100) ->
  shows_time_of_day (Ticks_ShortTime t) ((t mod 2 ^ 62 - epoch_ticks) * 100).
Proof.
  intros U H. unfold Ticks_ShortTime. rewrite (ToTime_exact t U).
  replace (i64 ((t mod 2 ^ 62 - epoch_ticks) * 100)) with ((t mod 2 ^ 62 - epoch_ticks) * 100) by (unfold i64, is_i64 in *; lia). apply Format_shows_tod.
Qed.
Lemma Ticks_String_distinct t t' : is_u64 t -> is_u64 t' -> is_i64 ((t mod 2 ^ 62 - epoch_ticks) * 100) -> is_i64 ((t' mod 2 ^ 62 - epoch_ticks) * 100) ->
  (Ticks_String t = Ticks_String t' <-> t mod 2 ^ 62 = t' mod 2 ^ 62).
Proof.
  intros U U' B B'. split; intros E.
  - apply Ticks_String_exact in B; [|exact U]. apply Ticks_String_exact in B'; [|exact U']. rewrite E in B.
    pose proof (shows_unique _ _ _ B B'). lia.
  - unfold Ticks_String. rewrite !ToTime_exact by assumption. rewrite E. reflexivity.
Qed.

(** ** Parsing *)
Lemma isDigit_true c : is_digit c -> isDigit c = true.
Proof. unfold is_digit, isDigit. lia. Qed.
Lemma digits2 n l : digits 2 n l -> exists a b, l = [a; b] /\ is_digit a /\ is_digit b /\ n = (a - 48) * 10 + (b - 48).
Proof.
  intros (L & F & V). destruct l as [|a [|b [|c l]]]; try discriminate L. exists a, b. split; [reflexivity|].
  apply List.Forall_cons_iff in F. destruct F as [A F]. apply List.Forall_cons_iff in F. destruct F as [B _].
  split; [exact A|]. split; [exact B|]. unfold dec_value in V. cbn [fold_left] in V. lia.
Qed.
Lemma getnum_digits n l r fixed : digits 2 n l -> getnum (l ++ r) fixed = Some (n, r).
Proof.
  intros D. destruct (digits2 n l D) as (a & b & -> & A & B & ->). cbn [app getnum]. rewrite (isDigit_true a A), (isDigit_true b B). reflexivity.
Qed.
Lemma digits_value_dec l : digits_value l = dec_value l.
Proof.
  unfold digits_value, dec_value. generalize 0 as a. induction l as [|c l IH]; intros a; [reflexivity|]. cbn [fold_left]. rewrite IH. f_equal. lia.
Qed.
Lemma parse_year y l r f : digits 4 y l -> parse_chunk CYear f (l ++ r) = Some (Fields y (f_month f) (f_day f) (f_hour f) (f_min f) (f_sec f) (f_nsec f) (f_zone f), r).
Proof.
  intros (L & F & V). destruct l as [|a [|b [|c [|e [|g l]]]]]; try discriminate L. destruct f as [f1 f2 f3 f4 f5 f6 f7 f8]. cbn [parse_chunk app f_month f_day f_hour f_min f_sec f_nsec f_zone].
  assert (Q : forallb isDigit [a; b; c; e] = true).
  { apply forallb_forall. intros x X. apply isDigit_true. rewrite List.Forall_forall in F. apply F, X. }
  rewrite Q, digits_value_dec, V. reflexivity.
Qed.
Lemma span_digits_app ds r : Forall is_digit ds -> match r with c :: _ => ~ is_digit c | [] => True end -> span_digits (ds ++ r) = (ds, r).
Proof.
  induction 1 as [|c ds C F IH]; intros R.
  - cbn [app]. destruct r as [|c r]; [reflexivity|]. cbn [span_digits]. replace (isDigit c) with false by (unfold is_digit, isDigit in *; lia). reflexivity.
  - cbn [app span_digits]. rewrite (isDigit_true c C), (IH R). reflexivity.
Qed.
Lemma parseNanoseconds_value ds : Forall is_digit ds -> parseNanoseconds ds = dec_value ds * 10 ^ 9 / 10 ^ len ds.
Proof.
  intros F. unfold parseNanoseconds. rewrite digits_value_dec. destruct (Nat.le_gt_cases (length ds) 9) as [L|L].
  - rewrite firstn_all2 by exact L. replace (10 ^ 9) with (10 ^ (9 - len ds) * 10 ^ len ds) by (rewrite <- Z.pow_add_r by (unfold len; lia); f_equal; lia).
    rewrite Z.mul_assoc. symmetry. apply Z.div_mul. pose proof (Z.pow_pos_nonneg 10 (len ds)). unfold len in *. lia.
  - pose proof (firstn_skipn 9 ds) as SP. set (a := firstn 9 ds) in *. set (b := skipn 9 ds) in *.
    assert (LA : len a = 9) by (unfold a, len; rewrite firstn_length; lia).
    assert (FB : Forall is_digit b) by (rewrite <- SP in F; apply Forall_app in F; apply F).
    pose proof (dec_value_bound b FB) as BB. rewrite LA. change (10 ^ (9 - 9)) with 1. rewrite Z.mul_1_r.
    rewrite <- SP at 1. rewrite dec_value_app. replace (len ds) with (len b + 9) by (rewrite <- SP; unfold len in *; rewrite app_length; lia).
    rewrite Z.pow_add_r by (unfold len; lia). set (p := 10 ^ len b) in *. set (v := dec_value a). set (w := dec_value b) in *. clearbody p v w.
    rewrite (Z.mul_comm p), (Z.mul_comm _ (10 ^ 9)), Z.div_mul_cancel_l by lia. apply (Z.div_unique_pos _ _ _ w); lia.
Qed.
Lemma parse_frac ns l r f k : fraction_text ns l -> f_nsec f = 0 -> match r with c :: _ => ~ is_digit c /\ c <> 46 /\ c <> 44 | [] => True end ->
  parse_chunk (CFrac k) f (l ++ r) = Some (Fields (f_year f) (f_month f) (f_day f) (f_hour f) (f_min f) (f_sec f) ns (f_zone f), r).
Proof.
  intros T N R. destruct f as [y mo d h mi se n z]. cbn [f_year f_month f_day f_hour f_min f_sec f_nsec f_zone] in *. subst n.
  destruct T as [[-> ->]|(ds & -> & NE & F & ->)].
  - cbn [app parse_chunk]. destruct r as [|c r]; [reflexivity|]. destruct R as (R1 & R2 & R3). replace ((c =? 46) || (c =? 44)) with false by lia. reflexivity.
  - cbn [app parse_chunk]. change ((46 =? 46) || (46 =? 44)) with true. cbv iota.
    rewrite (span_digits_app ds r F) by (destruct r as [|c r]; [exact I|apply R]).
    destruct ds as [|c ds]; [contradiction|]. rewrite (parseNanoseconds_value _ F). reflexivity.
Qed.
Lemma month_days_daysIn y m : daysIn m y = month_days y m.
Proof.
  unfold daysIn, month_days, leap. cbn [existsb]. destruct (m =? 2); [reflexivity|]. rewrite orb_false_r.
  destruct (m =? 4), (m =? 6), (m =? 9), (m =? 11); reflexivity.
Qed.

(** Everything up to the zone. *)
Lemma parse_local x l r : local_text x l -> match r with c :: _ => ~ is_digit c /\ c <> 46 /\ c <> 44 | [] => True end ->
  let '(y, m, d) := m_date x in
  parse_chunks DateTimeFormat (Fields 0 1 1 0 0 0 0 0) (l ++ r) =
  match parse_chunk CZone (Fields y m d (m_hour x) (m_minute x) (m_second x) (m_ns x) 0) r with Some (f', s') => Some (f', s') | None => None end.
Proof.
  destruct x as [[[y m] d] h mi s ns]. cbn [m_date m_hour m_minute m_second m_ns].
  intros (((M & D) & H & Mi & S & N) & dt & ct & ft & (a & b & c & A & B & C & ->) & (a' & b' & c' & A' & B' & C' & ->) & F & ->) R.
  cbn [m_hour m_minute m_second m_ns] in *. unfold DateTimeFormat. rewrite <- !app_assoc. cbn [app]. cbn [parse_chunks].
  rewrite (parse_year y a _ _ A). cbn [f_year f_month f_day f_hour f_min f_sec f_nsec f_zone].
  assert (K : forall b f r, parse_chunk (CByte b) f (b :: r) = Some (f, r)) by (intros b0 [] r0; cbn [parse_chunk]; rewrite Z.eqb_refl; reflexivity).
  rewrite K. cbn [parse_chunk]. rewrite (getnum_digits m b _ true B). replace ((m <=? 0) || (12 <? m)) with false by lia.
  rewrite K. cbn [parse_chunk]. rewrite (getnum_digits d c _ true C).
  rewrite K. cbn [parse_chunk]. rewrite (getnum_digits h a' _ false A'). replace (24 <=? h) with false by lia.
  rewrite K. cbn [parse_chunk]. rewrite (getnum_digits mi b' _ true B'). replace (60 <=? mi) with false by lia.
  rewrite K. cbn [parse_chunk]. rewrite (getnum_digits s c' _ true C'). replace (60 <=? s) with false by lia.
  pose proof (parse_frac ns ft r (Fields y m d h mi s 0 0) 2 F eq_refl R) as Q. cbn [f_year f_month f_day f_hour f_min f_sec f_nsec f_zone] in Q. rewrite Q. reflexivity.
Qed.
Lemma parse_zone off l f : zone_text off l -> parse_chunk CZone f l = Some (Fields (f_year f) (f_month f) (f_day f) (f_hour f) (f_min f) (f_sec f) (f_nsec f) off, []).
Proof.
  intros (g & h & m & a & b & H & M & A & B & -> & G).
  pose proof (getnum_digits h a [] true A) as GA. pose proof (getnum_digits m b [] true B) as GB. rewrite app_nil_r in GA, GB.
  destruct (digits2 _ _ A) as (a1 & a2 & -> & _). destruct (digits2 _ _ B) as (b1 & b2 & -> & _).
  destruct f as [f1 f2 f3 f4 f5 f6 f7 f8]. cbn [parse_chunk app f_year f_month f_day f_hour f_min f_sec f_nsec f_zone]. change (58 =? 58) with true. cbn [negb]. rewrite GA, GB.
  replace ((24 <? h) || (60 <? m)) with false by lia. destruct G as [[-> ->]|[-> ->]].
  - change (43 =? 43) with true. cbv iota. do 3 f_equal. lia.
  - change (45 =? 43) with false. change (45 =? 45) with true. cbv iota. do 3 f_equal. lia.
Qed.
Lemma zone_head off l : zone_text off l -> match l with c :: _ => ~ is_digit c /\ c <> 46 /\ c <> 44 | [] => True end.
Proof. intros (g & h & m & a & b & _ & _ & _ & _ & -> & G). unfold is_digit. lia. Qed.
Lemma Parse_text x off l z t : local_text x l -> zone_text off z -> instant_of x off t -> Parse DateTimeFormat (l ++ z) = Some (t, off).
Proof.
  intros L Z (n & D & ->). pose proof (parse_local x l z L (zone_head off z Z)) as P. destruct L as (V & _).
  destruct x as [[[y m] d] h mi s ns]. cbn [m_date m_hour m_minute m_second m_ns] in *. unfold Parse. rewrite P, (parse_zone off z _ Z).
  cbn [f_year f_month f_day f_hour f_min f_sec f_nsec f_zone]. rewrite month_days_daysIn. destruct V as ((M & DD) & _). cbn [m_date] in *.
  replace ((d <? 1) || (month_days y m <? d)) with false by lia. apply on_day_iff in D. rewrite (days_of_date_of _ _ _ _ D). reflexivity.
Qed.
Lemma Parse_no_zone x l z : local_text x l -> z = [] \/ z = [90] -> Parse DateTimeFormat (l ++ z) = None.
Proof.
  intros L Z. pose proof (parse_local x l z L) as P. destruct x as [[[y m] d] h mi s ns]. cbn [m_date m_hour m_minute m_second m_ns] in *.
  unfold Parse. destruct Z as [-> | ->].
  - rewrite (P Logic.I). reflexivity.
  - rewrite P by (unfold is_digit; lia). reflexivity.
Qed.
Lemma DateTime_String_text t off : year_ok (t + off * ns_per_second) ->
  off mod 60 = 0 -> -86400 < off < 86400 ->
  exists x l z, DateTime_String (t, off) = l ++ z /\ local_text x l /\ zone_text off z /\ instant_of x off (t - t mod 10 ^ 7).
Proof.
  intros Y M B. set (u := t + off * ns_per_second) in *.
  pose proof (moment_of_valid u) as V. pose proof (moment_of_instant t off) as I. fold u in I.
  destruct V as (V1 & V2 & V3 & V4 & V5).
  exists (Moment (m_date (moment_of u)) (Hour u) (Minute u) (Second u) (Nanosecond u - Nanosecond u mod 10 ^ 7)),
    ((appendInt (Year u) 4 ++ [45] ++ appendInt (Month u) 2 ++ [45] ++ appendInt (Day u) 2) ++ [84] ++
     (appendInt (Hour u) 2 ++ [58] ++ appendInt (Minute u) 2 ++ [58] ++ appendInt (Second u) 2) ++ appendNano (Nanosecond u) 2), (appendZone off).
  cbn [m_ns m_hour m_minute m_second moment_of] in *.
  split; [|split; [split|split]].
  - unfold DateTime_String, Format, DateTimeFormat. cbn [flat_map format_chunk fst snd]. fold u. rewrite app_nil_r. rewrite <- !app_assoc. reflexivity.
  - split; [exact V1|]. cbn [m_hour m_minute m_second m_ns]. change (10 ^ 9) with 1000000000 in *. change (10 ^ 7) with 10000000. lia.
  - cbn [m_date m_hour m_minute m_second m_ns].
    exists (appendInt (Year u) 4 ++ [45] ++ appendInt (Month u) 2 ++ [45] ++ appendInt (Day u) 2),
      (appendInt (Hour u) 2 ++ [58] ++ appendInt (Minute u) 2 ++ [58] ++ appendInt (Second u) 2), (appendNano (Nanosecond u) 2).
    split; [apply format_date_text, Y|]. split; [apply format_clock_text|]. split; [|reflexivity].
    apply (short_fraction_text 2). exact (appendNano_short (Nanosecond u) 2 V5 ltac:(lia)).
  - apply format_zone_text; assumption.
  - destruct I as (n & D & E). exists n. cbn [m_date m_hour m_minute m_second m_ns moment_of] in *. split; [exact D|].
    rewrite E. set (N := Nanosecond u) in *. clearbody N. change (10 ^ 9) with 1000000000 in *. change (10 ^ 7) with 10000000. lia.
Qed.
Lemma DateTime_round_trip t off : year_ok (t + off * ns_per_second) -> off mod 60 = 0 -> -86400 < off < 86400 ->
  Parse DateTimeFormat (DateTime_String (t, off)) = Some (t - t mod 10 ^ 7, off).
Proof.
  intros Y M B. destruct (DateTime_String_text t off Y M B) as (x & l & z & -> & L & Z & I). exact (Parse_text x off l z _ L Z I).
Qed.

(** ** Exactly the texts that are read *)
Lemma isDigit_is c : isDigit c = true -> is_digit c.
Proof. unfold is_digit, isDigit. lia. Qed.
Lemma digits1_of a : is_digit a -> digits 1 (a - 48) [a].
Proof. intros A. split; [reflexivity|]. split; [constructor; [exact A|constructor]|]. unfold dec_value. cbn [fold_left]. lia. Qed.
Lemma digits2_of a b : is_digit a -> is_digit b -> digits 2 ((a - 48) * 10 + (b - 48)) [a; b].
Proof. intros A B. split; [reflexivity|]. split; [constructor; [exact A|constructor; [exact B|constructor]]|]. unfold dec_value. cbn [fold_left]. lia. Qed.
Lemma getnum_fixed_inv s n r : getnum s true = Some (n, r) -> exists l, digits 2 n l /\ s = l ++ r.
Proof.
  unfold getnum. destruct s as [|a [|b s]]; [intros H; discriminate H| |].
  - destruct (isDigit a); intros H; discriminate H.
  - destruct (isDigit a) eqn:A; [|intros H; discriminate H]. destruct (isDigit b) eqn:B; intros H; [|discriminate H].
    cbn [negb] in H. injection H as <- <-. exists [a; b]. split; [apply digits2_of; apply isDigit_is; assumption|reflexivity].
Qed.
Lemma getnum_inv s n r : getnum s false = Some (n, r) -> exists l, (digits 2 n l \/ digits 1 n l) /\ s = l ++ r.
Proof.
  unfold getnum. destruct s as [|a [|b s]]; [intros H; discriminate H| |].
  - destruct (isDigit a) eqn:A; intros H; [|discriminate H]. cbn [negb] in H. injection H as <- <-. exists [a].
    split; [right; apply digits1_of, isDigit_is, A|reflexivity].
  - destruct (isDigit a) eqn:A; [|intros H; discriminate H]. destruct (isDigit b) eqn:B; intros H; cbn [negb] in H; injection H as <- <-.
    + exists [a; b]. split; [left; apply digits2_of; apply isDigit_is; assumption|reflexivity].
    + exists [a]. split; [right; apply digits1_of, isDigit_is, A|reflexivity].
Qed.
Lemma getnum_one n l r : digits 1 n l -> getnum (l ++ 58 :: r) false = Some (n, 58 :: r).
Proof.
  intros (L & F & V). destruct l as [|a [|b l]]; try discriminate L. apply List.Forall_cons_iff in F. destruct F as [A _].
  cbn [app getnum]. rewrite (isDigit_true a A). unfold dec_value in V. cbn [fold_left] in V. change (isDigit 58) with false. cbn [negb]. do 2 f_equal. lia.
Qed.
Lemma span_digits_inv l : forall ds r, span_digits l = (ds, r) -> l = ds ++ r /\ Forall is_digit ds.
Proof.
  induction l as [|c l IH]; intros ds r H; cbn [span_digits] in H.
  - injection H as <- <-. split; [reflexivity|constructor].
  - destruct (isDigit c) eqn:C.
    + destruct (span_digits l) as [d s]. injection H as <- <-. destruct (IH d s eq_refl) as [-> F]. split; [reflexivity|]. constructor; [apply isDigit_is, C|exact F].
    + injection H as <- <-. split; [reflexivity|constructor].
Qed.
Lemma fraction_bound ns l : fraction_text ns l -> 0 <= ns < 10 ^ 9.
Proof.
  intros [[_ ->]|(ds & _ & _ & F & ->)]; [lia|]. pose proof (dec_value_bound ds F) as B. set (p := 10 ^ len ds) in *. set (v := dec_value ds) in *. clearbody p v.
  split; [apply Z.div_pos; lia|]. apply Z.div_lt_upper_bound; nia.
Qed.
Lemma parse_frac_inv k y mo d h mi se z s f' r : parse_chunk (CFrac k) (Fields y mo d h mi se 0 z) s = Some (f', r) ->
  exists ns ft, f' = Fields y mo d h mi se ns z /\ s = ft ++ r /\ (fraction_text ns ft \/ exists ds, fraction_text ns (46 :: ds) /\ ft = 44 :: ds).
Proof.
  cbn [parse_chunk]. assert (Z0 : forall s0, Some (Fields y mo d h mi se 0 z, s0) = Some (f', r) ->
    exists ns ft, f' = Fields y mo d h mi se ns z /\ s0 = ft ++ r /\ (fraction_text ns ft \/ exists ds, fraction_text ns (46 :: ds) /\ ft = 44 :: ds)).
  { intros s0 H. injection H as <- <-. exists 0, []. split; [reflexivity|]. split; [reflexivity|]. left. left. split; reflexivity. }
  destruct s as [|p s]; [apply Z0|]. destruct ((p =? 46) || (p =? 44)) eqn:P; [|apply Z0].
  destruct (span_digits s) as [ds r'] eqn:E. destruct ds as [|c ds]; [apply Z0|]. destruct (span_digits_inv _ _ _ E) as [-> F].
  intros H. injection H as <- <-. exists (parseNanoseconds (c :: ds)), (p :: c :: ds). split; [reflexivity|]. split; [reflexivity|].
  assert (T : fraction_text (parseNanoseconds (c :: ds)) (46 :: c :: ds)).
  { right. exists (c :: ds). split; [reflexivity|]. split; [discriminate|]. split; [exact F|]. apply parseNanoseconds_value, F. }
  apply orb_prop in P. destruct P as [P|P]; apply Z.eqb_eq in P; subst p; [left; exact T|right; exists (c :: ds); split; [exact T|reflexivity]].
Qed.
Lemma parse_byte_inv b f s f' r : parse_chunk (CByte b) f s = Some (f', r) -> f' = f /\ s = b :: r.
Proof.
  destruct f as [f1 f2 f3 f4 f5 f6 f7 f8]. cbn [parse_chunk]. destruct s as [|a s]; [intros H; discriminate H|].
  destruct (Z.eqb_spec a b) as [->|N]; intros H; [|discriminate H]. injection H as <- <-. split; reflexivity.
Qed.
Lemma parse_year_inv f1 f2 f3 f4 f5 f6 f7 f8 s f' r : parse_chunk CYear (Fields f1 f2 f3 f4 f5 f6 f7 f8) s = Some (f', r) ->
  exists y a, f' = Fields y f2 f3 f4 f5 f6 f7 f8 /\ digits 4 y a /\ s = a ++ r.
Proof.
  cbn [parse_chunk]. destruct s as [|a [|b [|c [|e s]]]]; try (intros H; discriminate H).
  destruct (forallb isDigit [a; b; c; e]) eqn:Q; [|intros H; discriminate H]. intros H. injection H as <- <-.
  exists (digits_value [a; b; c; e]), [a; b; c; e]. split; [reflexivity|]. split; [|reflexivity]. split; [reflexivity|].
  split; [|symmetry; apply digits_value_dec]. apply List.Forall_forall. intros x X. rewrite forallb_forall in Q. apply isDigit_is, Q, X.
Qed.
Lemma parse_zone_inv f1 f2 f3 f4 f5 f6 f7 f8 s f' r : parse_chunk CZone (Fields f1 f2 f3 f4 f5 f6 f7 f8) s = Some (f', r) ->
  exists off sign zh zm za zb, f' = Fields f1 f2 f3 f4 f5 f6 f7 off /\ digits 2 zh za /\ digits 2 zm zb /\ zh <= 24 /\ zm <= 60 /\
    ((sign = 43 /\ off = zh * 3600 + zm * 60) \/ (sign = 45 /\ off = - (zh * 3600 + zm * 60))) /\ s = [sign] ++ za ++ [58] ++ zb ++ r.
Proof.
  cbn [parse_chunk]. destruct s as [|g [|h1 [|h2 [|c [|m1 [|m2 s]]]]]]; try (intros H; discriminate H).
  destruct (Z.eqb_spec c 58) as [->|N]; [|intros H; discriminate H]. cbn [negb].
  destruct (getnum [h1; h2] true) as [[hr r1]|] eqn:G1; [|intros H; discriminate H].
  destruct (getnum [m1; m2] true) as [[mm r2]|] eqn:G2; [|intros H; discriminate H].
  destruct ((24 <? hr) || (60 <? mm)) eqn:Q; [intros H; discriminate H|]. intros H.
  destruct (getnum_fixed_inv _ _ _ G1) as (za & A & EA). destruct (getnum_fixed_inv _ _ _ G2) as (zb & B & EB).
  assert (za = [h1; h2]). { destruct (digits2 _ _ A) as (x1 & x2 & -> & _). cbn [app] in EA. congruence. }
  assert (zb = [m1; m2]). { destruct (digits2 _ _ B) as (x1 & x2 & -> & _). cbn [app] in EB. congruence. }
  subst za zb. destruct (Z.eqb_spec g 43) as [->|N1]; [|destruct (Z.eqb_spec g 45) as [->|N2]; [|discriminate H]]; injection H as <- <-.
  - exists ((hr * 60 + mm) * 60), 43, hr, mm, [h1; h2], [m1; m2]. split; [reflexivity|]. split; [exact A|]. split; [exact B|]. split; [lia|]. split; [lia|]. split; [left; lia|reflexivity].
  - exists (- ((hr * 60 + mm) * 60)), 45, hr, mm, [h1; h2], [m1; m2]. split; [reflexivity|]. split; [exact A|]. split; [exact B|]. split; [lia|]. split; [lia|]. split; [right; lia|reflexivity].
Qed.
Lemma Parse_inv l t off : Parse DateTimeFormat l = Some (t, off) -> accepted l t off.
Proof.
  unfold Parse. destruct (parse_chunks _ _ l) as [[[y mo d h mi se ns z] [|e r]]|] eqn:P; try (intros H; discriminate H).
  destruct ((d <? 1) || (daysIn mo y <? d)) eqn:DD; [intros H; discriminate H|]. intros H. rewrite month_days_daysIn in DD.
  unfold DateTimeFormat in P. cbn [parse_chunks] in P.
  Local Ltac step P f s E := match type of P with match ?X with Some _ => _ | None => None end = _ => destruct X as [[f s]|] eqn:E; [|discriminate P] end.
  Local Ltac byte P := let f := fresh "f" in let s := fresh "s" in let E := fresh "E" in step P f s E; apply parse_byte_inv in E; destruct E as [-> ->].
  step P f1 s1 E1. apply parse_year_inv in E1. destruct E1 as (y1 & a1 & -> & A1 & ->). byte P.
  step P f2 s2 E2. cbn [parse_chunk] in E2. destruct (getnum s true) as [[n2 r2]|] eqn:G2; [|discriminate E2].
  destruct ((n2 <=? 0) || (12 <? n2)) eqn:Q2; [discriminate E2|]. injection E2 as <- <-. apply getnum_fixed_inv in G2. destruct G2 as (a2 & A2 & ->). byte P.
  step P f3 s3 E3. cbn [parse_chunk] in E3. destruct (getnum s true) as [[n3 r3]|] eqn:G3; [|discriminate E3].
  injection E3 as <- <-. apply getnum_fixed_inv in G3. destruct G3 as (a3 & A3 & ->). byte P.
  step P f4 s4 E4. cbn [parse_chunk] in E4. destruct (getnum s false) as [[n4 r4]|] eqn:G4; [|discriminate E4].
  destruct (24 <=? n4) eqn:Q4; [discriminate E4|]. injection E4 as <- <-. apply getnum_inv in G4. destruct G4 as (a4 & A4 & ->). byte P.
  step P f5 s5 E5. cbn [parse_chunk] in E5. destruct (getnum s true) as [[n5 r5]|] eqn:G5; [|discriminate E5].
  destruct (60 <=? n5) eqn:Q5; [discriminate E5|]. injection E5 as <- <-. apply getnum_fixed_inv in G5. destruct G5 as (a5 & A5 & ->). byte P.
  step P f6 s6 E6. cbn [parse_chunk] in E6. destruct (getnum s true) as [[n6 r6]|] eqn:G6; [|discriminate E6].
  destruct (60 <=? n6) eqn:Q6; [discriminate E6|]. injection E6 as <- <-. apply getnum_fixed_inv in G6. destruct G6 as (a6 & A6 & ->).
  step P f7 s7 E7. apply parse_frac_inv in E7. destruct E7 as (n7 & a7 & -> & -> & A7).
  step P f8 s8 E8. apply parse_zone_inv in E8. destruct E8 as (n8 & g & zh & zm & za & zb & -> & ZA & ZB & ZH & ZM & OFF & ->).
  injection P as -> -> -> -> -> -> -> -> ->. injection H as <- <-.
  assert (B4 : 0 <= h) by (destruct A4 as [A4|A4]; apply digits_bound in A4; lia).
  pose proof (digits_bound _ _ _ A5). pose proof (digits_bound _ _ _ A6).
  assert (B7 : 0 <= ns < 10 ^ 9) by (destruct A7 as [A7|(ds & A7 & _)]; apply fraction_bound in A7; exact A7).
  assert (V : valid_date (y, mo, d)) by (split; lia).
  exists (Moment (y, mo, d) h mi se ns), (a1 ++ [45] ++ a2 ++ [45] ++ a3), a4, a5, a6, a7, g, zh, zm, za, zb.
  cbn [m_date m_hour m_minute m_second m_ns].
  split; [split; [exact V|cbn [m_hour m_minute m_second m_ns]; lia]|].
  split; [exists (days_of_date y mo d); split; [apply on_day_of_date, V|reflexivity]|].
  split; [exists a1, a2, a3; split; [exact A1|split; [exact A2|split; [exact A3|reflexivity]]]|].
  split; [exact A4|]. split; [exact A5|]. split; [exact A6|]. split; [exact A7|]. split; [exact ZA|]. split; [exact ZB|]. split; [exact ZH|]. split; [exact ZM|].
  split; [exact OFF|]. rewrite <- !app_assoc. cbn [app]. rewrite app_nil_r. reflexivity.
Qed.
Lemma parse_frac_comma ns ds r f k : fraction_text ns (46 :: ds) -> match r with c :: _ => ~ is_digit c | [] => True end ->
  parse_chunk (CFrac k) f (44 :: ds ++ r) = Some (Fields (f_year f) (f_month f) (f_day f) (f_hour f) (f_min f) (f_sec f) ns (f_zone f), r).
Proof.
  intros T R. destruct f as [y mo d h mi se n z]. cbn [f_year f_month f_day f_hour f_min f_sec f_nsec f_zone] in *.
  destruct T as [[H _]|(ds' & H & NE & F & ->)]; [discriminate H|]. injection H as <-.
  cbn [parse_chunk]. change ((44 =? 46) || (44 =? 44)) with true. cbv iota. rewrite (span_digits_app ds r F R).
  destruct ds as [|c ds]; [contradiction|]. rewrite (parseNanoseconds_value _ F). reflexivity.
Qed.
Lemma Parse_accepted l t off : accepted l t off -> Parse DateTimeFormat l = Some (t, off).
Proof.
  intros ([[[y m] d] h mi s ns] & dt & a' & b' & c' & ft & g & zh & zm & za & zb & ((M & D) & H & Mi & S & N) & (n & OD & ET) & (a & b & c & A & B & C & ->) & A' & B' & C' & F & ZA & ZB & ZH & ZM & OFF & ->).
  cbn [m_date m_hour m_minute m_second m_ns] in *. unfold Parse, DateTimeFormat. rewrite <- !app_assoc. cbn [app]. cbn [parse_chunks].
  rewrite (parse_year y a _ _ A). cbn [f_year f_month f_day f_hour f_min f_sec f_nsec f_zone].
  assert (K : forall b f r, parse_chunk (CByte b) f (b :: r) = Some (f, r)) by (intros b0 [] r0; cbn [parse_chunk]; rewrite Z.eqb_refl; reflexivity).
  rewrite K. cbn [parse_chunk]. rewrite (getnum_digits m b _ true B). replace ((m <=? 0) || (12 <? m)) with false by lia.
  rewrite K. cbn [parse_chunk]. rewrite (getnum_digits d c _ true C).
  rewrite K. cbn [parse_chunk]. assert (G : forall r, getnum (a' ++ 58 :: r) false = Some (h, 58 :: r)) by (intros r; destruct A' as [A'|A']; [apply getnum_digits, A'|apply getnum_one, A']).
  rewrite G. replace (24 <=? h) with false by lia.
  rewrite K. cbn [parse_chunk]. rewrite (getnum_digits mi b' _ true B'). replace (60 <=? mi) with false by lia.
  rewrite K. cbn [parse_chunk]. rewrite (getnum_digits s c' _ true C'). replace (60 <=? s) with false by lia.
  assert (Q : parse_chunk (CFrac 2) (Fields y m d h mi s 0 0) (ft ++ g :: za ++ 58 :: zb) = Some (Fields y m d h mi s ns 0, g :: za ++ 58 :: zb)).
  { destruct F as [F|(ds & F & ->)].
    - apply (parse_frac ns ft (g :: za ++ 58 :: zb) (Fields y m d h mi s 0 0) 2 F eq_refl). unfold is_digit. lia.
    - apply (parse_frac_comma ns ds (g :: za ++ 58 :: zb) (Fields y m d h mi s 0 0) 2 F). unfold is_digit. lia. }
  rewrite Q.
  pose proof (getnum_digits zh za [] true ZA) as GA. pose proof (getnum_digits zm zb [] true ZB) as GB. rewrite app_nil_r in GA, GB.
  destruct (digits2 _ _ ZA) as (a1 & a2 & -> & _). destruct (digits2 _ _ ZB) as (b1 & b2 & -> & _).
  cbn [parse_chunk app]. change (58 =? 58) with true. cbn [negb]. rewrite GA, GB. replace ((24 <? zh) || (60 <? zm)) with false by lia.
  apply on_day_iff in OD. pose proof (days_of_date_of _ _ _ _ OD) as DY.
  destruct OFF as [[-> ->]|[-> ->]].
  - change (43 =? 43) with true. cbv iota. rewrite month_days_daysIn. replace ((d <? 1) || (month_days y m <? d)) with false by lia. rewrite DY. do 2 f_equal; unfold ns_per_second; lia.
  - change (45 =? 43) with false. change (45 =? 45) with true. cbv iota. rewrite month_days_daysIn. replace ((d <? 1) || (month_days y m <? d)) with false by lia. rewrite DY. do 2 f_equal; unfold ns_per_second; lia.
Qed.
Lemma read_DateTime_exact l :
  (forall t off, accepted l t off -> read_DateTime l = (t, off)) /\
  ((forall t off, ~ accepted l t off) -> read_DateTime l = (zero_time, 0)).
Proof.
  unfold read_DateTime. split.
  - intros t off A. rewrite (Parse_accepted _ _ _ A). reflexivity.
  - intros N. destruct (Parse DateTimeFormat l) as [[t off]|] eqn:P; [|reflexivity]. exfalso. exact (N t off (Parse_inv _ _ _ P)).
Qed.
