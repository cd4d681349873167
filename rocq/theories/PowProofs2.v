(** What Decimal.Pow comes to. *)
From Coq Require Import Lia ZifyBool.
From Verif Require Import Base BaseProofs GuidModel NumModel NumTextModel PowModel PowProofs.
Open Scope Z_scope.

Local Ltac tens := change (10 ^ 16) with 10000000000000000 in *.

(** Half of a number of 16 places. *)
Lemma half_near c x : - 16 <= x ->
  decimal_div (Dec c x) (dec_of_Z 2) = Dec (Z.sgn c * ((Z.abs c * 10 ^ (x + 16) + 1) / 2)) (- 16).
Proof.
  intros X. unfold decimal_div, dec_of_Z. cbn [coef dexp]. replace (x - 0 + 16) with (x + 16) by lia. destruct (Z.ltb_spec (x + 16) 0); [lia|].
  pose proof (Z.pow_pos_nonneg 10 (x + 16) ltac:(lia) ltac:(lia)) as P.
  set (t := 10 ^ (x + 16)) in *. unfold dec_cmp, dec_abs, coef_at. cbn [coef dexp]. change (- 16 + 0 + 16) with 0. change (Z.min 0 0) with 0. change (Z.abs 2) with 2. rewrite Z.sub_diag, Z.pow_0_r, !Z.mul_1_r.
  assert (D : forall y, 0 <= y -> Z.quot y 2 = y / 2 /\ Z.rem y 2 = y mod 2) by (intros; rewrite Z.quot_div_nonneg, Z.rem_mod_nonneg by lia; auto).
  assert (S : exists y, 0 <= y /\ Z.abs c * t = y /\ (c * t = y \/ c * t = - y) /\ (0 < c -> c * t = y) /\ (c < 0 -> c * t = - y)) by (exists (Z.abs c * t); nia).
  destruct S as (y & Y & -> & S & S1 & S2). pose proof (D y Y) as [Q R].
  assert (QQ : Z.quot (c * t) 2 = Z.sgn c * (y / 2) /\ Z.abs (Z.rem (c * t) 2) = y mod 2).
  { pose proof (Z.mod_pos_bound y 2 ltac:(lia)) as M. destruct (Z.lt_trichotomy c 0) as [L|[-> |L]].
    - rewrite S2 by lia. rewrite Z.quot_opp_l, Z.rem_opp_l, Q, R by lia. replace (Z.sgn c) with (-1) by lia. lia.
    - rewrite Z.mul_0_l in *. assert (y = 0) by lia. subst. split; reflexivity.
    - rewrite S1 by lia. rewrite Q, R. replace (Z.sgn c) with 1 by lia. lia. }
  destruct QQ as [-> ->]. pose proof (Z.div_mod y 2 ltac:(lia)) as DM. pose proof (Z.mod_pos_bound y 2 ltac:(lia)) as M.
  destruct (Z.eq_dec (y mod 2) 0) as [E|E].
  - rewrite E. cbn. f_equal. f_equal. apply (Z.div_unique _ _ _ 1); lia.
  - replace (y mod 2) with 1 by lia. change (match 2 * 1 ?= 2 with Eq => 0 | Lt => -1 | Gt => 1 end <? 0) with false. cbn iota.
    assert (H1 : (y + 1) / 2 = y / 2 + 1) by (symmetry; apply (Z.div_unique _ _ _ 0); lia). rewrite H1.
    replace (Z.sgn c * Z.sgn 2) with (Z.sgn c) by (change (Z.sgn 2) with 1; lia).
    assert (NZ : c <> 0) by (intros ->; assert (y = 0) by lia; subst; cbn in E; lia).
    destruct (Z.ltb_spec (Z.sgn c) 0).
    + unfold dec_sub, coef_at. cbn [coef dexp]. change (Z.min (- 16) (- 16)) with (- 16). rewrite Z.sub_diag, Z.pow_0_r. f_equal. replace (Z.sgn c) with (-1) by lia. lia.
    + unfold dec_add, coef_at. cbn [coef dexp]. change (Z.min (- 16) (- 16)) with (- 16). rewrite Z.sub_diag, Z.pow_0_r. f_equal. replace (Z.sgn c) with 1 by lia. lia.
Qed.
(** Half of a number of more places. *)
Lemma half_far c x : x < - 16 -> exists n, decimal_div (Dec c x) (dec_of_Z 2) = Dec n (- 16) /\ 2 * Z.abs n <= Z.abs c + 2.
Proof.
  intros X. unfold decimal_div, dec_of_Z. cbn [coef dexp]. replace (x - 0 + 16) with (x + 16) by lia. destruct (Z.ltb_spec (x + 16) 0); [|lia].
  pose proof (Z.pow_pos_nonneg 10 (- (x + 16)) ltac:(lia) ltac:(lia)) as P. set (t := 10 ^ (- (x + 16))) in *.
  assert (Q : 2 * Z.abs (Z.quot c (2 * t)) <= Z.abs c).
  { rewrite <- (Z.abs_eq (2 * t)) by lia. rewrite <- Z.quot_abs by lia. rewrite Z.quot_div_nonneg by lia. pose proof (Z.mul_div_le (Z.abs c) (Z.abs (2 * t)) ltac:(lia)). nia. }
  destruct (dec_cmp _ _ <? 0); [eexists; split; [reflexivity|lia]|].
  destruct (_ <? 0); eexists; (split; [unfold dec_sub, dec_add, coef_at; cbn [coef dexp]; change (Z.min (- 16) (- 16)) with (- 16); rewrite Z.sub_diag, Z.pow_0_r, !Z.mul_1_r; reflexivity|lia]).
Qed.
Lemma half_bound e : exists n, decimal_div e (dec_of_Z 2) = Dec n (- 16) /\ 2 * Z.abs n <= Z.abs (coef e) * 10 ^ Z.max 0 (dexp e) * 10 ^ 16 + 2.
Proof.
  destruct e as [c x]. cbn [coef dexp]. destruct (Z_lt_le_dec x (- 16)) as [X|X].
  - destruct (half_far c x X) as (n & E & B). exists n. split; [exact E|]. rewrite Z.max_l by lia. tens. lia.
  - rewrite half_near by exact X. eexists. split; [reflexivity|].
    assert (T : 10 ^ (x + 16) <= 10 ^ Z.max 0 x * 10 ^ 16) by (rewrite <- Z.pow_add_r by lia; apply Z.pow_le_mono_r; lia).
    pose proof (Z.pow_pos_nonneg 10 (x + 16) ltac:(lia) ltac:(lia)) as P.
    assert (Y : Z.abs c * 10 ^ (x + 16) <= Z.abs c * 10 ^ Z.max 0 x * 10 ^ 16) by (rewrite <- Z.mul_assoc; apply Z.mul_le_mono_nonneg_l; lia).
    set (y := Z.abs c * 10 ^ (x + 16)) in *. assert (0 <= y) by (unfold y; nia). pose proof (Z.mul_div_le (y + 1) 2 ltac:(lia)). pose proof (Z.div_pos (y + 1) 2 ltac:(lia) ltac:(lia)). rewrite Z.abs_mul.
    assert (Z.abs (Z.sgn c) <= 1) by lia. nia.
Qed.

Lemma intpart_small n : Z.abs n < 10 ^ 16 -> dec_intpart (Dec n (- 16)) = 0.
Proof. intros H. unfold dec_intpart. cbn [coef dexp Z.leb Z.compare Z.opp]. rewrite (proj2 (Z.quot_small_iff n (10 ^ 16) ltac:(lia))) by (tens; lia). reflexivity. Qed.

Lemma half16 n : exists n', decimal_div (Dec n (- 16)) (dec_of_Z 2) = Dec n' (- 16) /\ 2 * Z.abs n' <= Z.abs n + 2.
Proof.
  rewrite half_near by lia. change (- 16 + 16) with 0. rewrite Z.pow_0_r, Z.mul_1_r. eexists. split; [reflexivity|].
  pose proof (Z.mul_div_le (Z.abs n + 1) 2 ltac:(lia)). pose proof (Z.div_pos (Z.abs n + 1) 2 ltac:(lia) ltac:(lia)). rewrite Z.abs_mul. assert (Z.abs (Z.sgn n) <= 1) by lia. nia.
Qed.

(** Enough calls. *)
Definition enough (f : nat) (n : Z) : Prop := (0 < f)%nat /\ 4 * Z.abs n <= 2 ^ Z.of_nat f * 10 ^ 16 + 8.
Lemma enough_half f n n' : enough (S f) n -> 10 ^ 16 <= Z.abs n -> 2 * Z.abs n' <= Z.abs n + 2 -> enough f n'.
Proof.
  unfold enough. intros [_ E] B H. rewrite Nat2Z.inj_succ, Z.pow_succ_r in E by lia. tens.
  destruct f as [|f]; [change (Z.of_nat 0) with 0 in E; rewrite Z.pow_0_r in E; lia|]. split; [lia|]. lia.
Qed.
Lemma loop_enough f : forall f' d n, enough f n -> enough f' n -> pow_loop f d (Dec n (- 16)) = pow_loop f' d (Dec n (- 16)).
Proof.
  induction f as [|f IH]; intros f' d n E E'; [destruct E; lia|]. destruct f' as [|f']; [destruct E'; lia|]. cbn [pow_loop].
  destruct (Z_lt_le_dec (Z.abs n) (10 ^ 16)) as [S|B]; [rewrite intpart_small by exact S; reflexivity|].
  destruct (half16 n) as (n' & -> & H). rewrite (IH f' d n'); [reflexivity| |]; eapply enough_half; eassumption.
Qed.
Lemma log_enough n k : 2 <= k -> enough (Z.to_nat (Z.log2 (Z.abs n) + k)) n.
Proof.
  intros K. pose proof (Z.log2_nonneg (Z.abs n)). split; [lia|]. rewrite Z2Nat.id by lia. rewrite Z.pow_add_r by lia.
  assert (Z.abs n <= 2 * 2 ^ Z.log2 (Z.abs n)).
  { destruct (Z.eq_dec (Z.abs n) 0) as [-> |N]; [cbn; lia|]. pose proof (Z.log2_spec (Z.abs n) ltac:(lia)) as [_ L]. rewrite Z.pow_succ_r in L by lia. lia. }
  assert (4 <= 2 ^ k) by (change 4 with (2 ^ 2); apply Z.pow_le_mono_r; lia). pose proof (Z.pow_pos_nonneg 2 (Z.log2 (Z.abs n)) ltac:(lia) ltac:(lia)). tens. nia.
Qed.

(** The call tree of Decimal.Pow. *)
Lemma decimal_pow_eq d e : decimal_pow d e =
  let n := dec_intpart e in
  if n =? 0 then Ok (dec_of_Z 1)
  else
    let* t := decimal_pow d (decimal_div e (dec_of_Z 2)) in
    if Z.rem n 2 =? 0 then Ok (dec_mul t t)
    else if 0 <? n then Ok (dec_mul (dec_mul t t) d)
    else if coef d =? 0 then Panic else Ok (decimal_div (dec_mul t t) d).
Proof.
  destruct (half_bound e) as (n & H & B). rewrite H. unfold decimal_pow at 2. cbn [coef dexp]. change (Z.max 0 (- 16)) with 0. rewrite Z.pow_0_r, Z.mul_1_r.
  unfold decimal_pow. set (V := Z.abs (coef e) * 10 ^ Z.max 0 (dexp e)) in *.
  assert (V0 : 0 <= V) by (unfold V; pose proof (Z.pow_nonneg 10 (Z.max 0 (dexp e))); nia). pose proof (Z.log2_nonneg V) as L0.
  replace (Z.to_nat (Z.log2 V + 4)) with (S (Z.to_nat (Z.log2 V + 3))) by lia. cbn [pow_loop]. rewrite H.
  rewrite (loop_enough (Z.to_nat (Z.log2 V + 3)) (Z.to_nat (Z.log2 (Z.abs n) + 4))); [reflexivity| |apply log_enough; lia].
  split; [lia|]. rewrite Z2Nat.id by lia. rewrite Z.pow_add_r by lia. change (2 ^ 3) with 8.
  assert (V <= 2 * 2 ^ Z.log2 V).
  { destruct (Z.eq_dec V 0) as [-> |N]; [cbn; lia|]. pose proof (Z.log2_spec V ltac:(lia)) as [_ L]. rewrite Z.pow_succ_r in L by lia. lia. }
  tens. lia.
Qed.

(** ** Exponents that are not negative *)
Lemma intpart_nonneg c x : 0 <= c -> - 16 <= x <= 0 -> c / 10 ^ (- x) < 2 ^ 63 -> dec_intpart (Dec c x) = c / 10 ^ (- x).
Proof.
  intros C X B. unfold dec_intpart. cbn [coef dexp]. pose proof (Z.pow_pos_nonneg 10 (- x) ltac:(lia) ltac:(lia)) as P.
  assert (E : (if 0 <=? x then c * 10 ^ x else Z.quot c (10 ^ (- x))) = c / 10 ^ (- x)).
  { destruct (Z.leb_spec 0 x) as [H|H]; [replace x with 0 by lia; cbn; rewrite Z.div_1_r; lia|]. apply Z.quot_div_nonneg; lia. }
  rewrite E. pose proof (Z.div_pos c (10 ^ (- x)) C P). unfold i64. rewrite Z.mod_small; lia.
Qed.

(** Halving j times gives the least number of 16 places that is not below. *)
Definition up (a b : Z) : Z := - (- a / b).
Lemma up_half N j : 0 <= N -> 0 <= j -> (up N (2 ^ j) + 1) / 2 = up N (2 ^ (j + 1)).
Proof.
  intros H J. unfold up. rewrite Z.pow_add_r, Z.pow_1_r by lia. pose proof (Z.pow_pos_nonneg 2 j ltac:(lia) J) as P. set (p := 2 ^ j) in *.
  rewrite <- Z.div_div by lia. set (a := - N / p). pose proof (Z.div_mod a 2 ltac:(lia)). pose proof (Z.mod_pos_bound a 2 ltac:(lia)).
  symmetry. apply (Z.div_unique _ _ _ (1 - a mod 2)); lia.
Qed.
Lemma up_floor c p q b : 0 <= c -> 0 < p -> p * q = 10 ^ 16 -> 0 < b <= q -> up (c * q) b / 10 ^ 16 = c / (p * b).
Proof.
  intros C P Q B. unfold up. assert (Q0 : 0 < q) by nia. pose proof (Z.div_mod c (p * b) ltac:(nia)) as D. pose proof (Z.mod_pos_bound c (p * b) ltac:(nia)) as M.
  set (K := c / (p * b)) in *. set (s := c mod (p * b)) in *.
  assert (E : - (c * q) = - (s * q) + (- (K * 10 ^ 16)) * b) by (rewrite <- Q; nia). rewrite E, Z.div_add by lia.
  replace (- (- (s * q) / b + - (K * 10 ^ 16))) with (- (- (s * q) / b) + K * 10 ^ 16) by lia. rewrite Z.div_add by (tens; lia).
  rewrite Z.div_small; [lia|]. assert (SQ : 0 <= s * q <= b * 10 ^ 16 - b) by (rewrite <- Q; nia).
  pose proof (Z.div_mod (- (s * q)) b ltac:(lia)) as DM. pose proof (Z.mod_pos_bound (- (s * q)) b ltac:(lia)) as MB. split.
  - enough (- (s * q) / b <= 0) by lia. apply Z.div_le_upper_bound; lia.
  - enough (- (10 ^ 16 - 1) <= - (s * q) / b) by lia. apply Z.div_le_lower_bound; lia.
Qed.
Lemma up_nonneg a b : 0 <= a -> 0 < b -> 0 <= up a b.
Proof. intros A B. unfold up. enough (- a / b <= 0) by lia. apply Z.div_le_upper_bound; lia. Qed.

Lemma square_step d k X : 0 < k ->
  (let t := Dec (coef d ^ (k / 2)) (dexp d * (k / 2)) in
   if Z.rem k 2 =? 0 then Ok (dec_mul t t) else if 0 <? k then Ok (dec_mul (dec_mul t t) d) else X) = Ok (Dec (coef d ^ k) (dexp d * k)).
Proof.
  intros K. cbv zeta. pose proof (Z.div_mod k 2 ltac:(lia)) as DM. rewrite Z.rem_mod_nonneg by lia.
  pose proof (Z.div_pos k 2 ltac:(lia) ltac:(lia)) as K0. pose proof (Z.mod_pos_bound k 2 ltac:(lia)) as MB. unfold dec_mul. cbn [coef dexp].
  set (h := k / 2) in *. destruct (Z.eqb_spec (k mod 2) 0) as [M|M].
  - assert (E : k = h + h) by lia. rewrite E, Z.pow_add_r by lia. f_equal. f_equal. lia.
  - destruct (Z.ltb_spec 0 k); [|lia]. assert (E : k = h + h + 1) by lia. rewrite E, !Z.pow_add_r, Z.pow_1_r by lia. f_equal. f_equal. lia.
Qed.
Lemma pow_near c p q d : 0 <= c -> 0 < p -> p * q = 10 ^ 16 -> 2 * c <= 10 ^ 16 -> forall m j, 0 <= j -> 2 ^ j <= q -> c / (p * 2 ^ j) < 2 ^ Z.of_nat m ->
  decimal_pow d (Dec (up (c * q) (2 ^ j)) (- 16)) = Ok (Dec (coef d ^ (c / (p * 2 ^ j))) (dexp d * (c / (p * 2 ^ j)))).
Proof.
  intros C P Q C2. assert (Q0 : 0 < q) by nia. induction m as [|m IH]; intros j J JQ K.
  all: pose proof (Z.pow_pos_nonneg 2 j ltac:(lia) J) as PJ; pose proof (up_nonneg (c * q) (2 ^ j) ltac:(apply Z.mul_nonneg_nonneg; lia) PJ) as UN.
  all: assert (I : dec_intpart (Dec (up (c * q) (2 ^ j)) (- 16)) = c / (p * 2 ^ j))
         by (rewrite intpart_nonneg; [apply up_floor; lia|lia|lia|change (- - 16) with 16; rewrite (up_floor c p q) by lia; apply (Z.le_lt_trans _ c); [apply Z.div_le_upper_bound; nia|tens; lia]]).
  all: pose proof (Z.div_pos c (p * 2 ^ j) C ltac:(nia)) as KN.
  - rewrite decimal_pow_eq. cbv zeta. rewrite I. change (2 ^ Z.of_nat 0) with 1 in K. replace (c / (p * 2 ^ j)) with 0 by lia. cbn [Z.eqb]. rewrite Z.mul_0_r. reflexivity.
  - rewrite decimal_pow_eq. cbv zeta. rewrite I. set (k := c / (p * 2 ^ j)) in *. destruct (Z.eqb_spec k 0) as [E|E]; [rewrite E, Z.mul_0_r; reflexivity|].
    assert (JQ' : 2 ^ (j + 1) <= q).
    { rewrite Z.pow_add_r, Z.pow_1_r by lia. assert (p * 2 ^ j <= c) by (pose proof (Z.mul_div_le c (p * 2 ^ j) ltac:(nia)) as H; fold k in H; nia). nia. }
    assert (K2 : c / (p * 2 ^ (j + 1)) = k / 2) by (rewrite Z.pow_add_r, Z.pow_1_r, Z.mul_assoc by lia; rewrite <- Z.div_div by nia; reflexivity).
    assert (H : decimal_div (Dec (up (c * q) (2 ^ j)) (- 16)) (dec_of_Z 2) = Dec (up (c * q) (2 ^ (j + 1))) (- 16)).
    { rewrite half_near by lia. change (- 16 + 16) with 0. rewrite Z.pow_0_r, Z.mul_1_r, Z.abs_eq by lia. rewrite up_half by first [exact J | apply Z.mul_nonneg_nonneg; lia]. f_equal.
      assert (NU : up (c * q) (2 ^ j) <> 0) by (intros U; apply E; rewrite <- I; apply intpart_zero; exact U). rewrite Z.sgn_pos by (clear - NU UN; lia). apply Z.mul_1_l. }
    rewrite H, IH; [|lia|exact JQ'|rewrite K2; rewrite Nat2Z.inj_succ, Z.pow_succ_r in K by lia; apply Z.div_lt_upper_bound; lia].
    rewrite K2. cbn [bind]. apply square_step. clear - KN E. lia.
Qed.
Lemma decimal_pow_whole d c x : 0 <= c <= 5 * 10 ^ 15 -> - 16 <= x <= 0 ->
  decimal_pow d (Dec c x) = Ok (Dec (coef d ^ (c / 10 ^ (- x))) (dexp d * (c / 10 ^ (- x)))).
Proof.
  intros C X. set (p := 10 ^ (- x)). set (q := 10 ^ (x + 16)). pose proof (Z.pow_pos_nonneg 10 (- x) ltac:(lia) ltac:(lia)) as P. pose proof (Z.pow_pos_nonneg 10 (x + 16) ltac:(lia) ltac:(lia)) as Q0. fold p in P. fold q in Q0.
  assert (Q : p * q = 10 ^ 16) by (unfold p, q; rewrite <- Z.pow_add_r by lia; f_equal; lia).
  assert (C2 : 2 * c <= 10 ^ 16) by (change (10 ^ 15) with 1000000000000000 in C; tens; lia).
  assert (B : c / p < 2 ^ 63) by (apply (Z.le_lt_trans _ c); [apply Z.div_le_upper_bound; nia|tens; lia]).
  pose proof (Z.div_pos c p ltac:(lia) P) as KN.
  rewrite decimal_pow_eq. cbv zeta. rewrite intpart_nonneg by (fold p; lia). fold p. set (k := c / p) in *.
  destruct (Z.eqb_spec k 0) as [E|E]; [rewrite E, Z.mul_0_r; reflexivity|].
  assert (CP : 0 < c) by (destruct (Z.eq_dec c 0) as [Z0|]; [|lia]; exfalso; apply E; unfold k; rewrite Z0; reflexivity).
  rewrite half_near by lia. rewrite Z.abs_eq, Z.sgn_pos by lia. fold q. rewrite Z.mul_1_l.
  assert (U : (c * q + 1) / 2 = up (c * q) (2 ^ 1)).
  { change (2 ^ 1) with (2 ^ (0 + 1)). rewrite <- (up_half (c * q) 0) by first [apply Z.mul_nonneg_nonneg; lia | lia]. unfold up. rewrite Z.pow_0_r, Z.div_1_r. f_equal. lia. }
  rewrite U. rewrite (pow_near c p q d) with (m := 63%nat); [|lia|lia|exact Q|exact C2|lia| |].
  - change (2 ^ 1) with 2. rewrite <- Z.div_div by lia. fold k. cbn [bind]. apply square_step. clear - KN E. lia.
  - change (2 ^ 1) with 2. pose proof (Z.mul_div_le c p P) as H. fold k in H. nia.
  - change (2 ^ 1) with 2. apply (Z.le_lt_trans _ (c / p)); [apply Z.div_le_compat_l; lia|exact B].
Qed.
