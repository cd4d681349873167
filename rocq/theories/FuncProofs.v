(** Proofs about the numeric functions (C91). *)
From Coq Require Import Lia ZifyBool ZifyNat QArith Qabs Qpower Qfield Lqa.
From Verif Require Import Base GuidModel StrModel NumModel ExprModel ExprSpec FuncSpec ExprProofs ExprProofs2.
Close Scope Q_scope.
Open Scope list_scope.
Open Scope Z_scope.

(** ** Doubles *)

Lemma digits_spec p : 2 ^ (Z.pos (digits2_pos p) - 1) <= Z.pos p < 2 ^ Z.pos (digits2_pos p).
Proof.
  induction p as [p IH|p IH|]; cbn [digits2_pos].
  - rewrite Pos2Z.inj_succ. replace (Z.succ (Z.pos (digits2_pos p)) - 1) with (Z.succ (Z.pos (digits2_pos p) - 1)) by lia.
    rewrite !Z.pow_succ_r by lia. rewrite Pos2Z.inj_xI.
    generalize dependent (2 ^ (Z.pos (digits2_pos p) - 1)). generalize dependent (2 ^ Z.pos (digits2_pos p)). intros; lia.
  - rewrite Pos2Z.inj_succ. replace (Z.succ (Z.pos (digits2_pos p)) - 1) with (Z.succ (Z.pos (digits2_pos p) - 1)) by lia.
    rewrite !Z.pow_succ_r by lia. change (Z.pos p~0) with (2 * Z.pos p).
    generalize dependent (2 ^ (Z.pos (digits2_pos p) - 1)). generalize dependent (2 ^ Z.pos (digits2_pos p)). intros; lia.
  - cbn. lia.
Qed.
Lemma digits_unique p d : 0 < d -> 2 ^ (d - 1) <= Z.pos p < 2 ^ d -> Z.pos (digits2_pos p) = d.
Proof.
  intros D H. pose proof (digits_spec p) as S.
  destruct (Z.lt_trichotomy (Z.pos (digits2_pos p)) d) as [L|[E|L]]; [|exact E|].
  - pose proof (Z.pow_le_mono_r 2 (Z.pos (digits2_pos p)) (d - 1) ltac:(lia) ltac:(lia)). lia.
  - pose proof (Z.pow_le_mono_r 2 d (Z.pos (digits2_pos p) - 1) ltac:(lia) ltac:(lia)). lia.
Qed.
Lemma digits_bound p d : 0 < d -> Z.pos p < 2 ^ d -> Z.pos (digits2_pos p) <= d.
Proof.
  intros D H. pose proof (digits_spec p) as S. destruct (Z_le_gt_dec (Z.pos (digits2_pos p)) d) as [|L]; [assumption|].
  pose proof (Z.pow_le_mono_r 2 d (Z.pos (digits2_pos p) - 1) ltac:(lia) ltac:(lia)). lia.
Qed.

Lemma round_aux_exact s m e : Z.pos (digits2_pos m) = 53 -> -1074 <= e <= 971 ->
  binary_round_aux 53 1024 s (Z.pos m) e loc_Exact = S754_finite s m e.
Proof.
  intros D E. unfold binary_round_aux, shr_fexp. cbn [shr_record_of_loc Zdigits2].
  unfold fexp, emin. rewrite D. replace (Z.max (53 + e - 53) (3 - 1024 - 53) - e) with 0 by lia.
  cbn [shr shr_m loc_of_shr_record round_nearest_even]. unfold Zdigits2. rewrite D.
  replace (Z.max (53 + e - 53) (3 - 1024 - 53) - e) with 0 by lia. cbn [shr shr_m].
  replace (Zle_bool e (1024 - 53)) with true; [reflexivity|]. symmetry. apply Z.leb_le. lia.
Qed.
Lemma round_exact s p : Z.pos p < 2 ^ 53 ->
  exists m e, binary_round 53 1024 s p 0 = S754_finite s m e /\ bounded 53 1024 m e = true /\
    -52 <= e <= 0 /\ Z.pos m = Z.pos p * 2 ^ (- e).
Proof.
  intros P. pose proof (digits_bound p 53 ltac:(lia) P) as B. pose proof (digits_spec p) as S.
  unfold binary_round, shl_align, fexp, emin. rewrite Z.add_0_r, Z.sub_0_r.
  replace (Z.max (Z.pos (digits2_pos p) - 53) (3 - 1024 - 53)) with (Z.pos (digits2_pos p) - 53) by lia.
  set (d := Z.pos (digits2_pos p)) in *. assert (D1 : 1 <= d) by (unfold d; lia).
  assert (FIN : forall m, Z.pos m = Z.pos p * 2 ^ (53 - d) ->
    Z.pos (digits2_pos m) = 53 /\ bounded 53 1024 m (d - 53) = true).
  { intros m M. assert (DM : Z.pos (digits2_pos m) = 53).
    { assert (P1 : 2 ^ (53 - 1) = 2 ^ (d - 1) * 2 ^ (53 - d)) by (rewrite <- Z.pow_add_r by lia; f_equal; lia).
      assert (P2 : 2 ^ 53 = 2 ^ d * 2 ^ (53 - d)) by (rewrite <- Z.pow_add_r by lia; f_equal; lia).
      apply digits_unique; [lia|]. rewrite M, P1, P2.
      pose proof (Z.pow_pos_nonneg 2 (53 - d) ltac:(lia) ltac:(lia)). clear P1 P2. nia. }
    split; [exact DM|]. unfold bounded, canonical_mantissa, fexp, emin. rewrite DM. apply andb_true_iff. split.
    - apply Zeq_is_eq_bool. lia.
    - apply Z.leb_le. lia. }
  destruct (d - 53) as [|k|k] eqn:E.
  - assert (M : Z.pos p = Z.pos p * 2 ^ (53 - d)) by (replace (53 - d) with 0 by lia; lia).
    destruct (FIN p M) as [DM BM]. exists p, 0. rewrite round_aux_exact by lia.
    split; [reflexivity|]. split; [exact BM|]. split; [lia|]. cbn. lia.
  - lia.
  - assert (M : Z.pos (shift_pos k p) = Z.pos p * 2 ^ (53 - d)).
    { rewrite shift_pos_correct, Z.pow_pos_fold. replace (53 - d) with (Z.pos k) by lia. lia. }
    destruct (FIN _ M) as [DM BM]. exists (shift_pos k p), (Z.neg k). rewrite round_aux_exact by lia.
    split; [reflexivity|]. split; [exact BM|]. split; [lia|]. rewrite M. f_equal. f_equal. lia.
Qed.

Lemma two_nz : ~ (inject_Z 2 == 0)%Q.
Proof. discriminate. Qed.
Lemma two_pos e : (0 < Qpower (inject_Z 2) e)%Q.
Proof. apply Qpower_0_lt. reflexivity. Qed.
Lemma inject_pow2 k : 0 <= k -> (inject_Z (2 ^ k) == Qpower (inject_Z 2) k)%Q.
Proof. intros K. rewrite Zpower_Qpower by assumption. reflexivity. Qed.
Lemma pow2_opp e : (Qpower (inject_Z 2) (- e) * Qpower (inject_Z 2) e == 1)%Q.
Proof. rewrite <- Qpower_plus by exact two_nz. replace (- e + e) with 0 by lia. reflexivity. Qed.

(** An integer of at most 53 bits is a double exactly. *)
Lemma normalize_number s n : Z.abs n < 2 ^ 53 -> double_number (binary_normalize 53 1024 n 0 s) (inject_Z n).
Proof.
  intros N. destruct n as [|p|p]; cbn [binary_normalize].
  - constructor. reflexivity.
  - destruct (round_exact false p ltac:(lia)) as (m & e & -> & B & E & M). constructor; [exact B|]. cbv iota.
    rewrite M, inject_Z_mult, inject_pow2 by lia. rewrite <- Qmult_assoc, pow2_opp. ring.
  - destruct (round_exact true p ltac:(lia)) as (m & e & -> & B & E & M). constructor; [exact B|]. cbv iota.
    change (Z.neg m) with (- Z.pos m). change (Z.neg p) with (- Z.pos p).
    rewrite M, !inject_Z_opp, inject_Z_mult, inject_pow2 by lia.
    setoid_replace (- (inject_Z (Z.pos p) * inject_Z 2 ^ (- e)) * inject_Z 2 ^ e)%Q
      with (- inject_Z (Z.pos p) * (inject_Z 2 ^ (- e) * inject_Z 2 ^ e))%Q by ring.
    rewrite pow2_opp. ring.
Qed.
Lemma d_of_Z_number n : Z.abs n < 2 ^ 53 -> double_number (d_of_Z n) (inject_Z n).
Proof. apply normalize_number. Qed.
Lemma d_integral_number s n : Z.abs n < 2 ^ 53 -> double_number (d_integral s n) (inject_Z n).
Proof.
  intros N. unfold d_integral. destruct (n =? 0) eqn:Z; [|apply normalize_number, N].
  replace n with 0 by lia. constructor. reflexivity.
Qed.
Lemma bounded_mantissa m e : bounded 53 1024 m e = true -> Z.pos m < 2 ^ 53.
Proof.
  unfold bounded, canonical_mantissa, fexp, emin. intros H. apply andb_true_iff in H as [H _]. apply Zeq_bool_eq in H.
  pose proof (digits_spec m) as [_ S]. eapply Z.lt_le_trans; [exact S|]. apply Z.pow_le_mono_r; lia.
Qed.

(** ** Rounding a fraction N / p *)

Definition scaled (q : Q) (N p : Z) : Prop := 0 < p /\ (q * inject_Z p == inject_Z N)%Q.

Lemma scaled_le q N p a : scaled q N p -> (inject_Z a <= q)%Q <-> a * p <= N.
Proof.
  intros [P E]. rewrite Zle_Qle, inject_Z_mult, <- E. assert (0 < inject_Z p)%Q by (change 0%Q with (inject_Z 0); rewrite <- Zlt_Qlt; exact P).
  symmetry. apply Qmult_le_r. assumption.
Qed.
Lemma scaled_lt q N p a : scaled q N p -> (inject_Z a < q)%Q <-> a * p < N.
Proof.
  intros [P E]. rewrite Zlt_Qlt, inject_Z_mult, <- E. assert (0 < inject_Z p)%Q by (change 0%Q with (inject_Z 0); rewrite <- Zlt_Qlt; exact P).
  symmetry. apply Qmult_lt_r. assumption.
Qed.
Lemma scaled_ge q N p a : scaled q N p -> (q <= inject_Z a)%Q <-> N <= a * p.
Proof.
  intros [P E]. rewrite Zle_Qle, inject_Z_mult, <- E. assert (0 < inject_Z p)%Q by (change 0%Q with (inject_Z 0); rewrite <- Zlt_Qlt; exact P).
  symmetry. apply Qmult_le_r. assumption.
Qed.
Lemma scaled_gt q N p a : scaled q N p -> (q < inject_Z a)%Q <-> N < a * p.
Proof.
  intros [P E]. rewrite Zlt_Qlt, inject_Z_mult, <- E. assert (0 < inject_Z p)%Q by (change 0%Q with (inject_Z 0); rewrite <- Zlt_Qlt; exact P).
  symmetry. apply Qmult_lt_r. assumption.
Qed.
Lemma scaled_half q N p : scaled q N p -> scaled (q + (1 # 2)) (2 * N + p) (2 * p) /\ scaled (q - (1 # 2)) (2 * N - p) (2 * p).
Proof.
  intros [P E]. unfold scaled. split; (split; [lia|]).
  - rewrite inject_Z_plus, !inject_Z_mult, <- E. change (inject_Z 2) with (2 # 1)%Q. field.
  - unfold Z.sub. rewrite inject_Z_plus, inject_Z_opp, !inject_Z_mult, <- E. change (inject_Z 2) with (2 # 1)%Q. field.
Qed.
Lemma scaled_floor q N p n : scaled q N p -> is_floor q n <-> n * p <= N < (n + 1) * p.
Proof. intros S. unfold is_floor. rewrite (scaled_le q N p), (scaled_gt q N p) by assumption. reflexivity. Qed.
Lemma scaled_ceiling q N p n : scaled q N p -> is_ceiling q n <-> (n - 1) * p < N <= n * p.
Proof. intros S. unfold is_ceiling. rewrite (scaled_lt q N p), (scaled_ge q N p) by assumption. reflexivity. Qed.
Lemma scaled_nonneg q N p : scaled q N p -> (0 <= q)%Q <-> 0 <= N.
Proof. intros S. change 0%Q with (inject_Z 0). rewrite (scaled_le q N p) by assumption. lia. Qed.
Lemma scaled_nonpos q N p : scaled q N p -> (q <= 0)%Q <-> N <= 0.
Proof. intros S. change 0%Q with (inject_Z 0). rewrite (scaled_ge q N p) by assumption. lia. Qed.

Lemma floor_div q N p : scaled q N p -> is_floor q (N / p).
Proof. intros S. apply (scaled_floor q N p _ S). destruct S as [P _]. pose proof (Z.div_mod N p ltac:(lia)). pose proof (Z.mod_pos_bound N p P). nia. Qed.
Lemma ceiling_div q N p : scaled q N p -> is_ceiling q (- (- N / p)).
Proof. intros S. apply (scaled_ceiling q N p _ S). destruct S as [P _]. pose proof (Z.div_mod (- N) p ltac:(lia)). pose proof (Z.mod_pos_bound (- N) p P). nia. Qed.
Lemma truncated_quot q N p : scaled q N p -> is_truncated q (Z.quot N p).
Proof.
  intros S. pose proof S as [P _]. split; intros H.
  - apply (scaled_nonneg q N p S) in H. rewrite Z.quot_div_nonneg by lia. apply floor_div, S.
  - apply (scaled_nonpos q N p S) in H. replace (Z.quot N p) with (- (- N / p)).
    + apply ceiling_div, S.
    + rewrite <- (Z.opp_involutive N) at 2. rewrite Z.quot_opp_l by lia. rewrite Z.quot_div_nonneg by lia. reflexivity.
Qed.
Lemma rounded_div q N p : scaled q N p -> is_rounded q (Z.sgn N * ((2 * Z.abs N + p) / (2 * p))).
Proof.
  intros S. pose proof S as [P _]. destruct (scaled_half q N p S) as [S1 S2].
  pose proof (Z.div_mod (2 * Z.abs N + p) (2 * p) ltac:(lia)) as D. pose proof (Z.mod_pos_bound (2 * Z.abs N + p) (2 * p) ltac:(lia)) as M.
  set (k := (2 * Z.abs N + p) / (2 * p)) in *. set (r := (2 * Z.abs N + p) mod (2 * p)) in *. clearbody k r.
  split; intros H.
  - apply (scaled_nonneg q N p S) in H. apply (scaled_floor _ _ _ _ S1).
    destruct (Z.eq_dec N 0) as [->|Z]; [cbn [Z.sgn Z.abs] in *; lia|]. rewrite Z.sgn_pos by lia. rewrite Z.abs_eq in * by lia. nia.
  - apply (scaled_nonpos q N p S) in H. apply (scaled_ceiling _ _ _ _ S2).
    destruct (Z.eq_dec N 0) as [->|Z]; [cbn [Z.sgn Z.abs] in *; lia|]. rewrite Z.sgn_neg by lia. rewrite Z.abs_neq in * by lia. nia.
Qed.
(** Integers round to themselves. *)
Lemma scaled_integer q n : (q == inject_Z n)%Q -> scaled q n 1.
Proof. intros E. split; [lia|]. rewrite E. change (inject_Z 1) with 1%Q. ring. Qed.
Lemma integer_rounds q n : (q == inject_Z n)%Q -> is_floor q n /\ is_ceiling q n /\ is_rounded q n /\ is_truncated q n.
Proof.
  intros E. pose proof (scaled_integer q n E) as S. split; [apply (scaled_floor _ _ _ _ S); lia|].
  split; [apply (scaled_ceiling _ _ _ _ S); lia|]. split.
  - pose proof (rounded_div _ _ _ S) as R. replace (Z.sgn n * ((2 * Z.abs n + 1) / (2 * 1))) with n in R; [exact R|].
    replace (2 * Z.abs n + 1) with (1 + Z.abs n * (2 * 1)) by lia. rewrite Z.div_add by lia. change (1 / (2 * 1)) with 0. lia.
  - pose proof (truncated_quot _ _ _ S) as R. rewrite Z.quot_1_r in R. exact R.
Qed.

(** The fractions decimals and doubles are. *)
Lemma dec_scaled d q : (q == dec_number d)%Q -> dexp d < 0 -> scaled q (coef d) (10 ^ (- dexp d)).
Proof.
  intros E N. split; [apply Z.pow_pos_nonneg; lia|]. rewrite E. unfold dec_number. rewrite Zpower_Qpower by lia.
  rewrite <- Qmult_assoc, <- Qpower_plus by discriminate. replace (dexp d + - dexp d) with 0 by lia. cbn [Qpower]. ring.
Qed.
Lemma dec_integer d q : (q == dec_number d)%Q -> 0 <= dexp d -> (q == inject_Z (coef d * 10 ^ dexp d))%Q.
Proof. intros E N. rewrite E. unfold dec_number. rewrite inject_Z_mult, Zpower_Qpower by lia. reflexivity. Qed.
Lemma double_scaled (s : bool) m e q :
  (q == inject_Z (if s then Z.neg m else Z.pos m) * Qpower (inject_Z 2) e)%Q -> e < 0 ->
  scaled q (cond_Zopp s (Z.pos m)) (2 ^ (- e)).
Proof.
  intros E N. split; [apply Z.pow_pos_nonneg; lia|]. rewrite E, inject_pow2 by lia.
  rewrite <- Qmult_assoc, <- Qpower_plus by discriminate. replace (e + - e) with 0 by lia. cbn [Qpower].
  destruct s; cbn [cond_Zopp]; [change (Z.neg m) with (- Z.pos m)|]; ring.
Qed.
Lemma double_integer (s : bool) m e q :
  (q == inject_Z (if s then Z.neg m else Z.pos m) * Qpower (inject_Z 2) e)%Q -> 0 <= e ->
  (q == inject_Z (cond_Zopp s (Z.pos m * 2 ^ e)))%Q.
Proof.
  intros E N. rewrite E. destruct s; cbn [cond_Zopp]; [change (Z.neg m) with (- Z.pos m)|];
    rewrite ?inject_Z_opp, inject_Z_mult, inject_pow2 by lia; ring.
Qed.

(** ** Evaluation *)

Lemma eval_1 L row f x v t k : Evaluate L row x = Ok v -> ~ null v ->
  (forall a, evaluateFunction L f [a] = let* w := a t in k w) -> Evaluate L row (EFunction f [x]) = k v.
Proof.
  intros X N F. unfold Evaluate. cbn [evaluateAs map]. rewrite F. rewrite (Evaluate_as _ _ _ t _ X N). reflexivity.
Qed.
Lemma eval_2 L row f x y v w t u k : Evaluate L row x = Ok v -> ~ null v -> Evaluate L row y = Ok w -> ~ null w ->
  (forall a b, evaluateFunction L f [a; b] = let* v := a t in let* w := b u in k v w) -> Evaluate L row (EFunction f [x; y]) = k v w.
Proof.
  intros X N Y M F. unfold Evaluate. cbn [evaluateAs map]. rewrite F.
  rewrite (Evaluate_as _ _ _ t _ X N), (Evaluate_as _ _ _ u _ Y M). reflexivity.
Qed.
Lemma eval_3 L row f x y z v w q t u r k : Evaluate L row x = Ok v -> ~ null v -> Evaluate L row y = Ok w -> ~ null w ->
  Evaluate L row z = Ok q -> ~ null q ->
  (forall a b c, evaluateFunction L f [a; b; c] = let* v := a t in let* w := b u in let* q := c r in k v w q) ->
  Evaluate L row (EFunction f [x; y; z]) = k v w q.
Proof.
  intros X N Y M Z O F. unfold Evaluate. cbn [evaluateAs map]. rewrite F.
  rewrite (Evaluate_as _ _ _ t _ X N), (Evaluate_as _ _ _ u _ Y M), (Evaluate_as _ _ _ r _ Z O). reflexivity.
Qed.
(** A NULL keeps its type or takes the one asked for. *)
Lemma Evaluate_null L row e t u : Evaluate L row e = Ok (vNull t) ->
  exists t', evaluateAs L row e u = Ok (vNull t') /\ (t' = t \/ t' = u).
Proof.
  unfold Evaluate. destruct e; cbn [evaluateAs]; intros H;
    try (exists t; split; [exact H|left; reflexivity]).
  - exists u. split; [reflexivity|right; reflexivity].
  - destruct (vtype_eqb (ve_type v) VUndefined).
    + exists u. split; [reflexivity|right; reflexivity].
    + exists t. split; [exact H|left; reflexivity].
Qed.

Lemma stands_type v q : stands_for v q -> numeric (ve_type v) /\ ~ null v.
Proof.
  intros [w n r W E|d r E|f r E].
  - destruct W as [b|w n [n' R|n' R]]; cbn; (split; [unfold numeric; cbn; lia|discriminate]).
  - cbn. split; [unfold numeric; cbn; lia|discriminate].
  - cbn. split; [unfold numeric; cbn; lia|discriminate].
Qed.
Lemma stands_eq v q q' : (q == q')%Q -> stands_for v q -> stands_for v q'.
Proof.
  intros E S. revert q' E. destruct S as [w n r W H|d r H|f r H]; intros q' E.
  - apply (stands_whole w n); [exact W|]. rewrite <- E. exact H.
  - apply stands_decimal. rewrite <- E. exact H.
  - apply stands_double. destruct H as [s r H|s m e r B H]; constructor; auto; rewrite <- E; exact H.
Qed.

Lemma integral_eval (R : Q -> Z -> Prop) fd ff v q :
  (forall q n, (q == inject_Z n)%Q -> R q n) ->
  (forall d q, (q == dec_number d)%Q -> exists n, (inject_Z n == dec_number (fd d))%Q /\ R q n) ->
  (forall f q, double_number f q -> exists n, double_number (ff f) (inject_Z n) /\ R q n) ->
  stands_for v q ->
  exists w n, fn_integral fd ff v = Ok w /\ ve_type w = ve_type v /\ stands_for w (inject_Z n) /\ R q n.
Proof.
  intros RI RD RF S. destruct S as [w n r W E|d r E|f r E].
  - exists w, n. split; [|split; [reflexivity|split; [apply (stands_whole w n); [exact W|reflexivity]|apply RI, E]]].
    destruct W as [b|w n [n' B|n' B]]; reflexivity.
  - destruct (RD d r E) as (n & D & H). exists (vDec (fd d)), n. split; [reflexivity|]. split; [reflexivity|].
    split; [apply stands_decimal, D|exact H].
  - destruct (RF f r E) as (n & D & H). exists (vDouble (ff f)), n. split; [reflexivity|]. split; [reflexivity|].
    split; [apply stands_double, D|exact H].
Qed.

Lemma dec_number_integer n : (inject_Z n == dec_number (Dec n 0))%Q.
Proof. unfold dec_number. cbn [coef dexp Qpower]. ring. Qed.
Lemma dec_integral (R : Q -> Z -> Prop) (g : Z -> Z -> Z) d q :
  (forall q n, (q == inject_Z n)%Q -> R q n) ->
  (forall q N p, scaled q N p -> R q (g N p)) -> (q == dec_number d)%Q ->
  exists n, (inject_Z n == dec_number (if (0 <=? dexp d)%Z then d else Dec (g (coef d) (10 ^ (- dexp d))%Z) 0))%Q /\ R q n.
Proof.
  intros RI RG E. destruct (0 <=? dexp d) eqn:C.
  - exists (coef d * 10 ^ dexp d). pose proof (dec_integer d q E ltac:(lia)) as H. split; [rewrite <- H; exact E|apply RI, H].
  - exists (g (coef d) (10 ^ (- dexp d))). split; [apply dec_number_integer|]. apply RG, dec_scaled; [exact E|lia].
Qed.
Lemma double_integral (R : Q -> Z -> Prop) (g : Z -> Z -> Z) (ff : double -> double) f q :
  (forall q n, (q == inject_Z n)%Q -> R q n) ->
  (forall q N p, scaled q N p -> R q (g N p)) ->
  (forall N p, 0 < p -> Z.abs N < 2 ^ 53 -> 2 <= p -> Z.abs (g N p) < 2 ^ 53) ->
  (forall s, ff (S754_zero s) = S754_zero s) ->
  (forall s m e, ff (S754_finite s m e) =
     if 0 <=? e then S754_finite s m e else d_integral s (g (cond_Zopp s (Z.pos m)) (2 ^ (- e)))) ->
  double_number f q -> exists n, double_number (ff f) (inject_Z n) /\ R q n.
Proof.
  intros RI RG GB F0 FF D. destruct D as [s q E|s m e q B E].
  - exists 0. rewrite F0. split; [constructor; reflexivity|apply RI, E].
  - rewrite FF. destruct (0 <=? e) eqn:C.
    + exists (cond_Zopp s (Z.pos m * 2 ^ e)). pose proof (double_integer s m e q E ltac:(lia)) as H.
      split; [|apply RI, H]. constructor; [exact B|]. rewrite <- H. exact E.
    + exists (g (cond_Zopp s (Z.pos m)) (2 ^ (- e))). split.
      * apply d_integral_number. pose proof (bounded_mantissa m e B).
        assert (2 ^ 1 <= 2 ^ (- e)) by (apply Z.pow_le_mono_r; lia).
        apply GB; [lia| |lia]. destruct s; cbn [cond_Zopp]; lia.
      * apply RG, double_scaled; [exact E|lia].
Qed.

Lemma floor_value v q : stands_for v q ->
  exists w n, fn_floor v = Ok w /\ ve_type w = ve_type v /\ stands_for w (inject_Z n) /\ is_floor q n.
Proof.
  assert (RR : forall q n, (q == inject_Z n)%Q -> is_floor q n) by (intros r n E; destruct (integer_rounds r n E) as (A & B & C & D); assumption).
  apply (integral_eval is_floor).
  - exact RR.
  - intros d r E. exact (dec_integral is_floor Z.div d r (fun r' n E' => RR r' n E') floor_div E).
  - intros f r. apply (double_integral is_floor Z.div d_floor); auto using floor_div.
    + intros N p P A P2. pose proof (Z.div_mod N p ltac:(lia)). pose proof (Z.mod_pos_bound N p P). nia.
Qed.
Lemma ceiling_value v q : stands_for v q ->
  exists w n, fn_ceiling v = Ok w /\ ve_type w = ve_type v /\ stands_for w (inject_Z n) /\ is_ceiling q n.
Proof.
  assert (RR : forall q n, (q == inject_Z n)%Q -> is_ceiling q n) by (intros r n E; destruct (integer_rounds r n E) as (A & B & C & D); assumption).
  apply (integral_eval is_ceiling).
  - exact RR.
  - intros d r E. exact (dec_integral is_ceiling (fun N p => - (- N / p)) d r (fun r' n E' => RR r' n E') ceiling_div E).
  - intros f r. apply (double_integral is_ceiling (fun N p => - (- N / p)) d_ceil); auto using ceiling_div.
    + intros N p P A P2. pose proof (Z.div_mod (- N) p ltac:(lia)). pose proof (Z.mod_pos_bound (- N) p P). nia.
Qed.
Lemma round_value v q : stands_for v q ->
  exists w n, fn_round v = Ok w /\ ve_type w = ve_type v /\ stands_for w (inject_Z n) /\ is_rounded q n.
Proof.
  assert (RR : forall q n, (q == inject_Z n)%Q -> is_rounded q n) by (intros r n E; destruct (integer_rounds r n E) as (A & B & C & D); assumption).
  apply (integral_eval is_rounded).
  - exact RR.
  - intros d r E. exact (dec_integral is_rounded (fun N p => Z.sgn N * ((2 * Z.abs N + p) / (2 * p))) d r (fun r' n E' => RR r' n E') rounded_div E).
  - intros f r. apply (double_integral is_rounded (fun N p => Z.sgn N * ((2 * Z.abs N + p) / (2 * p))) d_round); auto using rounded_div.
    + intros N p P A P2. pose proof (Z.div_mod (2 * Z.abs N + p) (2 * p) ltac:(lia)). pose proof (Z.mod_pos_bound (2 * Z.abs N + p) (2 * p) ltac:(lia)).
      rewrite Z.abs_mul. set (k := (2 * Z.abs N + p) / (2 * p)) in *. assert (0 <= k) by (unfold k; apply Z.div_pos; lia).
      assert (Z.abs (Z.sgn N) <= 1) by lia. assert (k < 2 ^ 53) by nia. nia.
    + intros s m e. cbn [d_round]. destruct (0 <=? e) eqn:C; [reflexivity|]. f_equal. destruct s; cbn [cond_Zopp Z.sgn Z.opp Z.abs].
      * lia.
      * lia.
Qed.

Lemma abs_value v q : stands_for v q -> v <> vInt32 (- 2 ^ 31) -> v <> vInt64 (- 2 ^ 63) ->
  exists w, fn_abs v = Ok w /\ ve_type w = ve_type v /\ stands_for w (Qabs q).
Proof.
  intros S N1 N2. destruct S as [w n r W E|d r E|f r E].
  - destruct W as [b|w n W].
    + exists (vBool b). split; [reflexivity|]. split; [reflexivity|]. apply (stands_whole _ (if b then 1 else 0)); [constructor|].
      rewrite E. destruct b; reflexivity.
    + assert (AB : (Qabs r == inject_Z (Z.abs n))%Q) by (rewrite E; reflexivity).
      destruct W as [n R|n R].
      * exists (vInt32 (Z.abs n)). assert (n <> - 2 ^ 31) by (intros ->; apply N1; reflexivity).
        assert (A : abs32 n = Z.abs n).
        { unfold abs32. destruct (n <? 0) eqn:Q; [|lia]. rewrite i32_id by (unfold is_i32 in *; lia). lia. }
        split; [cbn; rewrite A; reflexivity|]. split; [reflexivity|].
        apply (stands_whole _ (Z.abs n)); [|exact AB]. constructor. constructor. unfold is_i32 in *. lia.
      * exists (vInt64 (Z.abs n)). assert (n <> - 2 ^ 63) by (intros ->; apply N2; reflexivity).
        assert (A : abs64 n = Z.abs n).
        { unfold abs64. destruct (n <? 0) eqn:Q; [|lia]. rewrite i64_id by (unfold is_i64 in *; lia). lia. }
        split; [cbn; rewrite A; reflexivity|]. split; [reflexivity|].
        apply (stands_whole _ (Z.abs n)); [|exact AB]. constructor. constructor. unfold is_i64 in *. lia.
  - exists (vDec (dec_abs d)). split; [reflexivity|]. split; [reflexivity|]. apply stands_decimal. rewrite E. unfold dec_number, dec_abs.
    cbn [coef dexp]. rewrite Qabs_Qmult. rewrite (Qabs_pos (inject_Z 10 ^ dexp d)); [reflexivity|]. apply Qlt_le_weak, ten_pos.
  - exists (vDouble (d_abs f)). split; [reflexivity|]. split; [reflexivity|]. apply stands_double.
    destruct E as [s r E|s m e r B E]; cbn [d_abs SFabs].
    + constructor. rewrite E. reflexivity.
    + constructor; [exact B|]. rewrite E, Qabs_Qmult, (Qabs_pos (inject_Z 2 ^ e)) by (apply Qlt_le_weak, two_pos).
      destruct s; reflexivity.
Qed.
