(** Comparison, arithmetic, logic, shifts and LIKE (C50-C52, C55, C58, C78). *)
From Coq Require Import Lia ZifyBool ZifyNat QArith Qpower.
From Verif Require Import Base BaseProofs GuidModel GuidSpec GuidProofs FormatModel StrModel CalModel NumModel ExprModel ExprSpec ExprProofs ExprPanic StrProofs ExprPanic2.
Close Scope Q_scope.
Open Scope Z_scope.

(** ** Decimals as numbers *)
Lemma ten_nz : ~ (inject_Z 10 == 0)%Q.
Proof. discriminate. Qed.
Lemma coef_at_number d e : e <= dexp d ->
  (dec_number d == inject_Z (coef_at d e) * Qpower (inject_Z 10) e)%Q.
Proof.
  intros H. unfold dec_number, coef_at. rewrite inject_Z_mult, Zpower_Qpower by lia.
  rewrite <- Qmult_assoc, <- Qpower_plus by exact ten_nz.
  replace (dexp d - e + e) with (dexp d) by lia. reflexivity.
Qed.
Lemma ten_pos e : (0 < Qpower (inject_Z 10) e)%Q.
Proof. apply Qpower_0_lt. reflexivity. Qed.
Lemma Qcompare_scale x y p : (0 < p)%Q -> (x * p ?= y * p)%Q = (x ?= y)%Q.
Proof.
  intros P. destruct (Qcompare_spec x y) as [E|E|E].
  - apply Qeq_alt. rewrite E. reflexivity.
  - apply (proj1 (Qlt_alt _ _)). apply Qmult_lt_compat_r; assumption.
  - apply (proj1 (Qgt_alt _ _)). apply Qmult_lt_compat_r; assumption.
Qed.
Lemma inject_compare x y : (inject_Z x ?= inject_Z y)%Q = (x ?= y).
Proof. unfold Qcompare, inject_Z. cbn [Qnum Qden]. rewrite !Z.mul_1_r. reflexivity. Qed.
Lemma dec_cmp_number a b : dec_cmp a b = sign_of (dec_number a ?= dec_number b)%Q.
Proof.
  unfold dec_cmp. cbv zeta. set (e := Z.min (dexp a) (dexp b)).
  rewrite (coef_at_number a e), (coef_at_number b e) by (unfold e; lia).
  rewrite Qcompare_scale by apply ten_pos. rewrite inject_compare.
  destruct (coef_at a e ?= coef_at b e); reflexivity.
Qed.
Lemma dec_of_Z_number n : (dec_number (dec_of_Z n) == inject_Z n)%Q.
Proof. unfold dec_number, dec_of_Z; cbn [coef dexp]. cbn [Qpower]. apply Qmult_1_r. Qed.

Lemma dec_add_number a b : (dec_number (dec_add a b) == dec_number a + dec_number b)%Q.
Proof.
  unfold dec_add. cbv zeta. set (e := Z.min (dexp a) (dexp b)).
  rewrite (coef_at_number a e), (coef_at_number b e) by (unfold e; lia).
  unfold dec_number; cbn [coef dexp]. rewrite inject_Z_plus. ring.
Qed.
Lemma dec_sub_number a b : (dec_number (dec_sub a b) == dec_number a - dec_number b)%Q.
Proof.
  unfold dec_sub. cbv zeta. set (e := Z.min (dexp a) (dexp b)).
  rewrite (coef_at_number a e), (coef_at_number b e) by (unfold e; lia).
  unfold dec_number; cbn [coef dexp]. unfold Z.sub. rewrite inject_Z_plus, inject_Z_opp. ring.
Qed.
Lemma dec_mul_number a b : (dec_number (dec_mul a b) == dec_number a * dec_number b)%Q.
Proof.
  unfold dec_mul, dec_number; cbn [coef dexp]. rewrite inject_Z_mult, Qpower_plus by exact ten_nz. ring.
Qed.

(** ** ASCII text *)
Lemma decode_ascii s : is_ascii s -> decode s = map (fun c => (c, [c])) s.
Proof.
  induction 1 as [|c s C S IH]; [reflexivity|]. cbn [decode map].
  destruct (Z.ltb_spec c 128); [|lia]. rewrite IH. reflexivity.
Qed.
Lemma runes_ascii s : is_ascii s -> runes_of s = s.
Proof.
  intros A. unfold runes_of. rewrite decode_ascii by exact A. rewrite map_map. cbn. apply map_id.
Qed.
Lemma encode_ascii s : is_ascii s -> encode_runes s = s.
Proof.
  unfold encode_runes. induction 1 as [|c s C S IH]; [reflexivity|]. cbn [flat_map]. rewrite IH.
  unfold encode_rune, valid_rune.
  replace (0 <=? c) with true by lia. replace (c <=? 1114111) with true by lia.
  replace (55296 <=? c) with false by lia. cbn [negb andb]. replace (c <? 128) with true by lia. reflexivity.
Qed.
Lemma upper_ascii s : is_ascii s -> is_ascii (map ascii_upper s).
Proof.
  induction 1; cbn; constructor; auto. unfold ascii_upper. destruct (_ && _) eqn:E; lia.
Qed.
Lemma ToUpper_ascii L s : ascii_tables L -> is_ascii s -> ToUpper L s = map ascii_upper s.
Proof.
  intros T A. unfold ToUpper. rewrite runes_ascii by exact A.
  rewrite <- (encode_ascii (map ascii_upper s)) by (apply upper_ascii, A). f_equal.
  apply map_ext_in. intros c Hc. apply T. eapply List.Forall_forall in A; [exact A|exact Hc].
Qed.
Lemma EqualFold_ascii L s t : ascii_tables L -> is_ascii s -> is_ascii t ->
  EqualFold L s t = str_eqb (map ascii_upper s) (map ascii_upper t).
Proof.
  intros T A B. unfold EqualFold. rewrite !runes_ascii by assumption.
  revert t B. induction A as [|c s C A IH]; intros [|d t] B; cbn; auto.
  inversion B; subst. rewrite IH by assumption. f_equal. apply T; assumption.
Qed.

(** ** Comparisons *)
Definition cmp_bool (o : oper) (x : Z) : bool := holds o (x ?= 0).

Lemma lex_eqb s t : str_eqb s t = match lex s t with Eq => true | _ => false end.
Proof.
  pose proof (str_compare_lex s t) as H. unfold str_compare in H.
  destruct (str_eqb s t) eqn:E; destruct (lex s t); cbn in H; try reflexivity; try discriminate.
  destruct (str_ltb s t); discriminate.
Qed.
Lemma lex_opp s t : lex t s = CompOpp (lex s t).
Proof.
  revert t. induction s as [|x s IH]; intros [|y t]; cbn; auto.
  rewrite (Z.compare_antisym x y). destruct (x ?= y); cbn; auto.
Qed.
Lemma str_gtb_lex s t : str_ltb t s = match lex s t with Gt => true | _ => false end.
Proof. rewrite str_ltb_lex, lex_opp. destruct (lex s t); reflexivity. Qed.


Lemma bytes_eqb_lex g h : bytes_eqb g h = match lex g h with Eq => true | _ => false end.
Proof.
  destruct (bytes_eqb g h) eqn:E.
  - apply bytes_eqb_spec in E as ->. rewrite (proj2 (lex_eq h h) eq_refl). reflexivity.
  - destruct (lex g h) eqn:Q; try reflexivity. apply lex_eq in Q as ->. rewrite (proj2 (bytes_eqb_spec h h) eq_refl) in E. discriminate.
Qed.

Ltac result := match goal with |- ?x = Ok (vBool ?q) =>
  match eval cbn -[Compare Equal ToUpper EqualFold str_ltb str_eqb bytes_eqb] in x with Ok (VE _ (Some (GBool ?p))) => change (Ok (vBool p) = Ok (vBool q)); replace p with q; [reflexivity|] end end.
Ltac each o O := unfold relational in O; decompose [or] O; subst o.

Lemma rel_Z (get : ve -> res Z) o L t x y l r : relational o ->
  (t = VInt32 /\ l = vInt32 x /\ r = vInt32 y) \/ (t = VInt64 /\ l = vInt64 x /\ r = vInt64 y) \/
  (t = VDateTime /\ l = vTime x /\ r = vTime y) ->
  applyOperator L o l r = Ok (vBool (holds o (x ?= y))).
Proof.
  intros O [(-> & -> & ->)|[(-> & -> & ->)|(-> & -> & ->)]]; each o O; result;
    destruct (Z.compare_spec x y); cbn [holds]; lia.
Qed.
Lemma rel_32_64 o L x y : relational o -> applyOperator L o (vInt32 x) (vInt64 y) = Ok (vBool (holds o (x ?= y))) /\
  applyOperator L o (vInt64 x) (vInt32 y) = Ok (vBool (holds o (x ?= y))).
Proof. intros O. split; each o O; result; destruct (Z.compare_spec x y); cbn [holds]; lia. Qed.
Lemma rel_bool o L b c : relational o -> applyOperator L o (vBool b) (vBool c) = Ok (vBool (holds o (Bool.compare b c))).
Proof. intros O; each o O; destruct b, c; reflexivity. Qed.

(** Decimals, after conversion of the operands. *)
Lemma rel_dec o L l r x y dl dr : relational o ->
  number_of l x -> number_of r y -> ve_type l = VDecimal \/ ve_type r = VDecimal ->
  Convert L l VDecimal = Ok (vDec dl) -> Convert L r VDecimal = Ok (vDec dr) ->
  applyOperator L o l r = Ok (vBool (holds o (dec_number dl ?= dec_number dr)%Q)).
Proof.
  intros O Nl Nr T Cl Cr.
  assert (D : deriveOperation o (ve_type l) (ve_type r) = Ok VDecimal).
  { destruct Nl as [? ? [? ?|? ?]|?], Nr as [? ? [? ?|? ?]|?]; cbn in T; try (exfalso; intuition discriminate); each o O; reflexivity. }
  assert (Il : IsNull l = false) by (destruct Nl as [? ? [? ?|? ?]|?]; reflexivity).
  assert (Ir : IsNull r = false) by (destruct Nr as [? ? [? ?|? ?]|?]; reflexivity).
  unfold applyOperator. rewrite D. cbn [bind].
  each o O; unfold lessThanOp, lessThanOrEqualOp, greaterThanOp, greaterThanOrEqualOp, equalOp, notEqualOp, withOperands;
    rewrite Il, Ir, Cl, Cr; cbn [bind orb]; unfold on2; cbn [decimalValue ve_value vDec bind]; unfold dec_equal; rewrite dec_cmp_number;
    destruct (dec_number dl ?= dec_number dr)%Q; reflexivity.
Qed.
Lemma convert_number L v x : number_of v x -> exists d, Convert L v VDecimal = Ok (vDec d) /\ (dec_number d == x)%Q.
Proof.
  intros [? ? [n R|n R]|d]; eexists; (split; [reflexivity|]).
  - apply dec_of_Z_number.
  - apply dec_of_Z_number.
  - reflexivity.
Qed.

Lemma relation_number o L l r x y : relational o -> number_of l x -> number_of r y ->
  applyOperator L o l r = Ok (vBool (holds o (x ?= y)%Q)).
Proof.
  intros O Nl Nr.
  destruct (convert_number L l x Nl) as (dl & Cl & El). destruct (convert_number L r y Nr) as (dr & Cr & Er).
  assert (TD : ve_type l = VDecimal \/ ve_type r = VDecimal -> applyOperator L o l r = Ok (vBool (holds o (x ?= y)%Q))).
  { intros T. rewrite (rel_dec o L l r x y dl dr O Nl Nr T Cl Cr), El, Er. reflexivity. }
  destruct Nl as [? ? [? ?|? ?]|?], Nr as [? ? [? ?|? ?]|?]; try (apply TD; cbn; first [left; reflexivity|right; reflexivity]); rewrite inject_compare.
  - apply (rel_Z int32Value o L VInt32); auto.
  - apply rel_32_64, O.
  - apply rel_32_64, O.
  - apply (rel_Z int64Value o L VInt64); auto.
Qed.

Lemma relation_compares o L l r c : ascii_tables L -> relational o -> ~ exact_match o -> compares l r c ->
  applyOperator L o l r = Ok (vBool (holds o c)).
Proof.
  intros AT O NX [a b x y Na Nb|b1 b2|t u|g h G H|s t S T].
  - apply relation_number; assumption.
  - apply rel_bool, O.
  - apply (rel_Z dateTimeValue o L VDateTime); auto.
  - each o O; result; unfold Equal; rewrite ?Compare_lex, ?bytes_eqb_lex by assumption; destruct (lex g h); reflexivity.
  - unfold exact_match in NX. each o O; try (exfalso; apply NX; auto; fail); result;
      rewrite ?EqualFold_ascii, ?ToUpper_ascii by assumption; rewrite ?lex_eqb, ?str_ltb_lex;
      rewrite ?(lex_opp (map ascii_upper s) (map ascii_upper t)); destruct (lex (map ascii_upper s) (map ascii_upper t)); reflexivity.
Qed.
Lemma relation_exactly o L l r c : relational o -> exact_match o -> compares_exactly l r c ->
  applyOperator L o l r = Ok (vBool (holds o c)).
Proof.
  intros O X [a b c0 C N|s t].
  - destruct C as [a b x y Na Nb|b1 b2|t u|g h G H|s t S T].
    + apply relation_number; assumption.
    + apply rel_bool, O.
    + apply (rel_Z dateTimeValue o L VDateTime); auto.
    + destruct X as [-> | ->]; result; unfold Equal; rewrite bytes_eqb_lex; destruct (lex g h); reflexivity.
    + exfalso. apply N. reflexivity.
  - destruct X as [-> | ->]; result; rewrite lex_eqb; destruct (lex s t); reflexivity.
Qed.
Lemma compares_sym a b c : compares a b c -> compares b a (CompOpp c).
Proof.
  intros [p q x y Na Nb|b1 b2|t u|g h G H|s t S T].
  - rewrite Qcompare_antisym. constructor; assumption.
  - replace (CompOpp (Bool.compare b1 b2)) with (Bool.compare b2 b1) by (destruct b1, b2; reflexivity). constructor.
  - rewrite <- Z.compare_antisym. constructor.
  - rewrite <- lex_opp. constructor; assumption.
  - rewrite <- lex_opp. constructor; assumption.
Qed.

(** ** Arithmetic on integers and decimals *)
Lemma i32_id n : is_i32 n -> i32 n = n.
Proof. unfold is_i32, i32. intros. rewrite Z.mod_small; lia. Qed.
Lemma i64_id n : is_i64 n -> i64 n = n.
Proof. unfold is_i64, i64. intros. rewrite Z.mod_small; lia. Qed.
Lemma bit32 x y : is_i32 x -> is_i32 y -> i32 (Z.land x y) = Z.land x y /\ i32 (Z.lor x y) = Z.lor x y /\ i32 (Z.lxor x y) = Z.lxor x y.
Proof.
  unfold is_i32. intros X Y. repeat split; apply i32_id; unfold is_i32; [apply land_range|apply lor_range|apply lxor_range]; lia.
Qed.
Lemma bit64 x y : is_i64 x -> is_i64 y -> i64 (Z.land x y) = Z.land x y /\ i64 (Z.lor x y) = Z.lor x y /\ i64 (Z.lxor x y) = Z.lxor x y.
Proof.
  unfold is_i64. intros X Y. repeat split; apply i64_id; unfold is_i64; [apply land_range|apply lor_range|apply lxor_range]; lia.
Qed.
Lemma integer_arithmetic o L a b x y n : int_of a x -> int_of b y -> int_operation o x y = Some n ->
  applyOperator L o a b = Ok (int_value a b n).
Proof.
  intros A B E. destruct A as [x X|x X], B as [y Y|y Y];
    destruct o; cbn in E; try discriminate E;
    try (destruct (y =? 0) eqn:Q; [discriminate E|]); injection E as <-; cbn -[Z.quot Z.rem i32 i64];
    unfold go_div, go_rem; try rewrite Q; cbn [bind]; try reflexivity; unfold int_value; cbn -[i32 i64].
  all: first [destruct (bit32 x y X Y) as (B1 & B2 & B3)
             |destruct (bit64 x y) as (B1 & B2 & B3); [first [assumption|apply i32_i64; assumption]|first [assumption|apply i32_i64; assumption]|]].
  all: first [rewrite B1; reflexivity|rewrite B2; reflexivity|rewrite B3; reflexivity].
Qed.
Lemma decimal_arithmetic o L a b x y q : number_of a x -> number_of b y -> ve_type a = VDecimal \/ ve_type b = VDecimal ->
  number_operation o x y = Some q -> exists d, applyOperator L o a b = Ok (vDec d) /\ (dec_number d == q)%Q.
Proof.
  intros A B T E. destruct (convert_number L a x A) as (da & Ca & Ea). destruct (convert_number L b y B) as (db & Cb & Eb).
  assert (D : arithmetic o -> deriveOperation o (ve_type a) (ve_type b) = Ok VDecimal).
  { intros O. destruct A as [? ? [? ?|? ?]|?], B as [? ? [? ?|? ?]|?]; cbn in T; try (exfalso; intuition discriminate);
      unfold arithmetic in O; decompose [or] O; subst o; reflexivity. }
  assert (Ia : IsNull a = false) by (destruct A as [? ? [? ?|? ?]|?]; reflexivity).
  assert (Ib : IsNull b = false) by (destruct B as [? ? [? ?|? ?]|?]; reflexivity).
  unfold applyOperator. destruct o; cbn in E; try discriminate E; injection E as <-;
    (rewrite D by (unfold arithmetic; tauto)); cbn [bind]; unfold multiplyOp, addOp, subtractOp, withOperands;
    rewrite Ia, Ib, Ca, Cb; cbn [bind orb]; eexists; (split; [reflexivity|]);
    rewrite ?dec_mul_number, ?dec_add_number, ?dec_sub_number, Ea, Eb; reflexivity.
Qed.

(** ** Shifts *)
Lemma shift_left_32 x n v : is_i32 x -> whole v n -> 0 <= n < 32 -> bitShiftLeftOp (vInt32 x) v = Ok (vInt32 (i32 (x * 2 ^ n))).
Proof.
  intros X W N. assert (E : bitShiftLeftOp (vInt32 x) v =
    let* y := go_shl i64 x (shift_amount 32 n) in NewValueExpression VInt32 (GInt32 (i32 y))).
  { destruct W as [b|? ? [m M|m M]]; [destruct b|..]; reflexivity. }
  rewrite E. unfold shift_amount, go_shl. replace (n <? 0) with false by lia. replace (n <? 0) with false by lia.
  replace (64 <=? n) with false by lia. cbn. f_equal. unfold vInt32. do 3 f_equal.
  unfold i32, i64. apply (f_equal (fun z => z - 2 ^ 31)).
  rewrite <- (Zplus_mod_idemp_l (_ - _)).
  replace ((((x * 2 ^ n + 2 ^ 63) mod 2 ^ 64 - 2 ^ 63) mod 2 ^ 32)) with ((x * 2 ^ n) mod 2 ^ 32); [rewrite Zplus_mod_idemp_l; reflexivity|].
  rewrite Zminus_mod.
  change (2 ^ 64) with (2 ^ 32 * 2 ^ 32). rewrite Z.rem_mul_r by lia.
  rewrite (Z.add_mod (_ mod _)) by lia. rewrite Z.mod_mod, (Z.mul_comm (2 ^ 32) (_ mod _)), Z.mod_mul by lia.
  rewrite Z.add_0_r, Z.mod_mod by lia. rewrite <- Zminus_mod. f_equal. lia.
Qed.
Lemma shift_left_64 x n v : is_i64 x -> whole v n -> 0 <= n < 64 -> bitShiftLeftOp (vInt64 x) v = Ok (vInt64 (i64 (x * 2 ^ n))).
Proof.
  intros X W N. assert (E : bitShiftLeftOp (vInt64 x) v =
    let* y := go_shl u64 (u64 x) (shift_amount 64 n) in NewValueExpression VInt64 (GInt64 (i64 y))).
  { destruct W as [b|? ? [m M|m M]]; [destruct b|..]; reflexivity. }
  rewrite E. unfold shift_amount, go_shl. replace (n <? 0) with false by lia. replace (n <? 0) with false by lia.
  replace (64 <=? n) with false by lia. cbn [bind NewValueExpression]. unfold vInt64. do 4 f_equal.
  unfold u64, i64. apply (f_equal (fun z => z - 2 ^ 63)).
  rewrite Zplus_mod_idemp_l. rewrite <- (Zplus_mod_idemp_l (x mod 2 ^ 64 * 2 ^ n)).
  rewrite Zmult_mod_idemp_l, Zplus_mod_idemp_l. reflexivity.
Qed.
Lemma shift_right_32 x n v : is_i32 x -> whole v n -> 0 <= n < 32 -> bitShiftRightOp (vInt32 x) v = Ok (vInt32 (x / 2 ^ n)).
Proof.
  intros X W N. assert (E : bitShiftRightOp (vInt32 x) v =
    let* y := go_shr x (shift_amount 32 n) in NewValueExpression VInt32 (GInt32 (i32 y))).
  { destruct W as [b|? ? [m M|m M]]; [destruct b|..]; reflexivity. }
  rewrite E. unfold shift_amount, go_shr. replace (n <? 0) with false by lia. replace (n <? 0) with false by lia.
  replace (64 <=? n) with false by lia. cbn [bind NewValueExpression]. unfold vInt32. do 4 f_equal.
  apply i32_id. unfold is_i32 in *. assert (0 < 2 ^ n) by (apply Z.pow_pos_nonneg; lia).
  split; [apply Z.div_le_lower_bound; nia|apply Z.div_lt_upper_bound; nia].
Qed.
(** Int64 operands are shifted as unsigned numbers. *)
Lemma shift_right_64 x n v : is_i64 x -> whole v n -> 0 <= n < 64 ->
  bitShiftRightOp (vInt64 x) v = Ok (vInt64 (i64 (x mod 2 ^ 64 / 2 ^ n))).
Proof.
  intros X W N. assert (E : bitShiftRightOp (vInt64 x) v =
    let* y := go_shr (u64 x) (shift_amount 64 n) in NewValueExpression VInt64 (GInt64 (i64 y))).
  { destruct W as [b|? ? [m M|m M]]; [destruct b|..]; reflexivity. }
  rewrite E. unfold shift_amount, go_shr. replace (n <? 0) with false by lia. replace (n <? 0) with false by lia.
  replace (64 <=? n) with false by lia. reflexivity.
Qed.
Lemma shift_right_64_nonneg x n v : 0 <= x < 2 ^ 63 -> whole v n -> 0 <= n < 64 ->
  bitShiftRightOp (vInt64 x) v = Ok (vInt64 (x / 2 ^ n)).
Proof.
  intros X W N. rewrite (shift_right_64 x n v) by (auto; unfold is_i64; lia).
  rewrite Z.mod_small by lia. rewrite i64_id; [reflexivity|].
  assert (0 < 2 ^ n) by (apply Z.pow_pos_nonneg; lia). unfold is_i64.
  split; [apply Z.le_trans with 0; [lia|apply Z.div_pos; lia]|apply Z.div_lt_upper_bound; nia].
Qed.
(** A negative Int64 shifted right by at least one place comes out non-negative. *)
Lemma shift_right_64_negative x n v : - 2 ^ 63 <= x < 0 -> whole v n -> 1 <= n < 64 ->
  exists y, bitShiftRightOp (vInt64 x) v = Ok (vInt64 y) /\ 0 <= y.
Proof.
  intros X W N. eexists. split; [apply (shift_right_64 x n v); auto; unfold is_i64; lia|].
  assert (M : x mod 2 ^ 64 = x + 2 ^ 64).
  { rewrite <- (Z.mod_add x 1) by lia. rewrite Z.mod_small; lia. }
  rewrite M. assert (2 <= 2 ^ n) by (change 2 with (2 ^ 1) at 1; apply Z.pow_le_mono_r; lia).
  assert (0 <= (x + 2 ^ 64) / 2 ^ n < 2 ^ 63).
  { split; [apply Z.div_pos; lia|apply Z.div_lt_upper_bound; [lia|]]. change (2 ^ 64) with (2 * 2 ^ 63) in *. nia. }
  rewrite i64_id; [lia|]. unfold is_i64; lia.
Qed.
