(** Filter expressions: operators and functions (C46, C48-C59, C78).
    Every statement is about [Evaluate], the exported evaluation of an expression
    tree over a row; [L] stands for the behaviour of other packages. *)
From Coq Require Import Lia ZifyBool ZifyNat QArith String.
From Verif Require Import Base GuidModel GuidSpec FormatModel StrModel CalModel NumModel ExprModel ExprSpec
  ExprProofs ExprPanic StrProofs ExprPanic2 ExprProofs2 ExprProofs3 ExprProofs4 ExprProofs5 ExprProofs6.
Close Scope Q_scope.
Open Scope list_scope.
Open Scope Z_scope.

(** A library for the examples: Unicode restricted to ASCII, constants elsewhere. *)
Definition example_lib : lib := {|
  rune_upper := ascii_upper; rune_lower := ascii_lower; rune_fold := fun a b => ascii_upper a =? ascii_upper b;
  decimal_of_double := fun _ => dec_zero;
  parse_date := fun _ => None; math_pow := fun a _ => a; math_mod := fun a _ => a;
  float_to_int_wide := fun _ => 0; regex_find := fun _ => None; regex_replace_fold := fun s _ _ => s; clock := 0 |}.
Lemma example_tables : ascii_tables example_lib.
Proof. intros r R. split; [reflexivity|]. intros q Q. reflexivity. Qed.
Definition text (s : string) : expr := EValue (vStr (lit s)).
Definition num (n : Z) : expr := EValue (vInt32 n).
Definition truth (b : bool) : expr := EValue (vBool b).
Definition NULL : expr := EValue (vNull VUndefined).

Lemma eval_op L row o l r a b : Evaluate L row l = Ok a -> Evaluate L row r = Ok b ->
  Evaluate L row (EOperator o l r) = applyOperator L o a b.
Proof. unfold Evaluate. cbn [evaluateAs]. intros -> ->. reflexivity. Qed.

(** ** C46: NULL propagation *)

(** Every operator except the NULL tests yields NULL or an error when one of its
    operands is NULL. *)
Theorem C46_operators : forall L row o l r a b,
  Evaluate L row l = Ok a -> Evaluate L row r = Ok b -> null a \/ null b -> ~ null_test o ->
  Evaluate L row (EOperator o l r) = Err \/ exists t, Evaluate L row (EOperator o l r) = Ok (vNull t).
Proof. intros L row o l r a b A B N T. rewrite (eval_op L row o l r a b A B). apply operator_null; assumption. Qed.

(** So do the unary operators and IN with a NULL on the left. *)
Theorem C46_unary_and_in : forall L row e v, Evaluate L row e = Ok v -> null v ->
  (forall u, Evaluate L row (EUnary u e) = Ok (vNull (ve_type v))) /\
  (forall args n m, Evaluate L row (EInList e args n m) = Ok (vNull (ve_type v))).
Proof.
  intros L row e v E N. apply IsNull_spec in N. unfold Evaluate in *. split; intros; cbn [evaluateAs]; rewrite E; cbn [bind].
  - unfold applyUnary. rewrite N. reflexivity.
  - rewrite N. reflexivity.
Qed.

(** The NULL tests answer TRUE or FALSE, and correctly. *)
Theorem C46_null_tests : forall L row l r a b,
  Evaluate L row l = Ok a -> Evaluate L row r = Ok b ->
  (exists c, Evaluate L row (EOperator OIsNull l r) = Ok (vBool c) /\ (c = true <-> null a)) /\
  (exists c, Evaluate L row (EOperator OIsNotNull l r) = Ok (vBool c) /\ (c = true <-> ~ null a)).
Proof. intros L row l r a b A B. rewrite !(eval_op L row _ l r a b A B). apply null_test_result. Qed.

Example C46_nonvacuous :
  Evaluate example_lib None (EOperator OAdd (num 1) NULL) = Ok (vNull VInt32) /\
  Evaluate example_lib None (EOperator OLessThan NULL (text "a")) = Ok (vNull VBoolean) /\
  Evaluate example_lib None (EOperator OIsNull (EOperator OAdd (num 1) NULL) NULL) = Ok (vBool true) /\
  Evaluate example_lib None (EUnary UMinus (EOperator OAdd (num 1) NULL)) = Ok (vNull VInt32).
Proof. repeat split; reflexivity. Qed.

(** ** C48: type soundness *)

(** The values an expression evaluates to have the dynamic type they declare. *)
Theorem C48_well_typed : forall L row e v,
  row_ok row -> literals_ok e -> Evaluate L row e = Ok v -> well_typed v.
Proof.
  intros L row e v R LO E. unfold Evaluate in E.
  destruct (wt_evaluateAs L row R e LO VBoolean ltac:(discriminate) v E) as [W]. split; assumption.
Qed.

(** A panic comes from one of the operations listed in [crashes]. *)
Theorem C48_panics_only_if_partial : forall L row e,
  row_ok row -> literals_ok e -> Evaluate L row e = Panic -> exists x, subexpr x e /\ crashes L row x.
Proof. intros L row e R LO E. exact (evaluate_panic L row R e LO VBoolean E). Qed.

(** For a single operator the condition is exact. *)
Theorem C48_operator_panics_iff : forall L row o l r a b,
  Evaluate L row l = Ok a -> Evaluate L row r = Ok b -> well_typed a -> well_typed b ->
  (Evaluate L row (EOperator o l r) = Panic <->
   (arithmetic o \/ bitwise o \/ relational o) /\ bool_int32 a b \/ division_by_zero o a b).
Proof. intros L row o l r a b A B Wa Wb. rewrite (eval_op L row o l r a b A B). apply operator_panic; assumption. Qed.

(** TRUE + 1 (and 1 = TRUE, and the like) panics. *)
Theorem C48_boolean_with_integer_refuted : forall L row,
  Evaluate L row (EOperator OAdd (truth true) (num 1)) = Panic /\
  Evaluate L row (EOperator OEqual (num 1) (truth true)) = Panic /\
  Evaluate L row (EFunction FMaxOf [truth true; num 1]) = Panic /\
  Evaluate L row (EInList (truth true) [num 1] false false) = Panic.
Proof. intros L row. repeat split; reflexivity. Qed.

Example C48_nonvacuous :
  literals_ok (EOperator OAdd (num 1) (truth true)) /\ row_ok None /\
  Evaluate example_lib None (EOperator OAdd (EFunction FLen [text "abc"]) (num 4)) = Ok (vInt32 7) /\
  crashes example_lib None (EOperator OAdd (num 1) (truth true)).
Proof.
  split; [|split; [|split; [reflexivity|]]].
  - intros v H. left. inversion H; subst; match goal with K : subexpr _ _ |- _ => inversion K; subst end;
      (split; [discriminate|]; intros g G; injection G as <-; cbn; unfold is_i32; lia || exact I).
  - intros get H; discriminate H.
  - eapply crash_mixed; [left; unfold arithmetic; auto|reflexivity|reflexivity|].
    unfold bool_int32, null. cbn. repeat split; try discriminate. auto.
Qed.

(** ** C49: the wider operand type *)

(** Arithmetic on numeric operands: the result has the wider of both types,
    whatever the order of the operands. *)
Theorem C49_result_type : forall L row o l r a b v,
  Evaluate L row l = Ok a -> Evaluate L row r = Ok b ->
  (arithmetic o /\ numeric (ve_type a) /\ numeric (ve_type b)) \/ (bitwise o /\ integer (ve_type a) /\ integer (ve_type b)) ->
  Evaluate L row (EOperator o l r) = Ok v ->
  wider (ve_type a) (ve_type b) (ve_type v) /\
  forall w, Evaluate L row (EOperator o r l) = Ok w -> ve_type w = ve_type v.
Proof.
  intros L row o l r a b v A B H E. rewrite (eval_op L row o l r a b A B) in E. rewrite (eval_op L row o r l b a B A).
  assert (D : exists w, wider (ve_type a) (ve_type b) w /\ deriveOperation o (ve_type a) (ve_type b) = Ok w /\ deriveOperation o (ve_type b) (ve_type a) = Ok w).
  { destruct H as [(O & N1 & N2)|(O & N1 & N2)]; [apply derive_numeric|apply derive_integer]; auto. }
  assert (O : arithmetic o \/ bitwise o) by tauto.
  destruct D as (w & W & D1 & D2). pose proof (operation_type L o a b v O E) as T. rewrite D1 in T. injection T as ->.
  split; [exact W|]. intros w E2. pose proof (operation_type L o b a w O E2) as T. rewrite D2 in T. injection T; auto.
Qed.

(** Comparisons are made at the wider type: NULL operands show it. *)
Theorem C49_comparison_type : forall L row o l r a b v,
  Evaluate L row l = Ok a -> Evaluate L row r = Ok b -> relational o ->
  numeric (ve_type a) -> numeric (ve_type b) ->
  Evaluate L row (EOperator o l r) = Ok v ->
  (null a \/ null b -> null v /\ wider (ve_type a) (ve_type b) (ve_type v)) /\
  (~ null a /\ ~ null b -> ~ null v /\ ve_type v = VBoolean).
Proof.
  intros L row o l r a b v A B O Na Nb E. rewrite (eval_op L row o l r a b A B) in E.
  destruct (relation_type L o a b v O E) as (T1 & T2 & T3).
  destruct (derive_numeric o (ve_type a) (ve_type b) (or_intror O) Na Nb) as (w & W & D & _).
  split.
  - intros N. apply T2 in N. split; [exact N|]. rewrite (T3 N) in D. injection D as ->. exact W.
  - intros [Ha Hb]. assert (N : ~ null v) by (rewrite T2; tauto). auto.
Qed.

(** The bitwise operators and % refuse operands of other types. *)
Theorem C49_bitwise_integers_only : forall L row o l r a b v,
  Evaluate L row l = Ok a -> Evaluate L row r = Ok b -> bitwise o ->
  Evaluate L row (EOperator o l r) = Ok v -> integer (ve_type a) /\ integer (ve_type b).
Proof.
  intros L row o l r a b v A B O E. rewrite (eval_op L row o l r a b A B) in E.
  apply (derive_integer_only o _ _ (ve_type v) O). apply (operation_type L o a b v); auto.
Qed.

Example C49_nonvacuous :
  wider VInt32 VInt64 VInt64 /\ wider VDecimal VInt32 VDecimal /\ ~ wider VInt32 VInt64 VInt32 /\
  Evaluate example_lib None (EOperator OAdd (num 1) (EValue (vInt64 5))) = Ok (vInt64 6).
Proof. unfold wider; cbn. repeat split; auto; lia. Qed.

(** ** C50: comparisons *)

(** For operands that can be compared - integers and decimals of any types,
    Booleans, times, GUIDs, ASCII strings - each operator says what the relation
    between them is. *)
Theorem C50_operators_agree : forall L row o l r a b c,
  ascii_tables L -> Evaluate L row l = Ok a -> Evaluate L row r = Ok b -> compares a b c ->
  relational o -> ~ exact_match o ->
  Evaluate L row (EOperator o l r) = Ok (vBool (holds o c)).
Proof. intros L row o l r a b c T A B C R X. rewrite (eval_op L row o l r a b A B). apply relation_compares; assumption. Qed.

(** The same for the exact-match operators, strings being arbitrary bytes. *)
Theorem C50_exact_operators_agree : forall L row o l r a b c,
  Evaluate L row l = Ok a -> Evaluate L row r = Ok b -> compares_exactly a b c -> exact_match o ->
  Evaluate L row (EOperator o l r) = Ok (vBool (holds o c)).
Proof.
  intros L row o l r a b c A B C X. rewrite (eval_op L row o l r a b A B). apply relation_exactly; auto.
  unfold relational, exact_match in *. tauto.
Qed.

(** So exactly one of <, =, > holds, <=, >= and <> are what they should be, and
    a < b iff b > a. *)
Theorem C50_trichotomy_partial : forall L row l r a b c,
  ascii_tables L -> Evaluate L row l = Ok a -> Evaluate L row r = Ok b -> compares a b c ->
  exists lt eq gt : bool,
    Evaluate L row (EOperator OLessThan l r) = Ok (vBool lt) /\
    Evaluate L row (EOperator OEqual l r) = Ok (vBool eq) /\
    Evaluate L row (EOperator OGreaterThan l r) = Ok (vBool gt) /\
    ([lt; eq; gt] = [true; false; false] \/ [lt; eq; gt] = [false; true; false] \/ [lt; eq; gt] = [false; false; true]).
Proof.
  intros L row l r a b c T A B C.
  assert (H : forall o, relational o -> ~ exact_match o -> Evaluate L row (EOperator o l r) = Ok (vBool (holds o c)))
    by (intros; eapply C50_operators_agree; eassumption).
  exists (holds OLessThan c), (holds OEqual c), (holds OGreaterThan c).
  rewrite !H by (unfold relational, exact_match; intuition discriminate).
  destruct c; cbn; auto 6.
Qed.
Theorem C50_derived_operators_partial : forall L row l r a b c,
  ascii_tables L -> Evaluate L row l = Ok a -> Evaluate L row r = Ok b -> compares a b c ->
  let says o x y v := Evaluate L row (EOperator o x y) = Ok (vBool v) in
  exists lt eq gt : bool,
    says OLessThan l r lt /\ says OEqual l r eq /\ says OGreaterThan l r gt /\
    says OLessThanOrEqual l r (lt || eq) /\ says OGreaterThanOrEqual l r (gt || eq) /\ says ONotEqual l r (negb eq) /\
    says OGreaterThan r l lt /\ says OLessThan r l gt /\ says OEqual r l eq.
Proof.
  intros L row l r a b c T A B C. cbv zeta.
  assert (H : forall o, relational o -> ~ exact_match o -> Evaluate L row (EOperator o l r) = Ok (vBool (holds o c)))
    by (intros; eapply C50_operators_agree; eassumption).
  assert (G : forall o, relational o -> ~ exact_match o -> Evaluate L row (EOperator o r l) = Ok (vBool (holds o (CompOpp c))))
    by (intros; eapply C50_operators_agree; eauto; apply compares_sym; assumption).
  exists (holds OLessThan c), (holds OEqual c), (holds OGreaterThan c).
  rewrite !H, !G by (unfold relational, exact_match; intuition discriminate).
  destruct c; cbn; repeat split; reflexivity.
Qed.

(** Not so for strings in general: the Kelvin sign U+212A equals "k" but is
    also greater. *)
Theorem C50_kelvin_sign_refuted : forall L row,
  rune_fold L 8490 107 = true -> rune_upper L 8490 = 8490 -> rune_upper L 107 = 75 ->
  let kelvin := EValue (vStr [226; 132; 170]) in
  Evaluate L row (EOperator OEqual kelvin (text "k")) = Ok (vBool true) /\
  Evaluate L row (EOperator OGreaterThan kelvin (text "k")) = Ok (vBool true).
Proof.
  intros L row F U1 U2. cbv zeta.
  change (text "k") with (EValue (vStr [107])). split.
  - unfold Evaluate. cbn. unfold EqualFold. cbn. rewrite F. reflexivity.
  - unfold Evaluate. cbn -[ToUpper].
    assert (E1 : ToUpper L [226; 132; 170] = [226; 132; 170])
      by (unfold ToUpper; change (runes_of [226; 132; 170]) with [8490]; cbn [map]; rewrite U1; reflexivity).
    assert (E2 : ToUpper L [107] = [75])
      by (unfold ToUpper; change (runes_of [107]) with [107]; cbn [map]; rewrite U2; reflexivity).
    rewrite E1, E2. reflexivity.
Qed.

Example C50_nonvacuous :
  compares (vInt32 3) (vInt64 5) Lt /\ compares (vStr (lit "ABC")) (vStr (lit "abd")) Lt /\
  compares (vBool true) (vBool false) Gt /\
  Evaluate example_lib None (EOperator OLessThan (text "ABC") (text "abd")) = Ok (vBool true).
Proof.
  split; [|split; [|split; [apply (compares_bool true false)|reflexivity]]].
  - apply (compares_number (vInt32 3) (vInt64 5) (inject_Z 3) (inject_Z 5)); apply number_int; constructor; unfold is_i32, is_i64; lia.
  - apply (compares_str (lit "ABC") (lit "abd")); repeat constructor; lia.
Qed.

(** ** C51: division by zero *)

(** Dividing by an integer zero panics. *)
Theorem C51_division_by_zero_refuted : forall L row l r a b x,
  Evaluate L row l = Ok a -> Evaluate L row r = Ok b -> int_of a x -> int_of b 0 ->
  Evaluate L row (EOperator ODivide l r) = Panic /\ Evaluate L row (EOperator OModulus l r) = Panic.
Proof.
  intros L row l r a b x A B X Y. rewrite !(eval_op L row _ l r a b A B).
  destruct X as [x X|x X]; inversion Y; subst; split; reflexivity.
Qed.
(** Other divisors give the truncated quotient and its remainder. *)
Theorem C51_other_divisors_partial : forall L row l r a b x y,
  Evaluate L row l = Ok a -> Evaluate L row r = Ok b -> int_of a x -> int_of b y -> y <> 0 ->
  Evaluate L row (EOperator ODivide l r) = Ok (int_value a b (Z.quot x y)) /\
  Evaluate L row (EOperator OModulus l r) = Ok (int_value a b (Z.rem x y)).
Proof.
  intros L row l r a b x y A B X Y N. rewrite !(eval_op L row _ l r a b A B).
  split; apply integer_arithmetic with (x := x) (y := y); auto; cbn; destruct (Z.eqb_spec y 0); congruence.
Qed.
Example C51_nonvacuous : int_of (vInt32 7) 7 /\ int_of (vInt64 0) 0 /\
  Evaluate example_lib None (EOperator ODivide (num (-7)) (num 2)) = Ok (vInt32 (-3)).
Proof. repeat split; constructor; unfold is_i32, is_i64; lia. Qed.

(** ** C52: logic *)

Theorem C52_and_or_not : forall L row l r a b,
  Evaluate L row l = Ok (vBool a) -> Evaluate L row r = Ok (vBool b) ->
  Evaluate L row (EOperator OAnd l r) = Ok (vBool (a && b)) /\
  Evaluate L row (EOperator OOr l r) = Ok (vBool (a || b)) /\
  Evaluate L row (EUnary UNot l) = Ok (vBool (negb a)).
Proof.
  intros L row l r a b A B. rewrite !(eval_op L row _ l r _ _ A B).
  split; [reflexivity|split; [reflexivity|]]. unfold Evaluate in *. cbn [evaluateAs]. rewrite A. reflexivity.
Qed.
(** NULL AND x, NULL OR x, x AND NULL and x OR NULL are NULL for x Boolean or
    NULL; NOT NULL is NULL. *)
Theorem C52_null : forall L row o l r a b, o = OAnd \/ o = OOr ->
  Evaluate L row l = Ok a -> Evaluate L row r = Ok b -> ve_type a = VBoolean -> ve_type b = VBoolean -> null a \/ null b ->
  Evaluate L row (EOperator o l r) = Ok (vNull VBoolean).
Proof.
  intros L row o l r a b O A B Ta Tb N. rewrite (eval_op L row o l r a b A B).
  destruct a as [ta va], b as [tb vb]. cbn in Ta, Tb. subst. unfold null in N. cbn in N.
  destruct O as [-> | ->]; unfold applyOperator; cbn [deriveOperation deriveBoolean ve_type vtype_eqb negb orb bind];
    unfold andOp, orOp, logicOp, IsNull; cbn [ve_value]; destruct va, vb; try reflexivity; destruct N; discriminate.
Qed.
Theorem C52_not_null : forall L row l, Evaluate L row l = Ok (vNull VBoolean) ->
  Evaluate L row (EUnary UNot l) = Ok (vNull VBoolean).
Proof. intros L row l A. unfold Evaluate in *. cbn [evaluateAs]. rewrite A. reflexivity. Qed.
(** Operands of other types are refused. *)
Theorem C52_only_booleans : forall L row o l r a b v, o = OAnd \/ o = OOr ->
  Evaluate L row l = Ok a -> Evaluate L row r = Ok b -> Evaluate L row (EOperator o l r) = Ok v ->
  ve_type a = VBoolean /\ ve_type b = VBoolean /\ ve_type v = VBoolean.
Proof.
  intros L row o l r a b v O A B E. rewrite (eval_op L row o l r a b A B) in E.
  destruct a as [ta va], b as [tb vb]. cbn [ve_type].
  assert (T : ta = VBoolean /\ tb = VBoolean).
  { destruct O as [-> | ->]; destruct ta, tb; cbn in E; try discriminate E; auto. }
  destruct T as [-> ->]. split; [reflexivity|split; [reflexivity|]].
  destruct O as [-> | ->]; destruct va as [[]|], vb as [[]|]; cbn in E; try discriminate E; injection E as <-; reflexivity.
Qed.
Example C52_nonvacuous :
  Evaluate example_lib None (EOperator OAnd NULL (truth true)) = Ok (vNull VBoolean) /\
  Evaluate example_lib None (EOperator OOr (truth true) NULL) = Ok (vNull VBoolean) /\
  Evaluate example_lib None NULL = Ok (vNull VBoolean).
Proof. repeat split; reflexivity. Qed.

(** ** C53: IIf *)

(** IIf evaluates its second argument as the condition: what it gives. *)
Theorem C53_what_iif_does_partial : forall L row c a b va,
  Evaluate L row a = Ok va ->
  (va = vBool true -> Evaluate L row (EFunction FIIf [c; a; b]) = Ok va) /\
  (va = vBool false \/ va = vNull VBoolean -> Evaluate L row (EFunction FIIf [c; a; b]) = Evaluate L row b) /\
  (ve_type va <> VBoolean -> Evaluate L row (EFunction FIIf [c; a; b]) = Err).
Proof.
  intros L row c a b va A. unfold Evaluate in *. cbn [evaluateAs evaluateFunction map]. rewrite A. cbn [bind]. unfold fn_iif.
  split; [intros ->; cbn; exact A|split; [intros [-> | ->]; reflexivity|]].
  intros N. destruct (ve_type va); try reflexivity; congruence.
Qed.
Theorem C53_wrong_branch_refuted : forall L row,
  Evaluate L row (EFunction FIIf [truth true; truth false; truth true]) = Ok (vBool true) /\
  Evaluate L row (EFunction FIIf [truth false; truth true; truth false]) = Ok (vBool true) /\
  Evaluate L row (EFunction FIIf [truth true; num 1; num 2]) = Err.
Proof. intros L row. repeat split; reflexivity. Qed.

(** ** C54: Power *)

(** The exponent is replaced by the base. *)
Theorem C54_exponent_ignored_refuted : forall L row x y y' b e e',
  Evaluate L row x = Ok (vInt32 b) -> Evaluate L row y = Ok (vInt32 e) -> Evaluate L row y' = Ok (vInt32 e') ->
  Evaluate L row (EFunction FPower [x; y]) = Evaluate L row (EFunction FPower [x; y']).
Proof.
  intros L row x y y' b e e' X Y Y'. unfold Evaluate in *. cbn [evaluateAs evaluateFunction map].
  pose proof (Evaluate_as L row x VDouble _ X ltac:(discriminate)) as X'.
  pose proof (Evaluate_as L row y VInt32 _ Y ltac:(discriminate)) as Y1.
  pose proof (Evaluate_as L row y' VInt32 _ Y' ltac:(discriminate)) as Y2.
  rewrite X', Y1, Y2. reflexivity.
Qed.
(** With math.Pow(2, 2) = 4, Power(2, 3) is 4. *)
Theorem C54_power_2_3_refuted : forall L row, math_pow L (d_of_Z 2) (d_of_Z 2) = d_of_Z 4 ->
  Evaluate L row (EFunction FPower [num 2; num 3]) = Ok (vInt32 4).
Proof.
  intros L row P. unfold Evaluate. cbn [evaluateAs evaluateFunction map num vtype_eqb ve_type vInt32 bind].
  unfold fn_power. cbn -[math_pow d_of_Z]. rewrite P. reflexivity.
Qed.
(** When the exponent equals the base the result is the library's power. *)
Theorem C54_power_partial : forall L row x y b,
  Evaluate L row x = Ok (vDouble b) -> Evaluate L row y = Ok (vDouble b) ->
  Evaluate L row (EFunction FPower [x; y]) = Ok (vDouble (math_pow L b b)).
Proof.
  intros L row x y b X Y. unfold Evaluate in *. cbn [evaluateAs evaluateFunction map].
  rewrite (Evaluate_as L row x VDouble _ X ltac:(discriminate)), (Evaluate_as L row y VInt32 _ Y ltac:(discriminate)). reflexivity.
Qed.

(** ** C55: LIKE *)

(** With a wildcard at the start or the end of the pattern, LIKE (exact case)
    is true exactly on the texts that match. *)
Theorem C55_like_exact_partial : forall L row l r x p lead core trail,
  Evaluate L row l = Ok (vStr x) -> Evaluate L row r = Ok (vStr p) -> pattern p lead core trail ->
  lead = true \/ trail = true ->
  exists b, Evaluate L row (EOperator OLikeExactMatch l r) = Ok (vBool b) /\
    Evaluate L row (EOperator ONotLikeExactMatch l r) = Ok (vBool (negb b)) /\
    (b = true <-> like x lead core trail).
Proof.
  intros L row l r x p lead core trail A B P W. rewrite !(eval_op L row _ l r _ _ A B). unfold applyOperator. cbn [deriveOperation bind].
  pose proof (likeOp_pattern L x p lead core trail true P) as E. cbv beta iota in E.
  eexists. split; [exact E|]. split; [apply notLike_negates, E|]. apply like_text_exact, W.
Qed.
(** Without regard to case, for ASCII texts. *)
Theorem C55_like_partial : forall L row l r x p lead core trail,
  ascii_tables L -> Evaluate L row l = Ok (vStr x) -> Evaluate L row r = Ok (vStr p) -> pattern p lead core trail ->
  is_ascii x -> is_ascii core -> lead = true \/ trail = true ->
  exists b, Evaluate L row (EOperator OLike l r) = Ok (vBool b) /\
    Evaluate L row (EOperator ONotLike l r) = Ok (vBool (negb b)) /\
    (b = true <-> like (map ascii_upper x) lead (map ascii_upper core) trail).
Proof.
  intros L row l r x p lead core trail T A B P X C W. rewrite !(eval_op L row _ l r _ _ A B). unfold applyOperator. cbn [deriveOperation bind].
  pose proof (likeOp_pattern L x p lead core trail false P) as E. cbv beta iota in E.
  eexists. split; [exact E|]. split; [apply notLike_negates, E|]. rewrite like_text_fold by assumption. apply like_text_exact, W.
Qed.
(** A pattern without wildcard matches no text, not even itself; the empty
    pattern matches everything. *)
Theorem C55_no_wildcard_refuted : forall L row l r x p,
  Evaluate L row l = Ok (vStr x) -> Evaluate L row r = Ok (vStr p) -> pattern p false p false -> p <> [] ->
  Evaluate L row (EOperator OLike l r) = Ok (vBool false) /\
  Evaluate L row (EOperator OLikeExactMatch l r) = Ok (vBool false).
Proof.
  intros L row l r x p A B P N. rewrite !(eval_op L row _ l r _ _ A B). unfold applyOperator. cbn [deriveOperation bind].
  rewrite !(likeOp_pattern L x p false p false _ P). unfold like_text. destruct p; [congruence|]. split; reflexivity.
Qed.
Theorem C55_empty_pattern_refuted : forall L row l r x,
  Evaluate L row l = Ok (vStr x) -> Evaluate L row r = Ok (vStr []) ->
  Evaluate L row (EOperator OLike l r) = Ok (vBool true).
Proof.
  intros L row l r x A B. rewrite (eval_op L row _ l r _ _ A B). unfold applyOperator. cbn [deriveOperation bind].
  apply (likeOp_pattern L x [] false [] false false).
  apply (pattern_intro [] [] []); repeat constructor.
Qed.
Example C55_nonvacuous :
  pattern (lit "*bc%") true (lit "bc") true /\ pattern (lit "abc") false (lit "abc") false /\
  Evaluate example_lib None (EOperator OLike (text "aBCd") (text "*bc%")) = Ok (vBool true) /\
  Evaluate example_lib None (EOperator OLike (text "abc") (text "abc")) = Ok (vBool false).
Proof.
  change (lit "*bc%") with [42; 98; 99; 37]. change (lit "abc") with [97; 98; 99]. change (lit "bc") with [98; 99].
  split; [|split; [|split; reflexivity]].
  - apply (pattern_intro [42] [98; 99] [37]); try (cbn; lia); unfold wildcard; repeat (constructor; [lia|]); constructor.
  - apply (pattern_intro [] [97; 98; 99] []); try (cbn; lia); unfold wildcard; repeat (constructor; [lia|]); constructor.
Qed.

(** ** C56: IN *)

(** IN is the disjunction of the equalities, NOT IN its negation; also with
    exact matching. *)
Theorem C56_in_is_disjunction : forall L row e args (exact : bool) v,
  let eq := if exact then OEqualExactMatch else OEqual in
  Evaluate L row e = Ok v -> ~ null v ->
  (forall a, In a args -> exists b, Evaluate L row (EOperator eq e a) = Ok (vBool b)) ->
  exists b, Evaluate L row (any_equal eq e args) = Ok (vBool b) /\
    Evaluate L row (EInList e args false exact) = Ok (vBool b) /\
    Evaluate L row (EInList e args true exact) = Ok (vBool (negb b)).
Proof.
  intros L row e args exact v eq E N H. destruct (in_any_equal L row e args exact v E H) as (b & B1 & B2 & B3).
  exists b. split; [exact B1|].
  assert (NN : IsNull v = false) by (apply not_true_is_false; intros K; apply IsNull_spec in K; contradiction).
  unfold Evaluate in E |- *. cbn [evaluateAs]. rewrite E. cbn [bind]. rewrite NN. split; [exact B2|exact B3].
Qed.
Example C56_nonvacuous :
  Evaluate example_lib None (EInList (num 2) [num 1; EValue (vInt64 2)] false false) = Ok (vBool true) /\
  Evaluate example_lib None (any_equal OEqual (num 2) [num 1; EValue (vInt64 2)]) = Ok (vBool true) /\
  Evaluate example_lib None (EInList (text "x") [text "y"; text "X"] true true) = Ok (vBool true).
Proof. repeat split; reflexivity. Qed.

(** ** C57: Coalesce, MaxOf, MinOf *)

(** The first non-NULL argument, or the first one if all are NULL. *)
Theorem C57_coalesce : forall L row args vs, (2 <= length args)%nat ->
  Forall2 (fun a v => Evaluate L row a = Ok v) args vs ->
  exists v, Evaluate L row (EFunction FCoalesce args) = Ok v /\
    ((exists before after, vs = before ++ v :: after /\ Forall null before /\ ~ null v) \/
     (Forall null vs /\ exists rest, vs = v :: rest)).
Proof.
  intros L row args vs N F. unfold Evaluate. cbn [evaluateAs evaluateFunction].
  rewrite map_length. replace (length args <? 2)%nat with false by lia.
  change (map (fun a t => evaluateAs L row a t) args) with (map (thunk L row) args).
  rewrite (fn_coalesce_first L row args vs) by (auto; intros ->; cbn in N; lia).
  eexists. split; [reflexivity|].
  assert (G : match find (fun w => negb (IsNull w)) vs with
              | Some v => exists before after, vs = before ++ v :: after /\ Forall null before /\ ~ null v
              | None => Forall null vs end).
  { clear. induction vs as [|v vs IH]; [constructor|]. cbn [find]. destruct (IsNull v) eqn:Q; cbn [negb].
    - apply IsNull_spec in Q. destruct (find _ vs); [|constructor; assumption].
      destruct IH as (b & a & -> & B & NV). exists (v :: b), a. repeat split; auto.
    - exists [], vs. repeat split; auto. intros K. apply IsNull_spec in K. congruence. }
  destruct (find _ vs) as [w|]; [left; exact G|right]. split; [exact G|].
  destruct vs as [|w rest]; [inversion F; subst; cbn in N; lia|]. exists rest. reflexivity.
Qed.

(** MaxOf and MinOf over integers and decimals of any types, NULLs among them:
    one of the arguments, and no argument is larger (smaller); NULL only when
    all are. *)
Theorem C57_max_min : forall L row args vs, (2 <= length args)%nat ->
  Forall2 (fun a v => Evaluate L row a = Ok v) args vs ->
  Forall (fun v => (null v /\ numeric (ve_type v)) \/ exists x, number_of v x) vs ->
  (exists v, Evaluate L row (EFunction FMaxOf args) = Ok v /\ In v vs /\
     forall w y, In w vs -> number_of w y -> exists x, number_of v x /\ (y <= x)%Q) /\
  (exists v, Evaluate L row (EFunction FMinOf args) = Ok v /\ In v vs /\
     forall w y, In w vs -> number_of w y -> exists x, number_of v x /\ (x <= y)%Q).
Proof.
  intros L row args vs N F U.
  assert (G : forall mx, exists v, Evaluate L row (EFunction (if mx : bool then FMaxOf else FMinOf) args) = Ok v /\ In v vs /\
     forall w y, In w vs -> number_of w y -> exists x, number_of v x /\ better mx x y).
  { intros mx. destruct F as [|a v args vs A F]; [cbn in N; lia|]. inversion U; subst.
    destruct (extreme_spec L row mx args vs v F) as (r & R1 & R2 & R3 & R4); auto.
    exists r. split; [|auto]. unfold Evaluate in *. cbn [evaluateAs]. destruct mx; cbn [evaluateFunction map]; cbn [length] in *;
      rewrite map_length; replace (S (length args) <? 2)%nat with false by lia; cbn [fn_extreme]; rewrite A; exact R1. }
  split; [exact (G true)|exact (G false)].
Qed.
Example C57_nonvacuous :
  Evaluate example_lib None (EFunction FMaxOf [num 3; NULL; EValue (vInt64 9); num 4]) = Ok (vInt64 9) /\
  Evaluate example_lib None (EFunction FMinOf [NULL; num 3; EValue (vInt64 9)]) = Ok (vInt32 3) /\
  Evaluate example_lib None (EFunction FCoalesce [NULL; text "a"; num 1]) = Ok (vStr (lit "a")).
Proof. repeat split; reflexivity. Qed.

(** ** C58: shifts *)

Theorem C58_shift_left : forall L row l r x a n, Evaluate L row r = Ok a -> whole a n ->
  (Evaluate L row l = Ok (vInt32 x) -> is_i32 x -> 0 <= n < 32 ->
   Evaluate L row (EOperator OBitShiftLeft l r) = Ok (vInt32 (i32 (x * 2 ^ n)))) /\
  (Evaluate L row l = Ok (vInt64 x) -> is_i64 x -> 0 <= n < 64 ->
   Evaluate L row (EOperator OBitShiftLeft l r) = Ok (vInt64 (i64 (x * 2 ^ n)))).
Proof.
  intros L row l r x a n A W. split; intros X R N; rewrite (eval_op L row _ l r _ _ X A);
    unfold applyOperator; cbn [deriveOperation bind]; [apply shift_left_32|apply shift_left_64]; assumption.
Qed.
Theorem C58_shift_right_partial : forall L row l r x a n, Evaluate L row r = Ok a -> whole a n ->
  (Evaluate L row l = Ok (vInt32 x) -> is_i32 x -> 0 <= n < 32 ->
   Evaluate L row (EOperator OBitShiftRight l r) = Ok (vInt32 (x / 2 ^ n))) /\
  (Evaluate L row l = Ok (vInt64 x) -> 0 <= x < 2 ^ 63 -> 0 <= n < 64 ->
   Evaluate L row (EOperator OBitShiftRight l r) = Ok (vInt64 (x / 2 ^ n))).
Proof.
  intros L row l r x a n A W. split; intros X R N; rewrite (eval_op L row _ l r _ _ X A);
    unfold applyOperator; cbn [deriveOperation bind]; [apply shift_right_32|apply shift_right_64_nonneg]; assumption.
Qed.
(** A negative Int64 shifted right becomes non-negative: the sign is lost. *)
Theorem C58_int64_sign_refuted : forall L row l r x a n, Evaluate L row r = Ok a -> whole a n ->
  Evaluate L row l = Ok (vInt64 x) -> - 2 ^ 63 <= x < 0 -> 1 <= n < 64 ->
  exists y, Evaluate L row (EOperator OBitShiftRight l r) = Ok (vInt64 y) /\ 0 <= y.
Proof.
  intros L row l r x a n A W X R N. rewrite (eval_op L row _ l r _ _ X A). unfold applyOperator. cbn [deriveOperation bind].
  apply shift_right_64_negative with (n := n); assumption.
Qed.
Example C58_nonvacuous :
  Evaluate example_lib None (EOperator OBitShiftRight (num (-8)) (num 1)) = Ok (vInt32 (-4)) /\
  Evaluate example_lib None (EOperator OBitShiftRight (EValue (vInt64 (-8))) (num 1)) = Ok (vInt64 9223372036854775804) /\
  Evaluate example_lib None (EOperator OBitShiftLeft (num 1) (num 31)) = Ok (vInt32 (- 2 ^ 31)).
Proof. repeat split; reflexivity. Qed.

(** ** C59: string functions *)

Theorem C59_contains_starts_ends : forall L row args s t, ascii_tables L -> texts L row args s t ->
  (exists b, Evaluate L row (EFunction FContains args) = Ok (vBool b) /\ (b = true <-> exists u v, s = u ++ t ++ v)) /\
  (exists b, Evaluate L row (EFunction FStartsWith args) = Ok (vBool b) /\ (b = true <-> exists v, s = t ++ v)) /\
  (exists b, Evaluate L row (EFunction FEndsWith args) = Ok (vBool b) /\ (b = true <-> exists u, s = u ++ t)).
Proof.
  intros L row args s t AT T. split; [|split].
  - exists (Contains s t). split; [apply string_test_eval; auto|apply Contains_spec].
  - exists (HasPrefix s t). split; [apply string_test_eval; auto|apply HasPrefix_spec].
  - exists (HasSuffix s t). split; [apply string_test_eval; auto|apply HasSuffix_spec].
Qed.
(** IndexOf is the first position at which the text occurs and LastIndexOf the
    last one, -1 when there is none. *)
Theorem C59_index_of : forall L row args s t, ascii_tables L -> texts L row args s t -> len s < 2 ^ 31 ->
  (exists i, Evaluate L row (EFunction FIndexOf args) = Ok (vInt32 i) /\
    ((i = -1 /\ forall j, ~ occurs_at s t j) \/ (occurs_at s t i /\ forall j, occurs_at s t j -> i <= j))) /\
  (exists i, Evaluate L row (EFunction FLastIndexOf args) = Ok (vInt32 i) /\
    ((i = -1 /\ forall j, ~ occurs_at s t j) \/ (occurs_at s t i /\ forall j, occurs_at s t j -> j <= i))).
Proof. intros. split; [apply index_eval|apply last_index_eval]; assumption. Qed.
(** StrCount is the largest number of occurrences that do not overlap. *)
Theorem C59_str_count : forall L row args s t, ascii_tables L -> texts L row args s t -> len s < 2 ^ 31 ->
  exists k, Evaluate L row (EFunction FStrCount args) = Ok (vInt32 k) /\
    (t = [] -> k = 0) /\
    (t <> [] -> disjoint_occurrences s t k /\ forall j, disjoint_occurrences s t j -> j <= k).
Proof. exact strcount_eval. Qed.
(** NthIndexOf is the position of the n-th occurrence (from 0), -1 when there
    are fewer, for a non-empty text. *)
Theorem C59_nth_index_of_partial : forall L row x y z s t v i ps,
  Evaluate L row x = Ok (vStr s) -> Evaluate L row y = Ok (vStr t) -> Evaluate L row z = Ok v -> whole v i ->
  t <> [] -> len s < 2 ^ 31 -> occurrences s t ps ->
  Evaluate L row (EFunction FNthIndexOf [x; y; z]) =
    Ok (vInt32 (if (0 <=? i) && (i <? len ps) then nth (Z.to_nat i) ps 0 else -1)).
Proof. exact nth_index_eval. Qed.
Theorem C59_len : forall L row x s, Evaluate L row x = Ok (vStr s) -> len s < 2 ^ 31 ->
  Evaluate L row (EFunction FLen [x]) = Ok (vInt32 (len s)).
Proof. exact len_eval. Qed.
(** SubStr(s, i, n) is the text of at most n bytes from position i; empty when i
    is no position of s. *)
Theorem C59_substr_partial : forall L row x y z s a b i n,
  Evaluate L row x = Ok (vStr s) -> Evaluate L row y = Ok a -> Evaluate L row z = Ok b -> whole a i -> whole b n ->
  i + n < 2 ^ 63 ->
  exists r, Evaluate L row (EFunction FSubStr [x; y; z]) = Ok (vStr r) /\
    (~ 0 <= i < len s -> r = []) /\
    (0 <= i < len s -> exists u v, s = u ++ r ++ v /\ len u = i /\
       (n <= 0 -> r = []) /\ (0 < n -> (len r = n \/ (len r < n /\ v = [])))).
Proof.
  intros L row x y z s a b i n X Y Z A B N. eexists. split; [apply (substr_3_eval L row x y z s a b i n); assumption|].
  split; [intros H; replace ((0 <=? i) && (i <? len s)) with false by lia; reflexivity|].
  intros H. replace ((0 <=? i) && (i <? len s)) with true by lia.
  exists (firstn (Z.to_nat i) s), (skipn (Z.to_nat n) (skipn (Z.to_nat i) s)).
  rewrite !firstn_skipn. split; [reflexivity|].
  split; [unfold len in *; rewrite firstn_length; lia|]. split.
  - intros M. replace (Z.to_nat n) with 0%nat by lia. reflexivity.
  - intros M. assert (LF : length (firstn (Z.to_nat n) (skipn (Z.to_nat i) s)) = Nat.min (Z.to_nat n) (length s - Z.to_nat i))
      by (rewrite firstn_length, skipn_length; reflexivity).
    unfold len in *. destruct (Nat.le_gt_cases (Z.to_nat n) (length s - Z.to_nat i)).
    + left. rewrite LF. lia.
    + right. split; [rewrite LF; lia|]. apply skipn_all2. rewrite skipn_length. lia.
Qed.
Theorem C59_substr_to_end : forall L row x y s a i,
  Evaluate L row x = Ok (vStr s) -> Evaluate L row y = Ok a -> whole a i ->
  exists r, Evaluate L row (EFunction FSubStr [x; y]) = Ok (vStr r) /\
    (~ 0 <= i < len s -> r = []) /\ (0 <= i < len s -> exists u, s = u ++ r /\ len u = i).
Proof.
  intros L row x y s a i X Y A. eexists. split; [apply (substr_2_eval L row x y s a i); assumption|]. split; intros H.
  - replace ((0 <=? i) && (i <? len s)) with false by lia. reflexivity.
  - replace ((0 <=? i) && (i <? len s)) with true by lia. exists (firstn (Z.to_nat i) s).
    rewrite firstn_skipn. split; [reflexivity|]. unfold len in *. rewrite firstn_length. lia.
Qed.
(** A length that takes index + length beyond 2^63 panics. *)
Theorem C59_substr_overflow_refuted : forall L row x y z s a b i n,
  Evaluate L row x = Ok (vStr s) -> Evaluate L row y = Ok a -> Evaluate L row z = Ok b ->
  whole a i -> whole b n -> 0 <= i < len s -> 2 ^ 63 <= i + n ->
  Evaluate L row (EFunction FSubStr [x; y; z]) = Panic.
Proof. exact substr_overflow. Qed.
(** Reverse reverses the characters of a UTF-8 text; twice gives the text back. *)
Theorem C59_reverse : forall L row x rs,
  Evaluate L row x = Ok (vStr (encode_runes rs)) -> Forall (fun r => valid_rune r = true) rs ->
  Evaluate L row (EFunction FReverse [x]) = Ok (vStr (encode_runes (rev rs))) /\
  Evaluate L row (EFunction FReverse [EFunction FReverse [x]]) = Ok (vStr (encode_runes rs)).
Proof.
  intros L row x rs X V. split; [apply reverse_eval; assumption|].
  apply reverse_twice; [exact X|]. exists rs. auto.
Qed.
(** Split returns the i-th of the pieces the delimiter separates - provided the
    text contains the delimiter, does not start with it, and every occurrence of
    the delimiter separates two pieces (no two overlap). *)
Theorem C59_split_partial : forall L row x y z s d v i ps pieces,
  Evaluate L row x = Ok (vStr s) -> Evaluate L row y = Ok (vStr d) -> Evaluate L row z = Ok v -> whole v i ->
  d <> [] -> len s < 2 ^ 31 -> occurrences s d ps -> s = joined d pieces -> len pieces = len ps + 1 ->
  (2 <= length pieces)%nat -> nth 0 pieces [] <> [] ->
  Evaluate L row (EFunction FSplit [x; y; z]) =
    Ok (vStr (if (0 <=? i) && (i <? len pieces) then nth (Z.to_nat i) pieces [] else [])).
Proof. exact split_eval. Qed.
Theorem C59_split_refuted : forall L row,
  Evaluate L row (EFunction FSplit [text "abc"; text ","; num 0]) = Ok (vStr []) /\
  Evaluate L row (EFunction FSplit [text ",a"; text ","; num 1]) = Ok (vStr []) /\
  Evaluate L row (EFunction FSplit [text "aXXXb"; text "XX"; num 1]) = Panic.
Proof. intros L row. repeat split; reflexivity. Qed.
Theorem C59_nth_index_of_empty_refuted : forall L row,
  Evaluate L row (EFunction FNthIndexOf [text ""; text ""; num 0]) = Panic.
Proof. intros L row. reflexivity. Qed.
Example C59_nonvacuous :
  texts example_lib None [text "aBa"; text "BA"; truth true] (lit "ABA") (lit "BA") /\
  Evaluate example_lib None (EFunction FIndexOf [text "aBa"; text "BA"; truth true]) = Ok (vInt32 1) /\
  Evaluate example_lib None (EFunction FStrCount [text "aaaaa"; text "aa"]) = Ok (vInt32 2) /\
  Evaluate example_lib None (EFunction FNthIndexOf [text "aaaaa"; text "aa"; num 3]) = Ok (vInt32 3) /\
  Evaluate example_lib None (EFunction FSubStr [text "abcdef"; num 2; num 3]) = Ok (vStr (lit "cde")) /\
  joined (lit ", ") [lit "a"; lit ""; lit "bc"] = lit "a, , bc" /\
  Evaluate example_lib None (EFunction FSplit [text "a, , bc"; text ", "; num 2]) = Ok (vStr (lit "bc")).
Proof.
  split; [|repeat split; reflexivity].
  apply (texts_caseless example_lib None (text "aBa") (text "BA") (truth true) (lit "aBa") (lit "BA"));
    try reflexivity; repeat constructor; lia.
Qed.

(** ** C78: arithmetic values *)

(** Integer operands: the exact result, wrapped to the wider of both widths. *)
Theorem C78_integers : forall L row o l r a b x y n,
  Evaluate L row l = Ok a -> Evaluate L row r = Ok b -> int_of a x -> int_of b y -> int_operation o x y = Some n ->
  Evaluate L row (EOperator o l r) = Ok (int_value a b n).
Proof. intros L row o l r a b x y n A B X Y O. rewrite (eval_op L row o l r a b A B). eapply integer_arithmetic; eassumption. Qed.
(** Decimals, alone or with integers: sums, differences and products are exact. *)
Theorem C78_decimals : forall L row o l r a b x y q,
  Evaluate L row l = Ok a -> Evaluate L row r = Ok b -> number_of a x -> number_of b y ->
  ve_type a = VDecimal \/ ve_type b = VDecimal -> number_operation o x y = Some q ->
  exists d, Evaluate L row (EOperator o l r) = Ok (vDec d) /\ (dec_number d == q)%Q.
Proof. intros L row o l r a b x y q A B X Y T O. rewrite (eval_op L row o l r a b A B). eapply decimal_arithmetic; eassumption. Qed.
Example C78_nonvacuous :
  Evaluate example_lib None (EOperator OMultiply (num 65536) (num 65536)) = Ok (vInt32 0) /\
  Evaluate example_lib None (EOperator OMultiply (num 65536) (EValue (vInt64 65536))) = Ok (vInt64 4294967296) /\
  exists d, Evaluate example_lib None (EOperator OAdd (EValue (vDec (Dec 15 (-1)))) (num 2)) = Ok (vDec d) /\ (dec_number d == 7 # 2)%Q.
Proof. split; [reflexivity|split; [reflexivity|]]. eexists. split; reflexivity. Qed.

Print Assumptions C46_operators.
Print Assumptions C46_unary_and_in.
Print Assumptions C46_null_tests.
Print Assumptions C48_well_typed.
Print Assumptions C48_panics_only_if_partial.
Print Assumptions C48_operator_panics_iff.
Print Assumptions C48_boolean_with_integer_refuted.
Print Assumptions C49_result_type.
Print Assumptions C49_comparison_type.
Print Assumptions C49_bitwise_integers_only.
Print Assumptions C50_operators_agree.
Print Assumptions C50_exact_operators_agree.
Print Assumptions C50_trichotomy_partial.
Print Assumptions C50_derived_operators_partial.
Print Assumptions C50_kelvin_sign_refuted.
Print Assumptions C51_division_by_zero_refuted.
Print Assumptions C51_other_divisors_partial.
Print Assumptions C52_and_or_not.
Print Assumptions C52_null.
Print Assumptions C52_not_null.
Print Assumptions C52_only_booleans.
Print Assumptions C53_what_iif_does_partial.
Print Assumptions C53_wrong_branch_refuted.
Print Assumptions C54_exponent_ignored_refuted.
Print Assumptions C54_power_2_3_refuted.
Print Assumptions C54_power_partial.
Print Assumptions C55_like_exact_partial.
Print Assumptions C55_like_partial.
Print Assumptions C55_no_wildcard_refuted.
Print Assumptions C55_empty_pattern_refuted.
Print Assumptions C56_in_is_disjunction.
Print Assumptions C57_coalesce.
Print Assumptions C57_max_min.
Print Assumptions C58_shift_left.
Print Assumptions C58_shift_right_partial.
Print Assumptions C58_int64_sign_refuted.
Print Assumptions C59_contains_starts_ends.
Print Assumptions C59_index_of.
Print Assumptions C59_str_count.
Print Assumptions C59_nth_index_of_partial.
Print Assumptions C59_len.
Print Assumptions C59_substr_partial.
Print Assumptions C59_substr_to_end.
Print Assumptions C59_substr_overflow_refuted.
Print Assumptions C59_reverse.
Print Assumptions C59_split_partial.
Print Assumptions C59_split_refuted.
Print Assumptions C59_nth_index_of_empty_refuted.
Print Assumptions C78_integers.
Print Assumptions C78_decimals.
