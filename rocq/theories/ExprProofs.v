(** Filter expressions: induction, target types, NULL propagation and type
    soundness (C46, C48, C49). *)
From Coq Require Import Lia ZifyBool ZifyNat.
From Verif Require Import Base BaseProofs GuidModel GuidSpec FormatModel StrModel CalModel NumModel ExprModel ExprSpec.
Open Scope Z_scope.

(** ** Induction over expressions with lists *)
Section ExprInd.
  Variable P : expr -> Prop.
  Hypothesis Hnil : P ENil.
  Hypothesis Hval : forall v, P (EValue v).
  Hypothesis Hun : forall u e, P e -> P (EUnary u e).
  Hypothesis Hcol : forall c, P (EColumn c).
  Hypothesis Hin : forall e args n m, P e -> Forall P args -> P (EInList e args n m).
  Hypothesis Hfun : forall f args, Forall P args -> P (EFunction f args).
  Hypothesis Hop : forall o l r, P l -> P r -> P (EOperator o l r).
  Fixpoint expr_ind' (e : expr) : P e :=
    let all := fix all (l : list expr) : Forall P l :=
      match l with
      | [] => Forall_nil P
      | x :: l' => @Forall_cons expr P x l' (expr_ind' x) (all l')
      end in
    match e with
    | ENil => Hnil
    | EValue v => Hval v
    | EUnary u e => Hun u e (expr_ind' e)
    | EColumn c => Hcol c
    | EInList e args n m => Hin e args n m (expr_ind' e) (all args)
    | EFunction f args => Hfun f args (all args)
    | EOperator o l r => Hop o l r (expr_ind' l) (expr_ind' r)
    end.
End ExprInd.

(** ** The target type only matters for NULL *)
Lemma IsNull_spec v : IsNull v = true <-> null v.
Proof. unfold IsNull, null. destruct (ve_value v); split; congruence. Qed.
Lemma IsNull_false v : IsNull v = false <-> ~ null v.
Proof. rewrite <- IsNull_spec. destruct (IsNull v); split; congruence. Qed.

Lemma Evaluate_as L row e t v : Evaluate L row e = Ok v -> ~ null v -> evaluateAs L row e t = Ok v.
Proof.
  unfold Evaluate. destruct e; cbn [evaluateAs]; auto.
  - intros H N. injection H as <-. exfalso; apply N; reflexivity.
  - destruct (vtype_eqb (ve_type v0) VUndefined); auto.
    intros H N. injection H as <-. exfalso; apply N; reflexivity.
Qed.
(** Errors and crashes do not depend on it either. *)
Lemma evaluateAs_fail L row e t u : (forall v, evaluateAs L row e t <> Ok v) ->
  evaluateAs L row e u = evaluateAs L row e t.
Proof.
  destruct e; cbn [evaluateAs]; auto; intros H.
  - exfalso. eapply H; reflexivity.
  - exfalso. eapply H; reflexivity.
Qed.

(** ** Type soundness *)
Definition wt_res (x : res ve) : Prop := forall v, x = Ok v -> well_typed v.

Lemma wt_bind {A} (x : res A) f : (forall a, x = Ok a -> wt_res (f a)) -> wt_res (bind x f).
Proof. intros H v E. destruct x; cbn in E; try discriminate. eapply H; eauto. Qed.
Lemma wt_err : wt_res Err. Proof. discriminate. Qed.
Lemma wt_panic : wt_res Panic. Proof. discriminate. Qed.
Lemma wt_ok v : well_typed v -> wt_res (Ok v).
Proof. intros H w E. injection E as <-. exact H. Qed.
Lemma wt_null t : t <> VUndefined -> well_typed (VE t None).
Proof. split; cbn; [assumption | discriminate]. Qed.
Lemma wt_new t g : (forall n, g = GInt32 n -> is_i32 n) -> (forall n, g = GInt64 n -> is_i64 n) ->
  wt_res (NewValueExpression t g).
Proof.
  intros H1 H2 v E. unfold NewValueExpression in E.
  destruct t, g; try discriminate; injection E as <-; split; cbn; try discriminate;
    intros g' E'; injection E' as <-; cbn; auto.
Qed.
Lemma wt_true : well_typed vTrue. Proof. split; cbn; [discriminate|]. intros g E; injection E as <-; exact I. Qed.
Lemma wt_false : well_typed vFalse. Proof. split; cbn; [discriminate|]. intros g E; injection E as <-; exact I. Qed.
Lemma wt_empty : well_typed vEmptyString. Proof. split; cbn; [discriminate|]. intros g E; injection E as <-; exact I. Qed.

Lemma int32Value_range v n : well_typed v -> int32Value v = Ok n -> is_i32 n.
Proof.
  intros [_ W]. unfold int32Value. destruct (ve_value v) as [g|]; [|intros E; injection E as <-; unfold is_i32; lia].
  specialize (W g eq_refl). destruct g; try discriminate. intros E; injection E as <-.
  unfold has_type in W. destruct (ve_type v); try contradiction. exact W.
Qed.
Lemma int64Value_range v n : well_typed v -> int64Value v = Ok n -> is_i64 n.
Proof.
  intros [_ W]. unfold int64Value. destruct (ve_value v) as [g|]; [|intros E; injection E as <-; unfold is_i64; lia].
  specialize (W g eq_refl). destruct g; try discriminate. intros E; injection E as <-.
  unfold has_type in W. destruct (ve_type v); try contradiction. exact W.
Qed.
Lemma asInt_range v n : booleanValueAsInt v = Ok n -> n = 0 \/ n = 1.
Proof.
  unfold booleanValueAsInt. destruct (booleanValue v) as [b| |]; cbn; try discriminate.
  destruct b; intros E; injection E as <-; auto.
Qed.
Lemma i32_i64 n : is_i32 n -> is_i64 n. Proof. unfold is_i32, is_i64; lia. Qed.

Lemma integerValue_range v d n : well_typed v -> is_i64 d -> integerValue v d = Ok n -> is_i64 n.
Proof.
  intros W D. unfold integerValue. destruct (ve_type v); try (intros E; injection E as <-; exact D).
  - intros E. apply asInt_range in E. unfold is_i64; lia.
  - intros E. apply int32Value_range in E; auto. apply i32_i64; auto.
  - intros E. apply int64Value_range in E; auto.
Qed.

(** Bitwise operations stay within the width. *)
Lemma testbit_range k n : 0 <= k -> (- 2 ^ k <= n < 2 ^ k <-> forall i, k <= i -> Z.testbit n i = Z.testbit n k).
Proof.
  intros K. split.
  - intros R i Hi. destruct (Z.le_gt_cases 0 n) as [N|N].
    + assert (B : forall j, k <= j -> Z.testbit n j = false).
      { intros j Hj. destruct (Z.eq_dec n 0) as [->|]; [apply Z.bits_0|].
        apply Z.bits_above_log2; [lia|]. apply Z.log2_lt_pow2; [lia|].
        assert (2 ^ k <= 2 ^ j) by (apply Z.pow_le_mono_r; lia). lia. }
      rewrite !B; lia.
    + assert (B : forall j, k <= j -> Z.testbit n j = true).
      { intros j Hj. replace n with (Z.lnot (- n - 1)) by (unfold Z.lnot; lia).
        rewrite Z.lnot_spec by lia.
        destruct (Z.eq_dec (- n - 1) 0) as [->|]; [rewrite Z.bits_0; reflexivity|].
        rewrite Z.bits_above_log2; [reflexivity|lia|]. apply Z.log2_lt_pow2; [lia|].
        assert (2 ^ k <= 2 ^ j) by (apply Z.pow_le_mono_r; lia). lia. }
      rewrite !B; lia.
  - intros H.
    assert (P : 0 < 2 ^ k) by (apply Z.pow_pos_nonneg; lia).
    assert (D : Z.shiftr n k = 0 \/ Z.shiftr n k = -1).
    { destruct (Z.testbit n k) eqn:E; [right|left]; apply Z.bits_inj'; intros i Hi;
        rewrite Z.shiftr_spec by lia; rewrite H by lia.
      - symmetry. apply Z.bits_m1. exact Hi.
      - rewrite Z.bits_0. reflexivity. }
    rewrite Z.shiftr_div_pow2 in D by lia.
    pose proof (Z.div_mod n (2 ^ k)) as DM. pose proof (Z.mod_pos_bound n (2 ^ k)).
    destruct D as [D|D]; rewrite D in DM; nia.
Qed.
Lemma land_range k a b : 0 <= k -> - 2 ^ k <= a < 2 ^ k -> - 2 ^ k <= b < 2 ^ k -> - 2 ^ k <= Z.land a b < 2 ^ k.
Proof.
  intros K A B. apply testbit_range; [exact K|]. intros i Hi.
  rewrite !Z.land_spec. f_equal; apply (proj1 (testbit_range k _ K)); assumption.
Qed.
Lemma lor_range k a b : 0 <= k -> - 2 ^ k <= a < 2 ^ k -> - 2 ^ k <= b < 2 ^ k -> - 2 ^ k <= Z.lor a b < 2 ^ k.
Proof.
  intros K A B. apply testbit_range; [exact K|]. intros i Hi.
  rewrite !Z.lor_spec. f_equal; apply (proj1 (testbit_range k _ K)); assumption.
Qed.
Lemma lxor_range k a b : 0 <= k -> - 2 ^ k <= a < 2 ^ k -> - 2 ^ k <= b < 2 ^ k -> - 2 ^ k <= Z.lxor a b < 2 ^ k.
Proof.
  intros K A B. apply testbit_range; [exact K|]. intros i Hi.
  rewrite !Z.lxor_spec. f_equal; apply (proj1 (testbit_range k _ K)); assumption.
Qed.

Lemma dec_intpart_range d : is_i64 (dec_intpart d).
Proof. apply i64_range. Qed.
Lemma float_to_i32_range L f : is_i32 (float_to_i32 L f).
Proof.
  unfold float_to_i32. destruct (d_trunc f) as [n|]; [|apply i32_range].
  destruct ((- 2 ^ 31 <=? n) && (n <? 2 ^ 31)) eqn:E; [|apply i32_range]. unfold is_i32. lia.
Qed.
Lemma float_to_i64_range L f : is_i64 (float_to_i64 L f).
Proof.
  unfold float_to_i64. destruct (d_trunc f) as [n|]; [|apply i64_range].
  destruct ((- 2 ^ 63 <=? n) && (n <? 2 ^ 63)) eqn:E; [|apply i64_range]. unfold is_i64. lia.
Qed.

Ltac wt_range :=
  match goal with
  | |- is_i32 (i32 _) => apply i32_range
  | |- is_i64 (i64 _) => apply i64_range
  | |- is_i64 (dec_intpart _) => apply dec_intpart_range
  | |- is_i32 (float_to_i32 _ _) => apply float_to_i32_range
  | |- is_i64 (float_to_i64 _ _) => apply float_to_i64_range
  | H : int32Value ?v = Ok ?n |- is_i32 ?n => eapply int32Value_range; [|exact H]
  | H : int64Value ?v = Ok ?n |- is_i64 ?n => eapply int64Value_range; [|exact H]
  | H : int32Value ?v = Ok ?n |- is_i64 ?n => apply i32_i64; eapply int32Value_range; [|exact H]
  | H : booleanValueAsInt ?v = Ok ?n |- _ => apply asInt_range in H; unfold is_i32, is_i64; lia
  | |- is_i32 ?n => unfold is_i32; lia
  | |- is_i64 ?n => unfold is_i64; lia
  end.

Ltac wt :=
  repeat match goal with
  | |- wt_res (bind _ _) => apply wt_bind; intros
  | |- wt_res Err => apply wt_err
  | |- wt_res Panic => apply wt_panic
  | |- wt_res (Ok vTrue) => apply wt_ok, wt_true
  | |- wt_res (Ok vFalse) => apply wt_ok, wt_false
  | |- wt_res (Ok vEmptyString) => apply wt_ok, wt_empty
  | |- wt_res (Ok (NullValue _)) => apply wt_ok, wt_null
  | |- wt_res (Ok (VE _ None)) => apply wt_ok, wt_null
  | H : well_typed ?v |- wt_res (Ok ?v) => apply wt_ok; exact H
  | |- wt_res (NewValueExpression _ _) =>
      apply wt_new; let n := fresh "n" in let E := fresh "E" in
      intros n E; try discriminate E; injection E as <-; try (wt_range; assumption)
  | |- wt_res (let _ := _ in _) => cbv zeta
  | |- wt_res (if ?b then _ else _) => destruct b eqn:?
  | |- wt_res (match ?b with _ => _ end) => destruct b eqn:?
  | |- wt_res (Ok (if ?b then _ else _)) => destruct b eqn:?
  | |- wt_res (Ok (match ?b with _ => _ end)) => destruct b eqn:?
  end; try congruence; try assumption.

Lemma wt_convert L v t : well_typed v -> t <> VUndefined -> wt_res (Convert L v t).
Proof.
  intros W T. unfold Convert, convertFromBoolean, convertFromInt32, convertFromInt64, convertFromDecimal,
    convertFromDouble, convertFromString, convertFromGuid, convertFromDateTime.
  wt.
Qed.

Lemma wt_operands L l r t k : well_typed l -> well_typed r -> t <> VUndefined ->
  (forall a b, well_typed a -> well_typed b -> wt_res (k a b)) -> wt_res (withOperands L l r t k).
Proof.
  intros Hl Hr T K. unfold withOperands. wt. apply K.
  - eapply wt_convert; [exact Hl| |]; eauto.
  - eapply wt_convert; [exact Hr| |]; eauto.
Qed.

Lemma derive_defined o a b t : a <> VUndefined -> b <> VUndefined -> deriveOperation o a b = Ok t -> t <> VUndefined.
Proof. intros A B E. destruct o, a, b; cbn in E; congruence. Qed.
Lemma deriveComparison_defined a b t : deriveComparison a b = Ok t -> t <> VUndefined.
Proof. intros E. destruct a, b; cbn in E; congruence. Qed.
Lemma deriveArithmetic_defined o a b t : deriveArithmetic o a b = Ok t -> t <> VUndefined.
Proof. intros E. destruct a, b; cbn in E; destruct o; cbn in E; congruence. Qed.

Ltac wt_op := apply wt_operands; try assumption; intros; unfold on2, on2r; wt.

Lemma wt_relational L l r t : well_typed l -> well_typed r -> t <> VUndefined ->
  wt_res (lessThanOp L l r t) /\ wt_res (lessThanOrEqualOp L l r t) /\
  wt_res (greaterThanOp L l r t) /\ wt_res (greaterThanOrEqualOp L l r t) /\
  (forall x, wt_res (equalOp L l r t x)) /\ (forall x, wt_res (notEqualOp L l r t x)).
Proof.
  intros Hl Hr T. repeat match goal with |- _ /\ _ => split end; intros; unfold lessThanOp, lessThanOrEqualOp, greaterThanOp, greaterThanOrEqualOp, equalOp, notEqualOp; wt_op.
Qed.

Lemma wt_bitwise f L l r t : well_typed l -> well_typed r -> t <> VUndefined ->
  (forall k a b, 0 <= k -> - 2 ^ k <= a < 2 ^ k -> - 2 ^ k <= b < 2 ^ k -> - 2 ^ k <= f a b < 2 ^ k) ->
  wt_res (bitwiseOp f L l r t).
Proof.
  intros Hl Hr T F. unfold bitwiseOp. wt_op.
  - refine (F 31 _ _ _ _ _); [lia| |]; (eapply int32Value_range; [|eassumption]; assumption).
  - refine (F 63 _ _ _ _ _); [lia| |]; (eapply int64Value_range; [|eassumption]; assumption).
Qed.

Lemma wt_like L l r x : wt_res (likeOp L l r x).
Proof. unfold likeOp. wt. Qed.

Ltac wt_mk :=
  match goal with
  | H : _ = Ok ?g |- wt_res (NewValueExpression _ ?g) =>
    apply wt_new; intros; subst;
    repeat match type of H with context [if ?b then _ else _] => destruct b; cbn [bind] in H; try discriminate H end;
    try discriminate H; injection H as <-; wt_range
  end.

Lemma wt_applyOperator L o l r : well_typed l -> well_typed r -> wt_res (applyOperator L o l r).
Proof.
  intros Hl Hr. unfold applyOperator. apply wt_bind. intros t E.
  assert (T : t <> VUndefined) by (eapply derive_defined; [apply Hl|apply Hr|exact E]).
  destruct (wt_relational L l r t Hl Hr T) as (R1 & R2 & R3 & R4 & R5 & R6).
  destruct o; auto; try apply wt_like.
  - unfold multiplyOp. wt_op.
  - unfold divideOp, go_div, go_decimal_div. wt_op; wt_mk.
  - unfold modulusOp, go_rem. wt_op; wt_mk.
  - unfold addOp. wt_op.
  - unfold subtractOp. wt_op.
  - unfold bitShiftLeftOp. wt.
  - unfold bitShiftRightOp. wt.
  - apply wt_bitwise; auto using land_range.
  - apply wt_bitwise; auto using lor_range.
  - apply wt_bitwise; auto using lxor_range.
  - unfold isNullOp. wt.
  - unfold isNotNullOp. wt.
  - unfold notLikeOp. wt.
  - unfold notLikeOp. wt.
  - unfold andOp, logicOp. wt.
  - unfold orOp, logicOp. wt.
Qed.

Lemma wt_applyUnary u v : well_typed v -> wt_res (applyUnary u v).
Proof.
  intros W. unfold applyUnary.
  assert (T := proj1 W).
  wt.
  - pose proof (int32Value_range _ _ W H) as R. destruct u; [exact R|apply i32_range|].
    unfold Z.lnot, is_i32 in *. lia.
  - pose proof (int64Value_range _ _ W H) as R. destruct u; [exact R|apply i64_range|].
    unfold Z.lnot, is_i64 in *. lia.
Qed.

(** Functions: every argument that evaluates gives a well-typed value. *)
Definition arg_ok (a : arg) : Prop := forall t, t <> VUndefined -> wt_res (a t).

Lemma wt_coalesce_rest test rest : well_typed test -> Forall arg_ok rest -> wt_res (coalesce_rest test rest).
Proof.
  intros W F. induction F as [|a l H F IH]; cbn; wt.
  apply wt_ok. eapply (H VBoolean); [discriminate|eassumption].
Qed.
Lemma wt_extreme_rest L op : (op = greaterThanOp L \/ op = lessThanOp L) ->
  forall rest test, well_typed test -> Forall arg_ok rest -> wt_res (extreme_rest op test rest).
Proof.
  intros O rest. induction rest as [|a l IH]; intros test W F; cbn [extreme_rest]; wt.
  apply IH; [|exact (Forall_inv_tail F)].
  match goal with |- well_typed (if ?b then _ else _) => destruct b; [|exact W] end.
  eapply (Forall_inv F VBoolean); [discriminate|eassumption].
Qed.

Ltac wt_fn := unfold fn_abs, fn_ceiling, fn_floor, fn_round, fn_integral, fn_convert, fn_contains, fn_endsWith,
  fn_startsWith, fn_string_test, fn_dateAdd, fn_dateDiff, fn_datePart, fn_indexOf, fn_lastIndexOf, fn_string_find,
  fn_isDate, fn_isInteger, fn_isGuid, fn_isNumeric, fn_isNull, fn_len, fn_lower, fn_upper, fn_trim, fn_trimLeft,
  fn_trimRight, fn_reverse, fn_string_map, fn_nthIndexOf, fn_regEx, fn_replace, fn_split, fn_sqrt,
  fn_strCount, fn_strCmp, fn_subStr, fn_now; wt.

Lemma convert_type_defined name t : convert_type name = Some t -> t <> VUndefined.
Proof.
  unfold convert_type.
  destruct (find _ _) as [[n u]|]; [destruct u; congruence|].
  repeat match goal with |- context [if ?b then _ else _] => destruct b end; congruence.
Qed.

Lemma wt_power L s e : well_typed s -> wt_res (fn_power L s e).
Proof.
  intros W. assert (T := proj1 W). unfold fn_power, on2, on2r. wt.
  all: apply deriveArithmetic_defined in H.
  all: assert (well_typed a0) by (eapply wt_convert; eassumption).
  all: assert (well_typed a1) by (eapply wt_convert; [| |eassumption]; assumption).
  all: try (wt_range; assumption).
  match goal with H : bind _ _ = Ok ?g |- wt_res (NewValueExpression _ ?g) =>
    destruct (decimal_pow _ _); cbn [bind] in H; try discriminate H; injection H as <- end.
  wt.
Qed.

Lemma wt_function L f args : Forall arg_ok args -> wt_res (evaluateFunction L f args).
Proof.
  intros F.
  assert (A : forall a t v, In a args -> a t = Ok v -> t <> VUndefined -> well_typed v)
    by (intros a t v I E T; rewrite List.Forall_forall in F; exact (F a I t T v E)).
  unfold evaluateFunction.
  destruct f; cbv beta zeta.
  all: try (destruct (length args <? 2)%nat; [apply wt_err|]).
  (* argument lists *)
  all: try (destruct args as [|x1 [|x2 [|x3 [|x4 [|x5 rest]]]]]; try apply wt_err).
  all: try match goal with |- wt_res (fn_coalesce _) => unfold fn_coalesce; wt; apply wt_coalesce_rest end.
  all: try match goal with |- wt_res (fn_extreme _ _) => unfold fn_extreme; wt; eapply wt_extreme_rest end.
  all: try match goal with |- Forall _ _ => inversion F; subst; assumption end.
  all: try match goal with |- _ \/ _ => eauto end.
  all: repeat (apply wt_bind; let v := fresh "v" in let E := fresh "E" in intros v E; apply A in E; [|cbn; tauto|discriminate]).
  all: try match goal with E : _ = Ok ?v |- well_typed ?v => apply A in E; [exact E|cbn; tauto|discriminate] end.
  all: repeat match goal with H : well_typed ?v |- _ => lazymatch goal with H' : ve_type v <> VUndefined |- _ => fail | _ => pose proof (proj1 H) end end.
  all: try apply wt_power; try assumption.
  all: try solve [wt_fn].
  - wt_fn.
    + pose proof (int32Value_range _ _ E H0). unfold abs32. destruct (_ <? _); [apply i32_range|assumption].
    + pose proof (int64Value_range _ _ E H0). unfold abs64. destruct (_ <? _); [apply i64_range|assumption].
  - wt. apply wt_coalesce_rest; [exact E|exact (Forall_inv_tail F)].
  - wt. apply wt_coalesce_rest; [exact E|exact (Forall_inv_tail F)].
  - wt. apply wt_coalesce_rest; [exact E|exact (Forall_inv_tail F)].
  - wt. apply wt_coalesce_rest; [exact E|exact (Forall_inv_tail F)].
  - wt. apply wt_coalesce_rest; [exact E|exact (Forall_inv_tail F)].
  - wt_fn. apply wt_convert; [exact E|]. eapply convert_type_defined; eassumption.
  - wt_fn. destruct a2; first [apply i32_range | apply float_to_i32_range].
  - unfold fn_iif. wt.
    + exact (Forall_inv (Forall_inv_tail F) VBoolean ltac:(discriminate)).
    + exact (Forall_inv (Forall_inv_tail (Forall_inv_tail F)) VBoolean ltac:(discriminate)).
Qed.

Lemma wt_column row c : row_ok row -> wt_res (evaluateColumn row c).
Proof.
  intros R. unfold evaluateColumn. destruct row as [get|]; [|apply wt_err]. destruct c as [c|]; [|apply wt_err].
  apply wt_bind. intros v E. specialize (R get eq_refl (col_index c) (col_type c)) as [_ R].
  destruct v as [x|]; [|destruct (col_type c); cbn [null_type]; wt].
  specialize (R x E). unfold cell_ok in R.
  destruct (col_type c), x; try contradiction; cbn [cell_value];
    try match goal with |- context [if ?b then _ else _] => destruct b eqn:Q end; wt; unfold is_i32, is_i64 in *; lia.
Qed.

Lemma wt_in_list L v args n m : wt_res (in_list L v args n m).
Proof. induction args; cbn [in_list]; wt. Qed.

(** C48: every value an expression evaluates to has the dynamic type it declares. *)
Lemma literals_sub e x : subexpr x e -> literals_ok e -> literals_ok x.
Proof.
  intros S H v Hv. apply H. clear H. revert v Hv.
  induction S; intros v Hv; eauto using subexpr.
Qed.

Lemma wt_evaluateAs L row : row_ok row -> forall e, literals_ok e ->
  forall t, t <> VUndefined -> wt_res (evaluateAs L row e t).
Proof.
  intros R e. induction e using expr_ind'; intros LO t T; cbn [evaluateAs].
  - wt.
  - destruct (LO v (sub_here _)) as [W| ->]; [|cbn; wt].
    destruct (vtype_eqb (ve_type v) VUndefined); wt.
  - apply wt_bind. intros v E. apply wt_applyUnary.
    refine (IHe _ VBoolean _ v E); [|discriminate]. eapply literals_sub; [|exact LO]. eauto using subexpr.
  - apply wt_column. exact R.
  - apply wt_bind. intros v E.
    assert (W : well_typed v).
    { refine (IHe _ VBoolean _ v E); [|discriminate]. eapply literals_sub; [|exact LO]. eauto using subexpr. }
    assert (T' := proj1 W). wt. apply wt_in_list.
  - apply wt_function. rewrite List.Forall_forall in *. intros a Ha. apply in_map_iff in Ha as (x & <- & Hx).
    intros u U. apply H; [exact Hx| |exact U]. eapply literals_sub; [|exact LO]. eauto using subexpr.
  - apply wt_bind. intros v E. apply wt_bind. intros w F. apply wt_applyOperator.
    + refine (IHe1 _ VBoolean _ v E); [|discriminate]. eapply literals_sub; [|exact LO]. eauto using subexpr.
    + refine (IHe2 _ VBoolean _ w F); [|discriminate]. eapply literals_sub; [|exact LO]. eauto using subexpr.
Qed.

(** C46 *)
Lemma operands_null L l r t k : null l \/ null r -> withOperands L l r t k = Ok (vNull t).
Proof.
  intros H. unfold withOperands. destruct H as [H|H]; apply IsNull_spec in H; rewrite H;
    [reflexivity|rewrite orb_true_r; reflexivity].
Qed.

Lemma operator_null L o l r : ~ null_test o -> null l \/ null r ->
  applyOperator L o l r = Err \/ exists t, applyOperator L o l r = Ok (vNull t).
Proof.
  intros NT N. unfold applyOperator. destruct (deriveOperation o _ _) as [t| |] eqn:D; cbn [bind].
  2: auto.
  2: { destruct o, (ve_type l), (ve_type r); discriminate. }
  assert (IN : IsNull l || IsNull r = true).
  { destruct N as [N|N]; apply IsNull_spec in N; rewrite N; [reflexivity|apply orb_true_r]. }
  destruct o; try (exfalso; apply NT; unfold null_test; tauto).
  all: try (right; eexists; apply operands_null; exact N).
  1-2: unfold bitShiftLeftOp, bitShiftRightOp; destruct (IsNull l) eqn:E;
    [right; exists (ve_type l); apply IsNull_spec in E; destruct l; cbn in *; unfold null in E; cbn in E; subst; reflexivity|
     cbn in IN; rewrite IN; destruct (negb _); auto].
  1-4: unfold notLikeOp, likeOp; destruct (IsNull l) eqn:E;
    [right; exists VBoolean; reflexivity|
     cbn in IN; rewrite IN; destruct (negb _ || negb _); auto].
  1-2: unfold andOp, orOp, logicOp; rewrite IN; right; exists VBoolean; reflexivity.
Qed.

Lemma null_test_result L l r :
  (exists b, applyOperator L OIsNull l r = Ok (vBool b) /\ (b = true <-> null l)) /\
  (exists b, applyOperator L OIsNotNull l r = Ok (vBool b) /\ (b = true <-> ~ null l)).
Proof.
  unfold applyOperator; cbn [deriveOperation bind]. unfold isNullOp, isNotNullOp.
  split; eexists; (split; [reflexivity|]).
  - apply IsNull_spec.
  - rewrite <- IsNull_spec. destruct (IsNull l); cbn; split; congruence.
Qed.

(** C49 *)
Lemma derive_numeric o a b : arithmetic o \/ relational o -> numeric a -> numeric b ->
  exists w, wider a b w /\ deriveOperation o a b = Ok w /\ deriveOperation o b a = Ok w.
Proof.
  unfold numeric. intros O A B.
  assert (D : deriveOperation o = deriveArithmetic o \/ deriveOperation o = deriveComparison).
  { unfold arithmetic, relational in O. decompose [or] O; subst; auto. }
  exists (if width a <=? width b then b else a).
  destruct D as [-> | ->]; destruct a; cbn [width] in A; try lia; destruct b; cbn [width] in B; try lia;
    (split; [unfold wider; cbn; split; [auto|lia]|]); split; reflexivity.
Qed.
Lemma derive_integer o a b : bitwise o -> integer a -> integer b ->
  exists w, wider a b w /\ deriveOperation o a b = Ok w /\ deriveOperation o b a = Ok w.
Proof.
  unfold integer. intros O A B.
  assert (D : deriveOperation o = deriveInteger).
  { unfold bitwise in O. decompose [or] O; subst; auto. }
  rewrite D. exists (if width a <=? width b then b else a).
  destruct a; cbn [width] in A; try lia; destruct b; cbn [width] in B; try lia;
    (split; [unfold wider; cbn; split; [auto|lia]|]); split; reflexivity.
Qed.
Lemma derive_integer_only o a b w : bitwise o -> deriveOperation o a b = Ok w -> integer a /\ integer b.
Proof.
  unfold bitwise, integer. intros O E. decompose [or] O; subst; destruct a, b; cbn in E; try discriminate; cbn; lia.
Qed.

(** The type of the result: the operation's type, or Boolean for a comparison
    of two values. *)
Lemma new_type t g v : NewValueExpression t g = Ok v -> v = VE t (Some g).
Proof. destruct t, g; cbn; congruence. Qed.
Lemma operands_type L l r t k v :
  (forall a b, k a b = Ok v -> ve_type v = t /\ ~ null v) -> withOperands L l r t k = Ok v -> ve_type v = t.
Proof.
  intros K. unfold withOperands. destruct (IsNull l || IsNull r); [intros E; injection E as <-; reflexivity|].
  destruct (Convert L l t); cbn [bind]; try discriminate. destruct (Convert L r t); cbn [bind]; try discriminate.
  intros E. apply K in E. tauto.
Qed.
Ltac inv_new :=
  repeat match goal with
  | H : bind ?x _ = Ok _ |- _ => destruct x; cbn [bind] in H; try discriminate H
  | H : NewValueExpression _ _ = Ok _ |- _ => apply new_type in H
  end.
Lemma operation_type L o l r v : arithmetic o \/ bitwise o -> applyOperator L o l r = Ok v ->
  deriveOperation o (ve_type l) (ve_type r) = Ok (ve_type v).
Proof.
  intros O E. unfold applyOperator in E. destruct (deriveOperation o _ _) as [t| |] eqn:D; cbn [bind] in E; try discriminate.
  f_equal. symmetry. unfold arithmetic, bitwise in O.
  decompose [or] O; subst o; (eapply operands_type; [|exact E]); intros a b K; cbn beta in K;
    unfold on2, on2r in K; destruct t; try discriminate K; inv_new; subst; unfold null; cbn; split; congruence.
Qed.
Lemma relation_type L o l r v : relational o -> applyOperator L o l r = Ok v ->
  (~ null v -> ve_type v = VBoolean) /\
  (null v <-> null l \/ null r) /\
  (null v -> deriveOperation o (ve_type l) (ve_type r) = Ok (ve_type v)).
Proof.
  intros O E. unfold applyOperator in E. destruct (deriveOperation o _ _) as [t| |] eqn:D; cbn [bind] in E; try discriminate.
  assert (C : (null l \/ null r) /\ v = vNull t \/
              (~ null l /\ ~ null r) /\ (~ null v /\ ve_type v = VBoolean)).
  { assert (S : (null l \/ null r) \/ (~ null l /\ ~ null r)).
    { unfold null. destruct (ve_value l), (ve_value r); auto; right; split; discriminate. }
    destruct S as [S|S].
    - left. split; [exact S|]. unfold relational in O.
      decompose [or] O; subst o; unfold lessThanOp, lessThanOrEqualOp, greaterThanOp, greaterThanOrEqualOp, equalOp, notEqualOp in E;
        rewrite operands_null in E by exact S; congruence.
    - right. split; [exact S|]. destruct S as [S1 S2]. apply IsNull_false in S1, S2.
      unfold relational in O.
      decompose [or] O; subst o; unfold lessThanOp, lessThanOrEqualOp, greaterThanOp, greaterThanOrEqualOp, equalOp, notEqualOp, withOperands, on2 in E;
        rewrite S1, S2 in E; cbn [orb] in E; inv_new; destruct t; try discriminate E; inv_new; subst;
        unfold null; cbn; split; congruence. }
  unfold null in *. destruct C as [[C ->]|[[C1 C2] [C3 C4]]]; cbn; repeat split; tauto.
Qed.
