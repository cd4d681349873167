(** Proofs about conversions and type tests (C94). *)
From Coq Require Import Lia ZifyBool ZifyNat QArith Qpower String.
From Verif Require Import Base BaseProofs GuidModel GuidSpec GuidProofs FormatModel StrModel CalModel CalSpec NumModel ExprModel ExprSpec FuncSpec ExprProofs
  ExprPanic StrProofs ExprPanic2 ExprProofs2 ExprProofs3 ExprProofs5 ExprProofs6 FuncProofs FuncProofs2 FuncProofs6.
Close Scope Q_scope.
Open Scope list_scope.
Open Scope Z_scope.

(** ** Names of types *)

Lemma type_known L s t : ascii_tables L -> denotes s t -> convert_type (ToUpper L s) = Some t.
Proof.
  intros AT (A & name & N & E). rewrite (ToUpper_ascii L s AT A).
  destruct E as [-> | ->]; destruct N; vm_compute; reflexivity.
Qed.
Lemma prefix_begins b name : HasPrefix b (lit name) = true -> begins b name.
Proof. intros H. apply HasPrefix_spec in H. exact H. Qed.
Lemma type_unknown L s b : ascii_tables L -> is_ascii s -> base_name s b -> (forall t, ~ denotes s t) ->
  ~ begins b "INT" -> ~ begins b "UINT" -> ~ begins b "FLOAT" -> convert_type (ToUpper L s) = None.
Proof.
  intros AT A B D NI NU NF. rewrite (ToUpper_ascii L s AT A).
  assert (DB : forall name t, type_name name t -> b <> lit name).
  { intros name t N ->. apply (D t). split; [exact A|]. exists name. split; [exact N|]. destruct B as [B|[_ B]]; auto. }
  assert (K : match find (fun p => str_eqb b (fst p)) vtype_names with
      | Some (_, VUndefined) => None
      | Some (_, t) => Some t
      | None =>
        if str_eqb b (lit "SINGLE") || HasPrefix b (lit "FLOAT") then Some VDouble
        else if str_eqb b (lit "BOOL") then Some VBoolean
        else if HasPrefix b (lit "INT") || HasPrefix b (lit "UINT") then Some VInt64
        else if str_eqb b (lit "DATE") || str_eqb b (lit "TIME") then Some VDateTime
        else if str_eqb b (lit "UUID") then Some VGuid
        else None
      end = None).
  { destruct (find (fun p => str_eqb b (fst p)) vtype_names) as [[n t]|] eqn:F.
    - apply find_some in F as [I E]. cbn [fst] in E. apply str_eqb_spec in E. subst n.
      cbn [vtype_names In] in I.
      repeat destruct I as [I | I]; try contradiction; apply pair_equal_spec in I as [I <-]; try reflexivity; exfalso; symmetry in I;
        revert I; eapply DB; constructor.
    - assert (NE : forall name t, type_name name t -> str_eqb b (lit name) = false).
      { intros name t N. destruct (str_eqb b (lit name)) eqn:E; [|reflexivity]. apply str_eqb_spec in E. exfalso. exact (DB name t N E). }
      assert (NP : forall name, ~ begins b name -> HasPrefix b (lit name) = false).
      { intros name N. destruct (HasPrefix b (lit name)) eqn:E; [|reflexivity]. exfalso. apply N, prefix_begins, E. }
      rewrite (NE "SINGLE"%string VDouble ltac:(constructor)), (NE "BOOL"%string VBoolean ltac:(constructor)),
        (NE "DATE"%string VDateTime ltac:(constructor)), (NE "TIME"%string VDateTime ltac:(constructor)), (NE "UUID"%string VGuid ltac:(constructor)).
      rewrite (NP "FLOAT"%string NF), (NP "INT"%string NI), (NP "UINT"%string NU). reflexivity. }
  unfold convert_type. destruct B as [-> |[B BE]]; [|rewrite BE].
  - replace (HasPrefix (lit "SYSTEM." ++ b) (lit "SYSTEM.")) with true by (symmetry; apply HasPrefix_spec; exists b; reflexivity).
    destruct b as [|c b]; [vm_compute; reflexivity|].
    replace (7 <? len (lit "SYSTEM." ++ c :: b)) with true by (symmetry; apply Z.ltb_lt; unfold len; rewrite app_length; cbn [length]; change (length (lit "SYSTEM.")) with 7%nat; lia).
    cbn [andb]. change (skipn 7 (lit "SYSTEM." ++ c :: b)) with (c :: b). exact K.
  - replace (HasPrefix b (lit "SYSTEM.")) with false; [exact K|]. symmetry.
    destruct (HasPrefix b (lit "SYSTEM.")) eqn:E; [|reflexivity]. apply HasPrefix_spec in E as [c E]. exfalso. apply (B c). rewrite BE. exact E.
Qed.

Lemma convert_eval L row x y v s t : ascii_tables L -> Evaluate L row x = Ok v -> ~ null v -> Evaluate L row y = Ok (vStr s) -> denotes s t ->
  Evaluate L row (EFunction FConvert [x; y]) = Convert L v t.
Proof.
  intros AT X N Y D. rewrite (eval_2 L row FConvert x y v (vStr s) VBoolean VString (fn_convert L) X N Y ltac:(discriminate)) by reflexivity.
  unfold fn_convert. cbn [is_str ve_type vStr vtype_eqb negb IsNull ve_value stringValue bind]. rewrite (type_known L s t AT D). reflexivity.
Qed.
Lemma convert_null L row x y v s t : ascii_tables L -> Evaluate L row x = Ok v -> null v -> Evaluate L row y = Ok (vStr s) -> denotes s t ->
  Evaluate L row (EFunction FConvert [x; y]) = Ok (vNull t).
Proof.
  intros AT X N Y D. unfold Evaluate. cbn [evaluateAs map evaluateFunction]. unfold Evaluate in X. rewrite X, (Evaluate_as _ _ _ VString _ Y) by discriminate.
  cbn [bind]. unfold fn_convert. cbn [is_str ve_type vStr vtype_eqb negb IsNull ve_value stringValue bind]. rewrite (type_known L s t AT D).
  unfold Convert. rewrite (proj2 (IsNull_spec v) N). reflexivity.
Qed.
Lemma convert_unknown L row x y v s b : ascii_tables L -> Evaluate L row x = Ok v -> Evaluate L row y = Ok (vStr s) ->
  is_ascii s -> base_name s b -> (forall t, ~ denotes s t) -> ~ begins b "INT" -> ~ begins b "UINT" -> ~ begins b "FLOAT" ->
  Evaluate L row (EFunction FConvert [x; y]) = Err.
Proof.
  intros AT X Y A B D NI NU NF. unfold Evaluate. cbn [evaluateAs map evaluateFunction]. unfold Evaluate in X. rewrite X, (Evaluate_as _ _ _ VString _ Y) by discriminate.
  cbn [bind]. unfold fn_convert. cbn [is_str ve_type vStr vtype_eqb negb IsNull ve_value stringValue bind].
  rewrite (type_unknown L s b AT A B D NI NU NF). reflexivity.
Qed.

(** ** Numbers *)

Lemma scaled_truncated q N p n : scaled q N p -> is_truncated q n -> n = Z.quot N p.
Proof.
  intros S T. pose proof (truncated_quot q N p S) as T'. pose proof S as [P _]. destruct T as [A B], T' as [A' B'].
  destruct (Z_le_gt_dec 0 N) as [D|D].
  - apply (scaled_nonneg q N p S) in D. specialize (A D). specialize (A' D). apply (scaled_floor q N p _ S) in A, A'. nia.
  - assert (D' : N <= 0) by lia. apply (scaled_nonpos q N p S) in D'. specialize (B D'). specialize (B' D'). apply (scaled_ceiling q N p _ S) in B, B'. nia.
Qed.
Lemma dec_trunc d q n : (q == dec_number d)%Q -> is_truncated q n -> is_i64 n -> dec_intpart d = n.
Proof.
  intros E T I. unfold dec_intpart. assert (X : (if 0 <=? dexp d then coef d * 10 ^ dexp d else Z.quot (coef d) (10 ^ (- dexp d))) = n).
  { destruct (Z.leb_spec 0 (dexp d)) as [D|D].
    - pose proof (scaled_truncated q _ 1 n (scaled_integer q _ (dec_integer d q E D)) T) as H. rewrite Z.quot_1_r in H. symmetry. exact H.
    - symmetry. exact (scaled_truncated q _ _ n (dec_scaled d q E D) T). }
  rewrite X. unfold is_i64, i64 in *. rewrite Z.mod_small; lia.
Qed.
Lemma double_trunc f q n : double_number f q -> is_truncated q n -> d_trunc f = Some n.
Proof.
  intros D T. destruct D as [s q E|s m e q B E]; cbn [d_trunc]; f_equal.
  - pose proof (scaled_truncated q 0 1 n (scaled_integer q 0 E) T) as H. rewrite Z.quot_1_r in H. symmetry. exact H.
  - destruct (Z.leb_spec 0 e) as [P|P].
    + pose proof (scaled_truncated q _ 1 n (scaled_integer q _ (double_integer s m e q E P)) T) as H. rewrite Z.quot_1_r in H. symmetry. exact H.
    + rewrite (scaled_truncated q _ _ n (double_scaled s m e q E P) T). pose proof (Z.pow_pos_nonneg 2 (- e) ltac:(lia) ltac:(lia)).
      destruct s; cbn [cond_Zopp]; [rewrite Z.quot_opp_l by lia|]; rewrite Z.quot_div_nonneg by lia; reflexivity.
Qed.
Lemma whole_truncated v n q k : whole v n -> (q == inject_Z n)%Q -> is_truncated q k -> k = n.
Proof. intros W E T. rewrite (scaled_truncated q n 1 k (scaled_integer q n E) T). apply Z.quot_1_r. Qed.

Lemma to_int64 L v q n : stands_for v q -> is_truncated q n -> is_i64 n -> Convert L v VInt64 = Ok (vInt64 n).
Proof.
  intros S T I. destruct S as [v m q W E|d q E|f q E].
  - rewrite (whole_truncated v m q n W E T) in *. destruct W as [b|v m [m' R|m' R]]; [destruct b|..]; reflexivity.
  - unfold Convert. cbn [IsNull ve_value vDec ve_type convertFromDecimal decimalValue bind NewValueExpression].
    rewrite (dec_trunc d q n E T I). reflexivity.
  - unfold Convert. cbn [IsNull ve_value vDouble ve_type convertFromDouble doubleValue bind NewValueExpression].
    unfold float_to_i64. rewrite (double_trunc f q n E T). unfold is_i64 in I.
    replace ((- 2 ^ 63 <=? n) && (n <? 2 ^ 63)) with true by lia. reflexivity.
Qed.
Lemma i32_id n : is_i32 n -> i32 n = n.
Proof. unfold is_i32, i32. intros H. rewrite Z.mod_small; lia. Qed.
Lemma to_int32 L v q n : stands_for v q -> is_truncated q n -> is_i32 n -> ve_type v <> VBoolean -> Convert L v VInt32 = Ok (vInt32 n).
Proof.
  intros S T I NB. destruct S as [v m q W E|d q E|f q E].
  - rewrite (whole_truncated v m q n W E T) in *. destruct W as [b|v m [m' R|m' R]]; [contradiction NB; reflexivity|reflexivity|].
    change (Ok (vInt32 (i32 m')) = Ok (vInt32 m')). rewrite (i32_id m' I). reflexivity.
  - unfold Convert. cbn [IsNull ve_value vDec ve_type convertFromDecimal decimalValue bind NewValueExpression].
    rewrite (dec_trunc d q n E T) by (unfold is_i32, is_i64 in *; lia). rewrite (i32_id n I). reflexivity.
  - unfold Convert. cbn [IsNull ve_value vDouble ve_type convertFromDouble doubleValue bind NewValueExpression].
    unfold float_to_i32. rewrite (double_trunc f q n E T). unfold is_i32 in I.
    replace ((- 2 ^ 31 <=? n) && (n <? 2 ^ 31)) with true by lia. reflexivity.
Qed.
Lemma to_boolean L v q : stands_for v q -> exists b, Convert L v VBoolean = Ok (vBool b) /\ (b = false <-> (q == 0)%Q).
Proof.
  intros S. destruct S as [v m q W E|d q E|f q E].
  - exists (negb (m =? 0)). split; [destruct W as [b|v m [m' R|m' R]]; [destruct b|..]; reflexivity|].
    rewrite E. change 0%Q with (inject_Z 0). rewrite inject_Z_injective. destruct (Z.eqb_spec m 0); cbn; split; congruence.
  - exists (negb (dec_equal d dec_zero)). split; [reflexivity|]. unfold dec_equal. rewrite dec_cmp_number.
    assert (Z0 : (dec_number dec_zero == 0)%Q) by reflexivity.
    rewrite E. destruct (dec_number d ?= dec_number dec_zero)%Q eqn:C; cbn.
    + split; [|reflexivity]. intros _. apply Qeq_alt in C. rewrite C. exact Z0.
    + split; [discriminate|]. intros H. apply Qlt_alt in C. rewrite H, Z0 in C. exfalso. exact (Qlt_irrefl _ C).
    + split; [discriminate|]. intros H. apply Qgt_alt in C. rewrite H, Z0 in C. exfalso. exact (Qlt_irrefl _ C).
  - exists (negb (d_eqb f d_zero)). split; [reflexivity|]. destruct E as [s q E|s m e q B E].
    + split; [intros _; exact E|]. intros _. destruct s; reflexivity.
    + split.
      * destruct s; discriminate.
      * intros H. exfalso. rewrite H in E. symmetry in E. apply Qmult_integral in E as [E|E].
        -- change 0%Q with (inject_Z 0) in E. apply inject_Z_injective in E. destruct s; discriminate.
        -- revert E. apply Qpower_not_0. discriminate.
Qed.
Lemma to_decimal L v n : whole v n -> exists d, Convert L v VDecimal = Ok (vDec d) /\ (dec_number d == inject_Z n)%Q.
Proof.
  intros W. exists (dec_of_Z n). split; [destruct W as [b|v m [m' R|m' R]]; [destruct b|..]; reflexivity|].
  unfold dec_number, dec_of_Z. cbn. ring.
Qed.
Lemma to_double L v n : whole v n -> Convert L v VDouble = Ok (vDouble (d_of_Z n)).
Proof. intros W. destruct W as [b|v m [m' R|m' R]]; [destruct b|..]; reflexivity. Qed.

(** ** Other conversions *)

Lemma not_convertible L v t : ~ null v -> ve_type v <> VUndefined -> well_typed v -> t <> VUndefined -> ~ convertible (ve_type v) t -> Convert L v t = Err.
Proof.
  intros N U [_ W] T C. unfold Convert. rewrite (proj2 (IsNull_false v) N). destruct v as [vt [g|]]; [|exfalso; apply N; reflexivity].
  specialize (W g eq_refl). cbn [ve_type] in *. unfold convertible in C.
  destruct vt; destruct t; try contradiction; try reflexivity; try (exfalso; apply C; split; [assumption|]; try (split; discriminate); try tauto; discriminate);
    destruct g; try contradiction; reflexivity.
Qed.

(** ** Type tests *)

Lemma type_tests L row x v : Evaluate L row x = Ok v -> ~ null v ->
  Evaluate L row (EFunction FIsNumeric [x]) = fn_isNumeric L v /\ Evaluate L row (EFunction FIsInteger [x]) = fn_isInteger L v /\
  Evaluate L row (EFunction FIsDate [x]) = fn_isDate L v /\ Evaluate L row (EFunction FIsGuid [x]) = fn_isGuid L v.
Proof.
  intros X N.
  rewrite (eval_1' L row FIsNumeric x v VBoolean (fn_isNumeric L) X N) by reflexivity.
  rewrite (eval_1' L row FIsInteger x v VBoolean (fn_isInteger L) X N) by reflexivity.
  rewrite (eval_1' L row FIsDate x v VBoolean (fn_isDate L) X N) by reflexivity.
  rewrite (eval_1' L row FIsGuid x v VBoolean (fn_isGuid L) X N) by reflexivity. auto.
Qed.
Lemma type_tests_null L row x v : Evaluate L row x = Ok v -> null v -> forall f, In f [FIsNumeric; FIsInteger; FIsDate; FIsGuid] ->
  Evaluate L row (EFunction f [x]) = Ok (vBool false).
Proof.
  intros X N f F. unfold Evaluate in *. cbn in F. repeat destruct F as [<-|F]; try contradiction; cbn [evaluateAs map evaluateFunction]; rewrite X; cbn [bind].
  - unfold fn_isNumeric. rewrite (proj2 (IsNull_spec v) N). reflexivity.
  - unfold fn_isInteger. rewrite (proj2 (IsNull_spec v) N). reflexivity.
  - unfold fn_isDate. rewrite (proj2 (IsNull_spec v) N). reflexivity.
  - unfold fn_isGuid. rewrite (proj2 (IsNull_spec v) N). reflexivity.
Qed.
