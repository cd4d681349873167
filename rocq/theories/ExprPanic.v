(** Where an evaluation can panic (C48, C51). *)
From Coq Require Import Lia ZifyBool ZifyNat.
From Verif Require Import Base BaseProofs GuidModel GuidSpec FormatModel StrModel CalModel NumModel ExprModel ExprSpec ExprProofs.
Open Scope Z_scope.

Lemma vtype_eqb_spec a b : vtype_eqb a b = true <-> a = b.
Proof. destruct a, b; cbn; split; congruence. Qed.

Lemma np_bind {A B} (x : res A) (f : A -> res B) :
  x <> Panic -> (forall a, x = Ok a -> f a <> Panic) -> bind x f <> Panic.
Proof. destruct x; cbn; intros H K; [apply K; reflexivity|discriminate|contradiction]. Qed.
Lemma bind_panic {A B} (x : res A) (f : A -> res B) :
  bind x f = Panic <-> x = Panic \/ exists a, x = Ok a /\ f a = Panic.
Proof.
  destruct x; cbn; split; intros H; auto; try discriminate; try tauto.
  - right. eauto.
  - destruct H as [H|(b & E & H)]; [discriminate|congruence].
  - destruct H as [H|(b & E & H)]; discriminate.
Qed.

(** Accessors of well-typed values. *)
Lemma np_get v : well_typed v ->
  (ve_type v = VBoolean -> booleanValue v <> Panic /\ booleanValueAsInt v <> Panic) /\
  (ve_type v = VInt32 -> int32Value v <> Panic) /\ (ve_type v = VInt64 -> int64Value v <> Panic) /\
  (ve_type v = VDecimal -> decimalValue v <> Panic) /\ (ve_type v = VDouble -> doubleValue v <> Panic) /\
  (ve_type v = VString -> stringValue v <> Panic) /\ (ve_type v = VGuid -> guidValue v <> Panic) /\
  (ve_type v = VDateTime -> dateTimeValue v <> Panic).
Proof.
  intros [_ W]. unfold booleanValueAsInt, booleanValue, int32Value, int64Value, decimalValue, doubleValue, stringValue, guidValue, dateTimeValue.
  destruct v as [t [g|]]; cbn [ve_type ve_value] in *.
  - specialize (W g eq_refl).
    destruct t, g; cbn in W; try contradiction; repeat split; discriminate.
  - repeat split; discriminate.
Qed.

Ltac acc H := destruct (np_get _ H) as (?A1 & ?A2 & ?A3 & ?A4 & ?A5 & ?A6 & ?A7 & ?A8).

(** ** Convert *)
Lemma Convert_type L v t w : Convert L v t = Ok w -> ve_type w = t.
Proof.
  unfold Convert, convertFromBoolean, convertFromInt32, convertFromInt64, convertFromDecimal,
    convertFromDouble, convertFromString, convertFromGuid, convertFromDateTime.
  destruct (IsNull v); [intros E; injection E as <-; reflexivity|].
  destruct (ve_type v); destruct t; intros E; inv_new; subst; try discriminate; try reflexivity; injection E as <-; reflexivity.
Qed.
Lemma Convert_null L v t w : Convert L v t = Ok w -> ve_type v <> VUndefined -> (null w <-> null v).
Proof.
  unfold Convert, convertFromBoolean, convertFromInt32, convertFromInt64, convertFromDecimal,
    convertFromDouble, convertFromString, convertFromGuid, convertFromDateTime.
  destruct (IsNull v) eqn:N.
  - intros E _. injection E as <-. apply IsNull_spec in N. split; [auto|reflexivity].
  - apply IsNull_false in N. intros E T.
    enough (~ null w) by tauto.
    destruct (ve_type v); destruct t; inv_new; subst; try discriminate; unfold null; cbn; congruence.
Qed.

Lemma ve_String_np L v : well_typed v -> ve_String L v <> Panic.
Proof.
  intros W. acc W. unfold ve_String.
  destruct (ve_type v); try (apply np_bind; [tauto|discriminate]); try tauto; discriminate.
Qed.

Definition convert_crash (v : ve) (t : vtype) : Prop :=
  (exists b, v = vBool b /\ t = VInt32) \/ (exists f, v = vDouble f /\ d_is_finite f = false /\ t = VDecimal).

Lemma Convert_panic L v t : well_typed v -> (Convert L v t = Panic <-> convert_crash v t).
Proof.
  intros W. split.
  - pose proof (ve_String_np L v W) as NS. acc W.
    unfold Convert. destruct (IsNull v) eqn:N; [discriminate|]. apply IsNull_false in N.
    destruct v as [u [g|]]; [|exfalso; apply N; reflexivity].
    cbn [ve_type] in *.
    destruct W as [_ W]. specialize (W g eq_refl). cbn [ve_type] in W.
    destruct u, g; cbn [has_type] in W; try contradiction.
    + unfold convertFromBoolean. destruct b, t; cbn; intros E; try discriminate E; left; eexists; split; reflexivity.
    + unfold convertFromInt32. cbn. destruct t; cbn; intros E; discriminate E.
    + unfold convertFromInt64. cbn. destruct t; cbn; intros E; discriminate E.
    + unfold convertFromDecimal. cbn. destruct t; cbn; intros E; discriminate E.
    + unfold convertFromDouble. cbn. unfold NewFromFloat. destruct t; cbn; intros E; try discriminate E.
      destruct (d_is_finite f) eqn:F; cbn in E; [discriminate E|]. right. exists f. auto.
    + unfold convertFromString. cbn. destruct t; cbn; intros E; discriminate E.
    + unfold convertFromGuid. cbn. destruct t; cbn; intros E; discriminate E.
    + unfold convertFromDateTime. cbn. destruct t; cbn; intros E; discriminate E.
  - intros [(b & -> & ->)|(f & -> & F & ->)].
    + destruct b; reflexivity.
    + unfold Convert; cbn. unfold convertFromDouble; cbn. unfold NewFromFloat. rewrite F. reflexivity.
Qed.

(** ** Operators *)
Definition panics {A} (x : res A) : Prop := x = Panic.

Lemma new_np t g : has_type t g -> NewValueExpression t g <> Panic.
Proof. destruct t, g; cbn; try contradiction; discriminate. Qed.

(** An operation on two converted operands. *)
Lemma operands_panic L l r t k : well_typed l -> well_typed r -> t <> VUndefined ->
  (withOperands L l r t k = Panic <->
   ~ null l /\ ~ null r /\
   (convert_crash l t \/
    (~ convert_crash l t /\ Convert L l t <> Err /\ convert_crash r t) \/
    exists l' r', Convert L l t = Ok l' /\ Convert L r t = Ok r' /\ k l' r' = Panic)).
Proof.
  intros Wl Wr T. unfold withOperands.
  destruct (IsNull l || IsNull r) eqn:N.
  - split; [discriminate|]. intros (A & B & _). apply IsNull_false in A, B. rewrite A, B in N. discriminate.
  - apply orb_false_iff in N as [A B]. apply IsNull_false in A, B.
    rewrite bind_panic, (Convert_panic L l t Wl).
    split.
    + intros H. split; [exact A|]. split; [exact B|]. destruct H as [H|(l' & E & H)]; [auto|].
      rewrite bind_panic, (Convert_panic L r t Wr) in H.
      destruct H as [H|(r' & E' & H)].
      * right; left. rewrite <- (Convert_panic L l t Wl), E. repeat split; try discriminate. exact H.
      * right; right. eauto.
    + intros (_ & _ & [H|[(NP & NE & H)|(l' & r' & E & E' & H)]]); [auto| |].
      * right. destruct (Convert L l t) as [l'| |] eqn:E; [|congruence|].
        -- exists l'. split; [reflexivity|]. apply bind_panic. left. apply Convert_panic; assumption.
        -- apply Convert_panic in E; [contradiction|assumption].
      * right. exists l'. split; [exact E|]. apply bind_panic. right. eauto.
Qed.

Lemma np_on2 {A} (get : ve -> res A) mk t l r : get l <> Panic -> get r <> Panic ->
  (forall a b, has_type t (mk a b) \/ NewValueExpression t (mk a b) <> Panic) -> on2 get mk t l r <> Panic.
Proof.
  intros Hl Hr M. unfold on2. apply np_bind; [exact Hl|intros a _]. apply np_bind; [exact Hr|intros b _].
  destruct (M a b) as [H|H]; [apply new_np; exact H|exact H].
Qed.

Ltac np_on := apply np_on2; [tauto|tauto|intros; right; discriminate].


Lemma derive_mixed o a b t : arithmetic o \/ bitwise o \/ relational o -> deriveOperation o a b = Ok t ->
  (a = VBoolean -> t = VInt32 -> b = VInt32) /\ (b = VBoolean -> t = VInt32 -> a = VInt32) /\
  (t = VDecimal -> a <> VDouble /\ b <> VDouble).
Proof.
  intros O E. repeat split; intros; subst; unfold arithmetic, bitwise, relational in O;
    decompose [or] O; subst o; try (destruct a; cbn in E; congruence); try (destruct b; cbn in E; congruence);
    destruct a, b; cbn in E; congruence.
Qed.

Lemma derive_not_panic o a b : deriveOperation o a b <> Panic.
Proof. destruct o, a, b; discriminate. Qed.

(** The class of an operator. *)
Lemma oper_cases o : (arithmetic o \/ bitwise o \/ relational o) \/
  o = OBitShiftLeft \/ o = OBitShiftRight \/ null_test o \/
  o = OLike \/ o = OLikeExactMatch \/ o = ONotLike \/ o = ONotLikeExactMatch \/ o = OAnd \/ o = OOr.
Proof. unfold arithmetic, bitwise, relational, null_test. destruct o; tauto. Qed.

Lemma convert_crash_type v t : convert_crash v t ->
  ve_type v = VBoolean /\ t = VInt32 \/ ve_type v = VDouble /\ t = VDecimal.
Proof. intros [(b & -> & ->)|(f & -> & _ & ->)]; auto. Qed.

Definition class (o : oper) : Prop := arithmetic o \/ bitwise o \/ relational o.

(** A zero divisor among converted operands. *)
Definition kernel_zero (o : oper) (t : vtype) (r : ve) : Prop :=
  (o = ODivide \/ o = OModulus) /\
  ((t = VInt32 /\ int32Value r = Ok 0) \/ (t = VInt64 /\ int64Value r = Ok 0) \/
   (t = VDecimal /\ exists d, decimalValue r = Ok d /\ coef d = 0)).

Lemma operands_kernel L o l r t : class o -> well_typed l -> well_typed r ->
  deriveOperation o (ve_type l) (ve_type r) = Ok t -> applyOperator L o l r = Panic ->
  ~ null l /\ ~ null r /\
  (convert_crash l t \/ convert_crash r t \/
   exists l' r', Convert L l t = Ok l' /\ Convert L r t = Ok r' /\ kernel_zero o t r').
Proof.
  intros O Wl Wr D E. assert (T : t <> VUndefined) by (eapply derive_defined; [apply Wl|apply Wr|exact D]).
  unfold applyOperator in E. rewrite D in E. cbn [bind] in E.
  assert (K : exists k, (o <> OIsNull -> withOperands L l r t k = Panic) /\
    (forall a b, well_typed a -> well_typed b -> ve_type a = t -> ve_type b = t -> k a b = Panic -> kernel_zero o t b)).
  { unfold class, arithmetic, bitwise, relational in O.
    decompose [or] O; subst o; unfold bitwiseAndOp, bitwiseOrOp, bitwiseXorOp in E; eexists; (split; [intros _; exact E|]);
    clear E; intros a b Wa Wb Ta Tb E; cbn beta in E; acc Wa; acc Wb; destruct t;
      try discriminate E; try (exfalso; revert E; np_on).
    all: unfold on2r in E.
    all: apply bind_panic in E as [E|(x & _ & E)]; [tauto|].
    all: apply bind_panic in E as [E|(y & Ey & E)]; [tauto|].
    all: unfold kernel_zero, go_div, go_rem, go_decimal_div in *.
    all: match type of E with context [if ?c =? 0 then _ else _] => destruct (c =? 0) eqn:Q end; cbn [bind] in E; try discriminate E.
    all: apply Z.eqb_eq in Q; try subst y; split; [tauto|]; eauto 8. }
  destruct K as (k & K1 & K2). specialize (K1 ltac:(intros ->; unfold class, arithmetic, bitwise, relational in O; decompose [or] O; discriminate)).
  apply operands_panic in K1; [|assumption..].
  destruct K1 as (A & B & C). split; [exact A|]. split; [exact B|].
  destruct C as [C|[(_ & _ & C)|(l' & r' & C1 & C2 & C3)]]; [auto|auto|].
  right; right. exists l', r'. split; [exact C1|]. split; [exact C2|].
  eapply K2; [| | | |exact C3].
  - eapply wt_convert; [exact Wl|exact T|exact C1].
  - eapply wt_convert; [exact Wr|exact T|exact C2].
  - eapply Convert_type; eassumption.
  - eapply Convert_type; eassumption.
Qed.

Ltac pick := first [left; eexists; first [reflexivity | split; [reflexivity|assumption]] | right; pick | eexists; reflexivity].
Lemma value_cases v : well_typed v -> ~ null v ->
  (exists b, v = vBool b) \/ (exists n, v = vInt32 n /\ is_i32 n) \/ (exists n, v = vInt64 n /\ is_i64 n) \/
  (exists d, v = vDec d) \/ (exists f, v = vDouble f) \/ (exists s, v = vStr s) \/
  (exists g, v = vGuid g) \/ (exists t, v = vTime t).
Proof.
  intros [_ W] N. destruct v as [t [g|]]; [|exfalso; apply N; reflexivity].
  specialize (W g eq_refl). cbn in W. destruct t, g; cbn in W; try contradiction; pick.
Qed.
Ltac vcases W N :=
  destruct (value_cases _ W N) as [(?x & ->)|[(?x & -> & ?R)|[(?x & -> & ?R)|[(?x & ->)|[(?x & ->)|[(?x & ->)|[(?x & ->)|(?x & ->)]]]]]]].

Lemma kernel_zero_divisor L o l r t r' : well_typed l -> well_typed r -> ~ null l -> ~ null r ->
  deriveOperation o (ve_type l) (ve_type r) = Ok t ->
  Convert L r t = Ok r' -> kernel_zero o t r' -> division_by_zero o l r.
Proof.
  intros Wl Wr Nl Nr D C (O & K). unfold division_by_zero. split; [exact Nl|].
  assert (ND : numeric (ve_type l) /\ numeric (ve_type r) /\ wider (ve_type l) (ve_type r) t).
  { unfold numeric, wider. destruct O as [-> | ->]; destruct (ve_type l), (ve_type r); cbn in D; try discriminate D; injection D as <-; cbn; repeat split; auto; lia. }
  destruct ND as (Ml & Mr & Wd).
  split; [|split; [exact Ml|exists t; split; [exact Wd|]]].
  - unfold is_zero. clear Wl Nl D O Ml. vcases Wr Nr; unfold numeric in Mr; cbn in Mr; try lia; cbn in C.
    all: destruct K as [(-> & K)|[(-> & K)|(-> & d & K & Z)]]; try (exfalso; unfold wider in Wd; cbn in Wd; lia).
    all: cbn in C; try discriminate C; injection C as <-; cbn in K; try discriminate K.
    all: injection K as K; try subst d; try (cbn in Z); try subst; eauto 8.
    all: destruct x; try discriminate; auto.
  - destruct O as [-> | ->]; [left|right]; (split; [reflexivity|]); destruct K as [(-> & K)|[(-> & K)|(-> & d & K & Z)]]; auto.
    exfalso. destruct (ve_type l), (ve_type r); cbn in D; discriminate D.
Qed.

Lemma shift_amount_nonneg w s : 0 < w -> is_i64 s -> 0 <= shift_amount w s.
Proof.
  intros Hw Hs. unfold shift_amount. destruct (s <? 0) eqn:Q; [|lia].
  assert (B : Z.rem (abs_int s) w < w).
  { destruct (Z.le_gt_cases 0 (abs_int s)).
    - pose proof (Z.rem_bound_pos (abs_int s) w). lia.
    - pose proof (Z.rem_nonpos (abs_int s) w). lia. }
  lia.
Qed.
Lemma like_np L l r x : well_typed l -> well_typed r -> likeOp L l r x <> Panic.
Proof.
  intros Wl Wr. acc Wl. acc Wr. unfold likeOp.
  destruct (IsNull l); [discriminate|].
  destruct (negb (vtype_eqb (ve_type l) VString) || negb (vtype_eqb (ve_type r) VString)) eqn:T; [discriminate|].
  apply orb_false_iff in T as [T1 T2]. apply negb_false_iff, vtype_eqb_spec in T1, T2.
  destruct (IsNull r); [discriminate|].
  apply np_bind; [tauto|intros p _]. apply np_bind; [tauto|intros q _]. cbv zeta.
  repeat match goal with |- (if ?b then _ else _) <> Panic => destruct b end; discriminate.
Qed.
Lemma like_bool L l r x v : likeOp L l r x = Ok v -> v = vNull VBoolean \/ exists b, v = vBool b.
Proof.
  unfold likeOp. intros E.
  repeat match type of E with (if ?b then _ else _) = _ => destruct b end; try discriminate E;
    [injection E as <-; auto|].
  inv_new. cbv zeta in E.
  repeat match type of E with (if ?b then _ else _) = _ => destruct b end; try discriminate E;
    injection E as <-; right; eexists; reflexivity.
Qed.
Lemma notlike_np L l r x : well_typed l -> well_typed r -> notLikeOp L l r x <> Panic.
Proof.
  intros Wl Wr. unfold notLikeOp. destruct (IsNull l); [discriminate|].
  apply np_bind; [apply like_np; assumption|]. intros v E.
  apply like_bool in E as [-> |[b ->]]; discriminate.
Qed.
Lemma logic_np f l r : well_typed l -> well_typed r -> logicOp f l r <> Panic.
Proof.
  intros Wl Wr. acc Wl. acc Wr. unfold logicOp. destruct (_ || _); [discriminate|].
  destruct (negb (vtype_eqb (ve_type l) VBoolean) || negb (vtype_eqb (ve_type r) VBoolean)) eqn:T; [discriminate|].
  apply orb_false_iff in T as [T1 T2]. apply negb_false_iff, vtype_eqb_spec in T1, T2.
  apply np_bind; [tauto|intros a _]. apply np_bind; [tauto|intros b _]. discriminate.
Qed.

Lemma operator_panic L o l r : well_typed l -> well_typed r ->
  (applyOperator L o l r = Panic <-> class o /\ bool_int32 l r \/ division_by_zero o l r).
Proof.
  intros Wl Wr. split.
  - intros E. destruct (oper_cases o) as [O|O].
    + destruct (deriveOperation o (ve_type l) (ve_type r)) as [t| |] eqn:D.
      * destruct (operands_kernel L o l r t O Wl Wr D E) as (Nl & Nr & [C|[C|(l' & r' & C1 & C2 & C3)]]).
        -- left. split; [exact O|]. destruct (derive_mixed o _ _ _ O D) as (M1 & M2 & M3).
           split; [exact Nl|]. split; [exact Nr|].
           apply convert_crash_type in C as [[C1 C2]|[C1 C2]]; [left; auto|]. destruct (M3 C2). contradiction.
        -- left. split; [exact O|]. destruct (derive_mixed o _ _ _ O D) as (M1 & M2 & M3).
           split; [exact Nl|]. split; [exact Nr|].
           apply convert_crash_type in C as [[C1 C2]|[C1 C2]]; [right; auto|]. destruct (M3 C2). contradiction.
        -- right. eapply kernel_zero_divisor; eassumption.
      * unfold applyOperator in E. rewrite D in E. discriminate E.
      * apply derive_not_panic in D. contradiction.
    + exfalso. unfold applyOperator in E.
      destruct (deriveOperation o (ve_type l) (ve_type r)) as [t| |] eqn:D; cbn [bind] in E; [|discriminate E|apply derive_not_panic in D; contradiction].
      acc Wl. acc Wr.
      pose proof shift_amount_nonneg as SH.
      unfold null_test in O.
      decompose [or] O; subst o; try discriminate E.
      * revert E. unfold bitShiftLeftOp, go_shl.
        destruct (IsNull l); [discriminate|]. destruct (negb (IsIntegerType (ve_type r))) eqn:TI; [discriminate|].
        destruct (IsNull r); [discriminate|].
        assert (NI : integerValue r 0 <> Panic) by (unfold integerValue; destruct (ve_type r); try discriminate; tauto).
        apply np_bind; [exact NI|]. intros s Hs. apply integerValue_range in Hs; [|assumption|unfold is_i64; lia].
        destruct (ve_type l); try discriminate; (apply np_bind; [tauto|intros n _]);
          (destruct (Z.ltb_spec (shift_amount 64 s) 0) as [Q|Q]; [specialize (SH 64 s); lia|]);
          (destruct (Z.ltb_spec (shift_amount 32 s) 0) as [Q'|Q']; [specialize (SH 32 s); lia|]); cbn [bind]; discriminate.
      * revert E. unfold bitShiftRightOp, go_shr.
        destruct (IsNull l); [discriminate|]. destruct (negb (IsIntegerType (ve_type r))) eqn:TI; [discriminate|].
        destruct (IsNull r); [discriminate|].
        assert (NI : integerValue r 0 <> Panic) by (unfold integerValue; destruct (ve_type r); try discriminate; tauto).
        apply np_bind; [exact NI|]. intros s Hs. apply integerValue_range in Hs; [|assumption|unfold is_i64; lia].
        destruct (ve_type l); try discriminate; (apply np_bind; [tauto|intros n _]);
          (destruct (Z.ltb_spec (shift_amount 64 s) 0) as [Q|Q]; [specialize (SH 64 s); lia|]);
          (destruct (Z.ltb_spec (shift_amount 32 s) 0) as [Q'|Q']; [specialize (SH 32 s); lia|]); cbn [bind]; discriminate.
      * revert E. apply like_np; assumption.
      * revert E. apply like_np; assumption.
      * revert E. apply notlike_np; assumption.
      * revert E. apply notlike_np; assumption.
      * revert E. apply logic_np; assumption.
      * revert E. apply logic_np; assumption.
  - intros [[O M]|M].
    + destruct M as (Nl & Nr & T).
      vcases Wl Nl; cbn in T; try (exfalso; intuition discriminate); vcases Wr Nr; cbn in T; try (exfalso; intuition discriminate);
        unfold class, arithmetic, bitwise, relational in O; decompose [or] O; subst o; try reflexivity; destruct x; try reflexivity; destruct x0; reflexivity.
    + destruct M as (Nl & Z & Ml & w & Wd & O).
      unfold wider in Wd. unfold is_zero in Z.
      vcases Wl Nl; unfold numeric in Ml; cbn in Ml; try lia; cbn [ve_type width vBool vInt32 vInt64 vDec vDouble] in Wd;
      destruct Z as [-> |[-> |[-> |(d & -> & Z)]]]; cbn in Wd;
        destruct O as [(-> & [-> |[-> | ->]])|(-> & [-> | ->])]; cbn in Wd; try lia;
        try (destruct Wd as [[Wd|Wd] _]; discriminate Wd); try reflexivity;
        try (destruct x; reflexivity).
      all: try (cbn; unfold go_decimal_div; rewrite Z; reflexivity).
      all: try (destruct x; cbn; unfold go_decimal_div; rewrite Z; reflexivity).
Qed.
