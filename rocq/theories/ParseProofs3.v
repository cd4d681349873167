(** The fuel of the parser suffices; expressions are parsed by the grammar, and only one way. *)
From Coq Require Import Lia ZifyBool ZifyNat.
From Verif Require Import Base ExprModel ParseModel ParseSpec ParseProofs ParseProofs2.
Open Scope list_scope.
Open Scope Z_scope.

Lemma expression_shorter n p ts e r : p <= 4 -> expression n p ts = Some (e, r) -> (length r < length ts)%nat.
Proof.
  intros P H. destruct (parse_sound n) as (IE & _). destruct (IE _ _ _ _ P H) as (u & -> & S & _).
  apply says_nonempty in S. rewrite app_length. destruct u; [congruence|cbn; lia].
Qed.
Lemma predicate_shorter n p ts e r : p <= 4 -> predicateExpression n p ts = Some (e, r) -> (length r < length ts)%nat.
Proof.
  intros P H. destruct (parse_sound n) as (_ & _ & IP & _). destruct (IP _ _ _ _ P H) as (u & -> & S & _).
  apply says_nonempty in S. rewrite app_length. destruct u; [congruence|cbn; lia].
Qed.
Lemma value_shorter n p ts e r : valueExpression n p ts = Some (e, r) -> (length r < length ts)%nat.
Proof.
  intros H. destruct (parse_sound n) as (_ & _ & _ & _ & IV & _). destruct (IV _ _ _ _ H) as (u & -> & S & _).
  apply says_nonempty in S. rewrite app_length. destruct u; [congruence|cbn; lia].
Qed.
Lemma list_shorter n ts l r : expressionList n ts = Some (l, r) -> (length r < length ts)%nat.
Proof.
  intros H. destruct (parse_sound n) as (_ & _ & _ & _ & _ & _ & IL). destruct (IL _ _ _ H) as (u & -> & S).
  apply list_begins in S. rewrite app_length. destruct u; [destruct S|cbn; lia].
Qed.

Lemma stable : forall n,
  (forall m p ts, p <= 4 -> (8 * length ts + 3 <= n)%nat -> (8 * length ts + 3 <= m)%nat -> expression n p ts = expression m p ts) /\
  (forall m p l ts, (8 * length ts + 1 <= n)%nat -> (8 * length ts + 1 <= m)%nat -> expression_loop n p l ts = expression_loop m p l ts) /\
  (forall m p ts, p <= 4 -> (8 * length ts + 2 <= n)%nat -> (8 * length ts + 2 <= m)%nat -> predicateExpression n p ts = predicateExpression m p ts) /\
  (forall m p l ts, (8 * length ts + 1 <= n)%nat -> (8 * length ts + 1 <= m)%nat -> predicate_loop n p l ts = predicate_loop m p l ts) /\
  (forall m p ts, (8 * length ts + 1 <= n)%nat -> (8 * length ts + 1 <= m)%nat -> valueExpression n p ts = valueExpression m p ts) /\
  (forall m p l ts, (8 * length ts + 1 <= n)%nat -> (8 * length ts + 1 <= m)%nat -> value_loop n p l ts = value_loop m p l ts) /\
  (forall m ts, (8 * length ts + 4 <= n)%nat -> (8 * length ts + 4 <= m)%nat -> expressionList n ts = expressionList m ts).
Proof.
  induction n as [|n (IE & IEL & IP & IPL & IV & IVL & IL)]; [repeat split; intros; lia|].
  repeat split.
  - intros m p ts P B C. destruct m as [|m]; [lia|]. cbn [expression]. destruct ts as [|t q]; [reflexivity|]. cbn [length] in *.
    destruct (notOperator t) eqn:O.
    + rewrite (IE m 3 q) by lia. destruct (expression m 3 q) as [[e r]|] eqn:E; [|reflexivity].
      apply expression_shorter in E; [|lia]. apply IEL; lia.
    + rewrite (IP m 0 (t :: q)) by (cbn [length]; lia). destruct (predicateExpression m 0 (t :: q)) as [[e r]|] eqn:E; [|reflexivity].
      apply predicate_shorter in E; [|lia]. cbn [length] in E. apply IEL; lia.
  - intros m p l ts B C. destruct m as [|m]; [lia|]. cbn [expression_loop]. destruct ts as [|t q]; [reflexivity|]. cbn [length] in *.
    destruct (logicalOperator t && (p <=? 2)); [|reflexivity].
    rewrite (IE m 3 q) by lia. destruct (expression m 3 q) as [[e r]|] eqn:E; [|reflexivity].
    apply expression_shorter in E; [|lia]. apply IEL; lia.
  - intros m p ts P B C. destruct m as [|m]; [lia|]. cbn [predicateExpression].
    rewrite (IV m 0 ts) by lia. destruct (valueExpression m 0 ts) as [[e r]|] eqn:E; [|reflexivity].
    apply value_shorter in E. apply IPL; lia.
  - intros m p l ts B C. destruct m as [|m]; [lia|]. cbn [predicate_loop].
    destruct (suffix_of ts) as [nt x q|nt q|o q|nt x q| |] eqn:SF; try reflexivity.
    + destruct (p <=? 5); [|reflexivity]. destruct (suffix_in _ _ _ _ SF) as (a & y & -> & _).
      repeat (rewrite app_length in B, C; cbn [length] in B, C). rewrite (IL m q) by lia.
      destruct (expressionList m q) as [[args r]|] eqn:E; [|reflexivity]. apply list_shorter in E.
      destruct r as [|t r]; [reflexivity|]. cbn [length] in E. tok t; try reflexivity. apply IPL; lia.
    + destruct (p <=? 4); [|reflexivity]. destruct (suffix_is _ _ _ SF) as (a & -> & _).
      cbn [length] in B, C. rewrite app_length in B, C; cbn [length] in B, C. apply IPL; lia.
    + destruct (p <=? 3); [|reflexivity]. destruct (suffix_comparison _ _ _ SF) as (-> & _).
      cbn [length] in B, C. rewrite (IP m 4 q) by lia. destruct (predicateExpression m 4 q) as [[e r]|] eqn:E; [|reflexivity].
      apply predicate_shorter in E; [|lia]. apply IPL; lia.
    + destruct (p <=? 2); [|reflexivity]. destruct (suffix_like _ _ _ _ SF) as (a & y & -> & _).
      repeat (rewrite app_length in B, C; cbn [length] in B, C).
      rewrite (IP m 3 q) by lia. destruct (predicateExpression m 3 q) as [[e r]|] eqn:E; [|reflexivity].
      apply predicate_shorter in E; [|lia]. apply IPL; lia.
  - intros m p ts B C. destruct m as [|m]; [lia|]. cbn [valueExpression].
    assert (A : forall k e r, (8 * length ts <= k)%nat ->
      match ts with
      | TIdent name :: r => Some (PColumn name, r)
      | TFunc f :: TSym LeftParen :: TSym RightParen :: r => Some (PCall f [], r)
      | TFunc f :: TSym LeftParen :: r =>
        let? (args, r) := expressionList k r in
        match r with TSym RightParen :: r => Some (PCall f args, r) | _ => None end
      | TSym LeftParen :: r =>
        let? (e, r) := expression k 0 r in
        match r with TSym RightParen :: r => Some (e, r) | _ => None end
      | t :: r =>
        if literalValue t then Some (PLiteral t, r)
        else if unaryOperator t then let? (e, r) := valueExpression k 4 r in Some (PUnary t e, r)
        else None
      | [] => None
      end = Some (e, r) -> (length r < length ts)%nat).
    { intros k e r BK H. destruct ts as [|t q]; [discriminate|]. cbn [length] in *.
      assert (LIT : forall t', Some (PLiteral t', q) = Some (e, r) -> (length r < S (length q))%nat) by (intros t' X; injection X as <- <-; lia).
      assert (UN : forall t', match valueExpression k 4 q with Some (e, r) => Some (PUnary t' e, r) | None => None end = Some (e, r) -> (length r < S (length q))%nat).
      { intros t' X. destruct (valueExpression k 4 q) as [[e' r']|] eqn:E; [|discriminate]. injection X as <- <-. apply value_shorter in E. lia. }
      destruct t as [s|w|f|s|s|s|s|s|s|s|s|s|s]; cbn [literalValue unaryOperator] in H; try discriminate; try (eapply LIT; exact H).
      - destruct s; cbn [literalValue unaryOperator] in H; try discriminate; try (eapply UN; exact H).
        destruct (expression k 0 q) as [[e' r']|] eqn:E; [|discriminate]. apply expression_shorter in E; [|lia].
        destruct r' as [|t r']; [discriminate|]. tok t; try discriminate. injection H as <- <-. cbn [length] in E. lia.
      - destruct w; cbn [literalValue unaryOperator] in H; try discriminate; try (eapply UN; exact H); eapply LIT; exact H.
      - destruct q as [|t q]; [discriminate|]. tok t; try discriminate. cbn [length].
        assert (X : match expressionList k q with Some (args, TSym RightParen :: r) => Some (PCall f args, r) | _ => None end = Some (e, r) -> (length r < S (S (length q)))%nat).
        { intros X. destruct (expressionList k q) as [[args s]|] eqn:EL; [|discriminate]. apply list_shorter in EL.
          destruct s as [|t s]; [discriminate|]. tok t; try discriminate. injection X as <- <-. cbn [length] in EL. lia. }
        destruct q as [|t q]; [apply X; destruct (expressionList k []) as [[? ?]|]; exact H|].
        tok t; try (apply X; destruct (expressionList k _) as [[? ?]|]; exact H).
        injection H as <- <-. cbn [length]. lia.
      - injection H as <- <-. lia. }
    match goal with |- match ?a with _ => _ end = match ?b with _ => _ end => assert (EQ : a = b) end.
    { destruct ts as [|t q]; [reflexivity|]. cbn [length] in *.
      destruct t as [s|w|f|s|s|s|s|s|s|s|s|s|s]; try reflexivity.
      - destruct s; try reflexivity; cbn [literalValue unaryOperator]; try (rewrite (IV m 4 q) by lia; reflexivity).
        rewrite (IE m 0 q) by lia. reflexivity.
      - destruct w; try reflexivity; cbn [literalValue unaryOperator]; rewrite (IV m 4 q) by lia; reflexivity.
      - destruct q as [|t q]; [reflexivity|]. cbn [length] in *. tok t; try reflexivity. rewrite (IL m q) by lia. reflexivity. }
    rewrite EQ.
    match goal with |- match ?a with _ => _ end = _ => destruct a as [[e r]|] eqn:E; [|reflexivity] end.
    apply A in E; [|lia]. apply IVL; lia.
  - intros m p l ts B C. destruct m as [|m]; [lia|]. cbn [value_loop]. destruct ts as [|t q]; [reflexivity|]. cbn [length] in *.
    destruct (mathOperator t && (p <=? 2)).
    + rewrite (IV m 3 q) by lia. destruct (valueExpression m 3 q) as [[e r]|] eqn:E; [|reflexivity]. apply value_shorter in E. apply IVL; lia.
    + destruct (bitwiseOperator t && (p <=? 1)); [|reflexivity].
      rewrite (IV m 2 q) by lia. destruct (valueExpression m 2 q) as [[e r]|] eqn:E; [|reflexivity]. apply value_shorter in E. apply IVL; lia.
  - intros m ts B C. destruct m as [|m]; [lia|]. cbn [expressionList].
    rewrite (IE m 0 ts) by lia. destruct (expression m 0 ts) as [[e r]|] eqn:E; [|reflexivity]. apply expression_shorter in E; [|lia].
    destruct r as [|t r]; [reflexivity|]. cbn [length] in E. tok t; try reflexivity. rewrite (IL m r) by lia. reflexivity.
Qed.

(** An expression is read to its end and no further. *)
Definition closed_by (r : list token) : Prop := no_math r /\ no_bitwise r /\ suffix_of r = Nothing /\ no_logical r.

Theorem expression_complete ts e r : says LLogical ts e -> closed_by r -> expression (enough (ts ++ r)) 0 (ts ++ r) = Some (e, r).
Proof.
  intros S (NM & NB & SU & NL).
  destruct (parse_complete _ _ _ S 0 r (e, r) ltac:(lia) NM NB SU) as (N & H).
  { apply expr_stop. intros; exact NL. }
  destruct (stable (enough (ts ++ r))) as (IE & _).
  rewrite (IE (N + enough (ts ++ r))%nat 0) by (unfold enough; lia). apply H. lia.
Qed.
Theorem expression_sound ts e r : expression (enough ts) 0 ts = Some (e, r) -> exists u, ts = u ++ r /\ says LLogical u e.
Proof.
  intros H. destruct (parse_sound (enough ts)) as (IE & _). destruct (IE 0 _ _ _ ltac:(lia) H) as (u & -> & S & _). eauto.
Qed.
Lemma closed_nil : closed_by [].
Proof. repeat split. Qed.
Theorem says_unique ts e1 e2 : says LLogical ts e1 -> says LLogical ts e2 -> e1 = e2.
Proof.
  intros S1 S2. pose proof (expression_complete _ _ [] S1 closed_nil) as H1. pose proof (expression_complete _ _ [] S2 closed_nil) as H2. congruence.
Qed.
