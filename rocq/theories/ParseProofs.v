(** The parser reads exactly the grammar of ParseSpec: soundness. *)
From Coq Require Import Lia ZifyBool ZifyNat.
From Verif Require Import Base ExprModel ParseModel ParseSpec.
Open Scope list_scope.
Open Scope Z_scope.

(** ** The classes of tokens *)

Lemma not_in t : notOperator t = true <-> In t not_tokens.
Proof. split; [destruct t as [[]|[]|f|x|x|x|x|x|x|x|x|x|x]; cbn; intuition congruence | cbn; intros H; intuition (subst; reflexivity)]. Qed.
Lemma unary_in t : unaryOperator t = true <-> In t unary_tokens.
Proof. split; [destruct t as [[]|[]|f|x|x|x|x|x|x|x|x|x|x]; cbn; intuition congruence | cbn; intros H; intuition (subst; reflexivity)]. Qed.
Lemma exact_in t : exactMatchModifier t = true <-> In t exact_tokens.
Proof. split; [destruct t as [[]|[]|f|x|x|x|x|x|x|x|x|x|x]; cbn; intuition congruence | cbn; intros H; intuition (subst; reflexivity)]. Qed.
Lemma comparison_in t : comparisonOperator t = true <-> In t comparison_tokens.
Proof. split; [destruct t as [[]|[]|f|x|x|x|x|x|x|x|x|x|x]; cbn; intuition congruence | cbn; intros H; intuition (subst; reflexivity)]. Qed.
Lemma logical_in t : logicalOperator t = true <-> In t logical_tokens.
Proof. split; [destruct t as [[]|[]|f|x|x|x|x|x|x|x|x|x|x]; cbn; intuition congruence | cbn; intros H; intuition (subst; reflexivity)]. Qed.
Lemma bitwise_in t : bitwiseOperator t = true <-> In t bitwise_tokens.
Proof. split; [destruct t as [[]|[]|f|x|x|x|x|x|x|x|x|x|x]; cbn; intuition congruence | cbn; intros H; intuition (subst; reflexivity)]. Qed.
Lemma math_in t : mathOperator t = true <-> In t math_tokens.
Proof. split; [destruct t as [[]|[]|f|x|x|x|x|x|x|x|x|x|x]; cbn; intuition congruence | cbn; intros H; intuition (subst; reflexivity)]. Qed.
Lemma literal_iff t : literalValue t = true <-> literal t.
Proof. split; [destruct t as [[]|[]|f|x|x|x|x|x|x|x|x|x|x]; cbn; intros H; try discriminate; constructor | intros H; destruct H; reflexivity]. Qed.

(** What the next token must not be for a construct to end *)
Definition starts (p : token -> bool) (ts : list token) : bool := match ts with t :: _ => p t | [] => false end.
Definition no_math (r : list token) : Prop := starts mathOperator r = false.
Definition no_bitwise (r : list token) : Prop := starts bitwiseOperator r = false.
Definition no_logical (r : list token) : Prop := starts logicalOperator r = false.
Definition no_suffix (r : list token) : Prop :=
  match suffix_of r with AfterIn _ _ _ | AfterIs _ _ | Malformed => False | _ => True end.
Definition no_comparison (r : list token) : Prop := match suffix_of r with AfterComparison _ _ => False | _ => True end.
Definition no_like (r : list token) : Prop := match suffix_of r with AfterLike _ _ _ => False | _ => True end.

(** ** Optional words and suffixes *)

Lemma optional_sound p words ts b r : (forall t, p t = true <-> In t words) ->
  optional p ts = (b, r) -> exists u, ts = u ++ r /\ maybe words b u.
Proof.
  intros W. destruct ts as [|t ts]; cbn [optional]; intros H.
  - injection H as <- <-. exists []. split; [reflexivity|constructor].
  - destruct (p t) eqn:E; injection H as <- <-.
    + exists [t]. split; [reflexivity|]. constructor. apply W, E.
    + exists []. split; [reflexivity|constructor].
Qed.
Definition plain_suffix (ts : list token) : suffix :=
  match ts with
  | [] => Nothing
  | TKey KIs :: r => let '(n, r) := optional notOperator r in match r with TKey KNull :: r => AfterIs n r | _ => Malformed end
  | t :: r => if comparisonOperator t then AfterComparison t r else Nothing
  end.
Ltac tok t := destruct t as [[]|[]|?f|?z|?z|?z|?z|?z|?z|?z|?z|?z|?z].
Lemma suffix_in ts nt x r : suffix_of ts = AfterIn nt x r ->
  exists n y, ts = n ++ TKey KIn :: y ++ TSym LeftParen :: r /\ maybe not_tokens nt n /\ maybe exact_tokens x y.
Proof.
  unfold suffix_of. destruct (optional notOperator ts) as [b q] eqn:O.
  destruct (optional_sound _ _ _ _ _ not_in O) as (u & -> & M).
  assert (Z : plain_suffix (u ++ q) <> AfterIn nt x r).
  { unfold plain_suffix. destruct (u ++ q) as [|t l]; [discriminate|]. tok t; cbn; try discriminate.
    destruct (optional notOperator l) as [b' l']; destruct l' as [|t l']; [discriminate|]. tok t; discriminate. }
  intros H. destruct q as [|t q].
  - exfalso. apply Z. exact H.
  - destruct t as [s|k|f|s|s|s|s|s|s|s|s|s|s]; try (exfalso; apply Z; exact H).
    destruct k; try (exfalso; apply Z; exact H).
    + destruct (optional exactMatchModifier q) as [x' q'] eqn:X.
      destruct (optional_sound _ _ _ _ _ exact_in X) as (y & -> & M').
      destruct q' as [|t q']; [discriminate|]. tok t; try discriminate. injection H as <- <- <-. eauto.
    + destruct (optional exactMatchModifier q); discriminate.
Qed.
Lemma suffix_like ts nt x r : suffix_of ts = AfterLike nt x r ->
  exists n y, ts = n ++ TKey KLike :: y ++ r /\ maybe not_tokens nt n /\ maybe exact_tokens x y.
Proof.
  unfold suffix_of. destruct (optional notOperator ts) as [b q] eqn:O.
  destruct (optional_sound _ _ _ _ _ not_in O) as (u & -> & M).
  assert (Z : match u ++ q with
              | [] => Nothing
              | TKey KIs :: r => let '(n, r) := optional notOperator r in match r with TKey KNull :: r => AfterIs n r | _ => Malformed end
              | t :: r => if comparisonOperator t then AfterComparison t r else Nothing
              end <> AfterLike nt x r).
  { destruct (u ++ q) as [|t l]; [discriminate|]. tok t; cbn; try discriminate.
    destruct (optional notOperator l) as [b' l']; destruct l' as [|t l']; [discriminate|]. tok t; discriminate. }
  intros H. destruct q as [|t q].
  - exfalso. apply Z. exact H.
  - destruct t as [s|k|f|s|s|s|s|s|s|s|s|s|s]; try (exfalso; apply Z; exact H).
    destruct k; try (exfalso; apply Z; exact H).
    + destruct (optional exactMatchModifier q) as [x' q']. destruct q' as [|t q']; [discriminate|]. tok t; discriminate.
    + destruct (optional exactMatchModifier q) as [x' q'] eqn:X.
      destruct (optional_sound _ _ _ _ _ exact_in X) as (y & -> & M').
      injection H as <- <- <-. eauto.
Qed.
Lemma suffix_is ts nt r : suffix_of ts = AfterIs nt r ->
  exists n, ts = TKey KIs :: n ++ TKey KNull :: r /\ maybe not_tokens nt n.
Proof.
  unfold suffix_of. destruct (optional notOperator ts) as [b q] eqn:O.
  intros H.
  assert (Z : match ts with
              | [] => Nothing
              | TKey KIs :: r => let '(n, r) := optional notOperator r in match r with TKey KNull :: r => AfterIs n r | _ => Malformed end
              | t :: r => if comparisonOperator t then AfterComparison t r else Nothing
              end = AfterIs nt r).
  { destruct q as [|t q]; [exact H|]. tok t; try exact H.
    - destruct (optional exactMatchModifier q) as [x' q']. destruct q' as [|t q']; [discriminate|]. tok t; discriminate.
    - destruct (optional exactMatchModifier q); discriminate. }
  destruct ts as [|t l]; [discriminate|]. tok t; cbn in Z; try discriminate.
  destruct (optional notOperator l) as [b' l'] eqn:O'. destruct (optional_sound _ _ _ _ _ not_in O') as (u & -> & M).
  destruct l' as [|t l']; [discriminate|]. tok t; try discriminate. injection Z as <- <-. eauto.
Qed.
Lemma suffix_comparison ts o r : suffix_of ts = AfterComparison o r -> ts = o :: r /\ comparisonOperator o = true.
Proof.
  unfold suffix_of. destruct (optional notOperator ts) as [b q] eqn:O.
  intros H.
  assert (Z : match ts with
              | [] => Nothing
              | TKey KIs :: r => let '(n, r) := optional notOperator r in match r with TKey KNull :: r => AfterIs n r | _ => Malformed end
              | t :: r => if comparisonOperator t then AfterComparison t r else Nothing
              end = AfterComparison o r).
  { destruct q as [|t q]; [exact H|]. tok t; try exact H.
    - destruct (optional exactMatchModifier q) as [x' q']. destruct q' as [|t q']; [discriminate|]. tok t; discriminate.
    - destruct (optional exactMatchModifier q); discriminate. }
  destruct ts as [|t l]; [discriminate|].
  tok t; cbn in Z; try discriminate; try (injection Z as <- <-; split; reflexivity).
  destruct (optional notOperator l) as [b' l'] eqn:O'. destruct l' as [|t l']; [discriminate|]. tok t; discriminate.
Qed.

(** ** Soundness *)

Definition vlevel (p : Z) : level := if p <=? 1 then LBitwise else if p <=? 2 then LMath else LUnary.
Definition plevel (p : Z) : level := if p <=? 2 then LLike else if p <=? 3 then LComparison else LSuffix.
Definition elevel (p : Z) : level := if p <=? 2 then LLogical else LNot.
(** What cannot follow, by the precedence *)
Definition vstop (p : Z) (r : list token) : Prop := (p <= 2 -> no_math r) /\ (p <= 1 -> no_bitwise r).
Definition pstop (p : Z) (r : list token) : Prop :=
  no_suffix r /\ (p <= 3 -> no_comparison r) /\ (p <= 2 -> no_like r).
Definition estop (p : Z) (r : list token) : Prop :=
  suffix_of r = Nothing /\ (p <= 2 -> no_logical r).

Ltac up := repeat first [eassumption | apply says_math_up | apply says_bitwise_up | apply says_suffix_up | apply says_comparison_up | apply says_like_up | apply says_logical_up].
Lemma value_up p ts e : says LUnary ts e -> says (vlevel p) ts e.
Proof. unfold vlevel. intros. destruct (p <=? 1); [|destruct (p <=? 2)]; up. Qed.
Lemma pred_up p ts e : says LSuffix ts e -> says (plevel p) ts e.
Proof. unfold plevel. intros. destruct (p <=? 2); [|destruct (p <=? 3)]; up. Qed.
Lemma expr_up p ts e : says LNot ts e -> says (elevel p) ts e.
Proof. unfold elevel. intros. destruct (p <=? 2); up. Qed.

(** The tree read so far, by what may still be attached to it *)
Definition vstate (p : Z) (l : ptree) (u ts : list token) : Prop :=
  (p <= 2 /\ says LMath u l) \/ (p <= 1 /\ says LBitwise u l /\ no_math ts) \/ says LUnary u l.
Definition pstate (p : Z) (l : ptree) (u ts : list token) : Prop :=
  says LSuffix u l \/ (p <= 3 /\ says LComparison u l /\ no_suffix ts) \/ (p <= 2 /\ says LLike u l /\ no_suffix ts /\ no_comparison ts).

Lemma says_nonempty : forall l ts e, says l ts e -> ts <> [].
Proof. intros l ts e H. induction H; try congruence; destruct a; try discriminate; congruence. Qed.

Ltac norm := repeat first [rewrite <- app_assoc | progress cbn [app]].
Ltac norm_in H := repeat first [rewrite <- app_assoc in H | progress cbn [app] in H].
Ltac opt_inv H :=
  match type of H with
  | match ?x with _ => _ end = Some _ => let E := fresh "E" in destruct x as [[? ?]|] eqn:E; [|discriminate H]
  end.

Lemma parse_sound : forall n,
  (forall p ts e r, p <= 4 -> expression n p ts = Some (e, r) -> exists u, ts = u ++ r /\ says (elevel p) u e /\ estop p r) /\
  (forall p l ts e r u, expression_loop n p l ts = Some (e, r) -> says (elevel p) u l -> estop 3 ts -> exists v, ts = v ++ r /\ says (elevel p) (u ++ v) e /\ estop p r) /\
  (forall p ts e r, p <= 4 -> predicateExpression n p ts = Some (e, r) -> exists u, ts = u ++ r /\ says (plevel p) u e /\ pstop p r) /\
  (forall p l ts e r u, p <= 4 -> predicate_loop n p l ts = Some (e, r) -> pstate p l u ts ->
     exists v, ts = v ++ r /\ says (plevel p) (u ++ v) e /\ pstop p r) /\
  (forall p ts e r, valueExpression n p ts = Some (e, r) -> exists u, ts = u ++ r /\ says (vlevel p) u e /\ vstop p r) /\
  (forall p l ts e r u, value_loop n p l ts = Some (e, r) -> vstate p l u ts -> exists v, ts = v ++ r /\ says (vlevel p) (u ++ v) e /\ vstop p r) /\
  (forall ts l r, expressionList n ts = Some (l, r) -> exists u, ts = u ++ r /\ says_list u l).
Proof.
  induction n as [|n (IE & IEL & IP & IPL & IV & IVL & IL)]; [repeat split; intros; discriminate|].
  repeat split.
  - (* expression *)
    intros p ts e r P H. cbn [expression] in H. destruct ts as [|t q]; [discriminate|].
    assert (A : forall x s, (if notOperator t then match expression n 3 q with Some (e, r) => Some (PNot e, r) | None => None end
                             else predicateExpression n 0 (t :: q)) = Some (x, s) ->
              exists u, t :: q = u ++ s /\ says LNot u x /\ estop 3 s).
    { intros x s HX. destruct (notOperator t) eqn:NT.
      - opt_inv HX. injection HX as <- <-. destruct (IE 3 _ _ _ ltac:(lia) E) as (u & -> & S & ST).
        exists (t :: u). split; [reflexivity|]. split; [constructor; [apply not_in, NT | exact S]|exact ST].
      - destruct (IP 0 _ _ _ ltac:(lia) HX) as (u & EQ & S & (SU & C & LK)). exists u. split; [exact EQ|].
        pose proof (says_nonempty _ _ _ S) as NE. destruct u as [|t' u]; [congruence|].
        cbn [app] in EQ. injection EQ as <- ->. split.
        + apply says_not_up; [exact S|]. rewrite <- not_in, NT. discriminate.
        + split; [|intros; lia].
          specialize (C ltac:(lia)); specialize (LK ltac:(lia)). unfold no_suffix, no_comparison, no_like in *.
          destruct (suffix_of s); tauto || reflexivity. }
    opt_inv H. destruct (A _ _ eq_refl) as (u & EQ & S & ST). rewrite EQ.
    destruct (IEL _ _ _ _ _ u H (expr_up _ _ _ S) ST) as (v & -> & S' & ST').
    exists (u ++ v). rewrite app_assoc. auto.
  - (* expression_loop *)
    intros p l ts e r u H S ST. cbn [expression_loop] in H. destruct ts as [|t q].
    + injection H as <- <-. exists []. rewrite !app_nil_r. repeat split; auto.
    + destruct (logicalOperator t && (p <=? 2)) eqn:C.
      * apply andb_prop in C. destruct C as [C1 C2].
        opt_inv H. destruct (IE 3 _ _ _ ltac:(lia) E) as (v & -> & S' & ST').
        assert (EL : elevel p = LLogical) by (unfold elevel; rewrite C2; reflexivity).
        destruct (IEL _ _ _ _ _ (u ++ t :: v) H) as (w & -> & S'' & ST'').
        { rewrite EL in *. apply says_logical; [exact S | apply logical_in, C1 | exact S']. }
        { exact ST'. }
        exists (t :: v ++ w). rewrite EL in *. split; [cbn; rewrite <- app_assoc; reflexivity|]. split; [|exact ST''].
        rewrite <- app_assoc in S''. exact S''.
      * injection H as <- <-. exists []. rewrite !app_nil_r. split; [reflexivity|]. split; [exact S|].
        destruct ST as (SU & _). split; [exact SU|]. intros P. unfold no_logical. cbn. apply andb_false_iff in C. destruct C; [assumption|lia].
  - (* predicateExpression *)
    intros p ts e r P H. cbn [predicateExpression] in H. opt_inv H.
    destruct (IV _ _ _ _ E) as (u & -> & S & (M & B)).
    destruct (IPL _ _ _ _ _ u P H) as (v & -> & S' & ST'); [left; up|].
    exists (u ++ v). rewrite app_assoc. auto.
  - (* predicate_loop *)
    intros p l ts e r u P H S. cbn [predicate_loop] in H.
    destruct (suffix_of ts) as [nt x q|nt q|o q|nt x q| |] eqn:SF.
    + (* IN *)
      replace (p <=? 5) with true in H by lia. opt_inv H. destruct l1 as [|t l1]; [discriminate|]. tok t; try discriminate.
      destruct (suffix_in _ _ _ _ SF) as (a & y & -> & MN & MX).
      destruct (IL _ _ _ E) as (w & -> & SL).
      assert (S1 : says LSuffix u l).
      { destruct S as [S|[(_ & _ & NS)|(_ & _ & NS & _)]]; [exact S| |]; unfold no_suffix in NS; rewrite SF in NS; destruct NS. }
      assert (S2 : says LSuffix (u ++ a ++ TKey KIn :: y ++ TSym LeftParen :: w ++ [TSym RightParen]) (PIn nt x l l0)) by (apply says_in; assumption).
      destruct (IPL _ _ _ _ _ _ P H (or_introl S2)) as (v & -> & S' & ST').
      exists (a ++ TKey KIn :: y ++ TSym LeftParen :: w ++ TSym RightParen :: v).
      norm. norm_in S'. auto.
    + (* IS NULL *)
      replace (p <=? 4) with true in H by lia.
      destruct (suffix_is _ _ _ SF) as (a & -> & MN).
      assert (S1 : says LSuffix u l).
      { destruct S as [S|[(_ & _ & NS)|(_ & _ & NS & _)]]; [exact S| |]; unfold no_suffix in NS; rewrite SF in NS; destruct NS. }
      assert (S2 : says LSuffix (u ++ TKey KIs :: a ++ [TKey KNull]) (PIsNull nt l)) by (apply says_is_null; assumption).
      destruct (IPL _ _ _ _ _ _ P H (or_introl S2)) as (v & -> & S' & ST').
      exists (TKey KIs :: a ++ TKey KNull :: v).
      norm. norm_in S'. auto.
    + (* comparison *)
      destruct (suffix_comparison _ _ _ SF) as (-> & CO).
      destruct (p <=? 3) eqn:C.
      * opt_inv H. destruct (IP 4 _ _ _ ltac:(lia) E) as (w & -> & S' & (NS & _)).
        assert (S1 : says LComparison u l).
        { destruct S as [S|[(_ & S & _)|(_ & _ & _ & NC)]]; [up|up|]. unfold no_comparison in NC. rewrite SF in NC. destruct NC. }
        destruct (IPL _ _ _ _ _ (u ++ o :: w) P H) as (v & -> & S'' & ST'').
        { right; left. split; [lia|]. split; [|exact NS]. apply says_comparison; [exact S1|apply comparison_in, CO|exact S']. }
        exists (o :: w ++ v). rewrite <- app_assoc in S''. cbn [app] in S''. cbn [app]. rewrite <- app_assoc. auto.
      * injection H as <- <-. exists []. rewrite !app_nil_r. split; [reflexivity|]. split.
        { unfold plevel. rewrite C. replace (p <=? 2) with false by lia. destruct S as [S|[(X & _)|(X & _)]]; [exact S|lia|lia]. }
        unfold pstop, no_suffix, no_like. rewrite SF. repeat split; auto; intros; lia.
    + (* LIKE *)
      destruct (suffix_like _ _ _ _ SF) as (a & y & -> & MN & MX).
      destruct (p <=? 2) eqn:C.
      * opt_inv H. destruct (IP 3 _ _ _ ltac:(lia) E) as (w & -> & S' & (NS & NC & _)).
        assert (S1 : says LLike u l).
        { destruct S as [S|[(_ & S & _)|(_ & S & _)]]; [up|up|up]. }
        destruct (IPL _ _ _ _ _ (u ++ a ++ TKey KLike :: y ++ w) P H) as (v & -> & S'' & ST'').
        { right; right. split; [lia|]. split; [|split; [exact NS|apply NC; lia]]. apply says_like; assumption. }
        exists (a ++ TKey KLike :: y ++ w ++ v).
        norm. norm_in S''. auto.
      * injection H as <- <-. exists []. rewrite !app_nil_r. split; [reflexivity|]. split.
        { unfold plevel. rewrite C. destruct S as [S|[(X & S & _)|(X & _)]]; [|replace (p <=? 3) with true by lia; exact S|lia].
          destruct (p <=? 3); up. }
        unfold pstop, no_suffix, no_comparison. rewrite SF. repeat split; auto; intros; lia.
    + discriminate.
    + injection H as <- <-. exists []. rewrite !app_nil_r. split; [reflexivity|]. split.
      { unfold plevel. destruct S as [S|[(X & S & _)|(X & S & _)]].
        - destruct (p <=? 2); [|destruct (p <=? 3)]; up.
        - replace (p <=? 3) with true by lia. destruct (p <=? 2); up.
        - replace (p <=? 2) with true by lia. exact S. }
      unfold pstop, no_suffix, no_comparison, no_like. rewrite SF. auto.
  - (* valueExpression *)
    intros p ts e r H. cbn [valueExpression] in H. opt_inv H.
    assert (A : exists u, ts = u ++ l /\ says LUnary u p0).
    { clear H. destruct ts as [|t q]; [discriminate|].
      assert (LIT : forall t', literalValue t' = true -> Some (PLiteral t', q) = Some (p0, l) -> exists u, t' :: q = u ++ l /\ says LUnary u p0).
      { intros t' LV X. injection X as <- <-. exists [t']. split; [reflexivity|]. constructor. apply literal_iff, LV. }
      assert (UN : forall t', unaryOperator t' = true -> match valueExpression n 4 q with Some (e, r) => Some (PUnary t' e, r) | None => None end = Some (p0, l) ->
                   exists u, t' :: q = u ++ l /\ says LUnary u p0).
      { intros t' UO X. opt_inv X. injection X as <- <-. destruct (IV _ _ _ _ E0) as (u & -> & S & _).
        exists (t' :: u). split; [reflexivity|]. constructor; [apply unary_in, UO|exact S]. }
      destruct t as [s|k|f|s|s|s|s|s|s|s|s|s|s]; cbn [literalValue unaryOperator] in E; try discriminate; try (apply LIT; [reflexivity|exact E]).
      - destruct s; cbn [literalValue unaryOperator] in E; try discriminate; try (apply UN; [reflexivity|exact E]).
        opt_inv E. destruct l0 as [|t l0]; [discriminate|]. tok t; try discriminate. injection E as <- <-.
        destruct (IE 0 _ _ _ ltac:(lia) E0) as (u & -> & S & _).
        exists (TSym LeftParen :: u ++ [TSym RightParen]). split; [cbn; rewrite <- app_assoc; reflexivity|]. constructor. exact S.
      - destruct k; cbn [literalValue unaryOperator] in E; try discriminate; try (apply UN; [reflexivity|exact E]). apply LIT; [reflexivity|exact E].
      - destruct q as [|t q]; [discriminate|]. tok t; try discriminate.
        assert (C : match expressionList n q with Some (args, TSym RightParen :: r) => Some (PCall f args, r) | _ => None end = Some (p0, l) ->
                    exists u, TFunc f :: TSym LeftParen :: q = u ++ l /\ says LUnary u p0).
        { intros X. destruct (expressionList n q) as [[args s]|] eqn:EL; [|discriminate].
          destruct s as [|t s]; [discriminate|]. tok t; try discriminate. injection X as <- <-.
          destruct (IL _ _ _ EL) as (u & -> & S). exists (TFunc f :: TSym LeftParen :: u ++ [TSym RightParen]).
          split; [cbn; rewrite <- app_assoc; reflexivity|]. constructor. exact S. }
        destruct q as [|t q]; [apply C; destruct (expressionList n []) as [[? ?]|]; exact E|].
        tok t; try (apply C; destruct (expressionList n _) as [[? ?]|]; exact E).
        injection E as <- <-. exists [TFunc f; TSym LeftParen; TSym RightParen]. split; [reflexivity|constructor].
      - injection E as <- <-. exists [TIdent s]. split; [reflexivity|constructor]. }
    destruct A as (u & -> & S).
    destruct (IVL _ _ _ _ _ u H) as (v & -> & S' & ST'); [right; right; exact S|].
    exists (u ++ v). rewrite app_assoc. auto.
  - (* value_loop *)
    intros p l ts e r u H S. cbn [value_loop] in H.
    assert (DONE : says (vlevel p) u l).
    { unfold vlevel. destruct S as [(X & S)|[(X & S & _)|S]].
      - replace (p <=? 2) with true by lia. destruct (p <=? 1); up.
      - replace (p <=? 1) with true by lia. exact S.
      - destruct (p <=? 1); [|destruct (p <=? 2)]; up. }
    destruct ts as [|t q].
    + injection H as <- <-. exists []. rewrite !app_nil_r. split; [reflexivity|]. split; [exact DONE|]. split; intros; reflexivity.
    + destruct (mathOperator t && (p <=? 2)) eqn:C.
      * apply andb_prop in C. destruct C as [C1 C2]. opt_inv H. destruct (IV _ _ _ _ E) as (w & -> & S' & _).
        assert (S1 : says LMath u l).
        { destruct S as [(X & S)|[(X & S & NM)|S]]; [exact S| |up]. unfold no_math in NM. cbn in NM. congruence. }
        destruct (IVL _ _ _ _ _ (u ++ t :: w) H) as (v & -> & S'' & ST'').
        { left. split; [lia|]. apply says_math; [exact S1|apply math_in, C1|exact S']. }
        exists (t :: w ++ v). rewrite <- app_assoc in S''. cbn [app] in S''. cbn [app]. rewrite <- app_assoc. auto.
      * destruct (bitwiseOperator t && (p <=? 1)) eqn:D.
        -- apply andb_prop in D. destruct D as [D1 D2]. opt_inv H. destruct (IV _ _ _ _ E) as (w & -> & S' & (NM & _)).
           assert (S1 : says LBitwise u l).
           { destruct S as [(X & S)|[(X & S & _)|S]]; [up|up|up]. }
           destruct (IVL _ _ _ _ _ (u ++ t :: w) H) as (v & -> & S'' & ST'').
           { right; left. split; [lia|]. split; [|apply NM; lia]. apply says_bitwise; [exact S1|apply bitwise_in, D1|exact S']. }
           exists (t :: w ++ v). rewrite <- app_assoc in S''. cbn [app] in S''. cbn [app]. rewrite <- app_assoc. auto.
        -- injection H as <- <-. exists []. rewrite !app_nil_r. split; [reflexivity|]. split; [exact DONE|].
           apply andb_false_iff in C. apply andb_false_iff in D. unfold vstop, no_math, no_bitwise. cbn.
           split; intros; [destruct C|destruct D]; try assumption; lia.
  - (* expressionList *)
    intros ts l r H. cbn [expressionList] in H. opt_inv H. destruct (IE 0 _ _ _ ltac:(lia) E) as (u & -> & S & _).
    assert (ONE : Some ([p], l0) = Some (l, r) -> exists u0, u ++ l0 = u0 ++ r /\ says_list u0 l).
    { intros X. injection X as <- <-. exists u. split; [reflexivity|]. constructor. exact S. }
    destruct l0 as [|t q]; [apply ONE, H|]. tok t; try (apply ONE, H).
    opt_inv H. injection H as <- <-. destruct (IL _ _ _ E0) as (v & -> & SL).
    exists (u ++ TSym Comma :: v). split; [rewrite <- app_assoc; reflexivity|]. constructor; assumption.
Qed.
