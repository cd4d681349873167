(** The parser reads exactly the grammar of ParseSpec: completeness. *)
From Coq Require Import Lia ZifyBool ZifyNat.
From Verif Require Import Base ExprModel ParseModel ParseSpec ParseProofs.
Open Scope list_scope.
Open Scope Z_scope.

(** With fuel enough, the result *)
Definition ev {A} (f : nat -> option A) (x : A) : Prop := exists N, forall n, (N <= n)%nat -> f n = Some x.

Ltac ev_step :=
  repeat match goal with H : ev _ _ |- _ => let N := fresh "N" in destruct H as (N & H) end;
  match goal with
  | N1 : nat, N2 : nat, N3 : nat |- ev _ _ => exists (S (N1 + N2 + N3))
  | N1 : nat, N2 : nat |- ev _ _ => exists (S (N1 + N2))
  | N1 : nat |- ev _ _ => exists (S N1)
  | |- ev _ _ => exists 1%nat
  end;
  let n := fresh "n" in let L := fresh "L" in intros n L; destruct n as [|n]; [lia|].

Lemma ev_ext {A} (f g : nat -> option A) x : (forall n, f (S n) = g n) -> ev g x -> ev f x.
Proof. intros E (N & H). exists (S N). intros n L. destruct n as [|n]; [lia|]. rewrite E. apply H. lia. Qed.

(** ** The loops *)

Lemma value_stop p e r : vstop p r -> ev (fun n => value_loop n p e r) (e, r).
Proof.
  intros (M & B). exists 1%nat. intros n L. destruct n as [|n]; [lia|]. cbn [value_loop]. destruct r as [|t r]; [reflexivity|].
  destruct (p <=? 2) eqn:P.
  - unfold no_math in M. cbn in M. rewrite M by lia. cbn [andb]. destruct (p <=? 1) eqn:P'; [|rewrite andb_false_r; reflexivity].
    unfold no_bitwise in B. cbn in B. rewrite B by lia. reflexivity.
  - rewrite andb_false_r. replace (p <=? 1) with false by lia. rewrite andb_false_r. reflexivity.
Qed.
Lemma value_math p l o q e r res : mathOperator o = true -> p <= 2 -> ev (fun n => valueExpression n 3 q) (e, r) ->
  ev (fun n => value_loop n p (PMath o l e) r) res -> ev (fun n => value_loop n p l (o :: q)) res.
Proof.
  intros O P (N1 & H1) (N2 & H2). exists (Datatypes.S (N1 + N2))%nat. intros n L. destruct n as [|n]; [lia|]. cbn [value_loop].
  rewrite O. replace (p <=? 2) with true by lia. cbn [andb]. rewrite H1 by lia. apply H2. lia.
Qed.
Lemma bitwise_not_math o : bitwiseOperator o = true -> mathOperator o = false.
Proof. tok o; cbn; congruence. Qed.
Lemma value_bitwise p l o q e r res : bitwiseOperator o = true -> p <= 1 -> ev (fun n => valueExpression n 2 q) (e, r) ->
  ev (fun n => value_loop n p (PBitwise o l e) r) res -> ev (fun n => value_loop n p l (o :: q)) res.
Proof.
  intros O P (N1 & H1) (N2 & H2). exists (Datatypes.S (N1 + N2))%nat. intros n L. destruct n as [|n]; [lia|]. cbn [value_loop].
  rewrite (bitwise_not_math _ O), O. replace (p <=? 1) with true by lia. cbn [andb]. rewrite H1 by lia. apply H2. lia.
Qed.
Lemma pred_stop p e r : pstop p r -> ev (fun n => predicate_loop n p e r) (e, r).
Proof.
  intros (S & C & LK). exists 1%nat. intros n L. destruct n as [|n]; [lia|]. cbn [predicate_loop].
  unfold no_suffix, no_comparison, no_like in *. destruct (suffix_of r); try tauto.
  - destruct (p <=? 3) eqn:P; [exfalso; apply C; lia|reflexivity].
  - destruct (p <=? 2) eqn:P; [exfalso; apply LK; lia|reflexivity].
Qed.
Lemma pred_in p l ts nt x q args r res : suffix_of ts = AfterIn nt x q -> p <= 5 ->
  ev (fun n => expressionList n q) (args, TSym RightParen :: r) ->
  ev (fun n => predicate_loop n p (PIn nt x l args) r) res -> ev (fun n => predicate_loop n p l ts) res.
Proof.
  intros O P (N1 & H1) (N2 & H2). exists (Datatypes.S (N1 + N2))%nat. intros n L. destruct n as [|n]; [lia|]. cbn [predicate_loop].
  rewrite O. replace (p <=? 5) with true by lia. rewrite H1 by lia. apply H2. lia.
Qed.
Lemma pred_is p l ts nt r res : suffix_of ts = AfterIs nt r -> p <= 4 ->
  ev (fun n => predicate_loop n p (PIsNull nt l) r) res -> ev (fun n => predicate_loop n p l ts) res.
Proof.
  intros O P (N2 & H2). exists (S N2). intros n L. destruct n as [|n]; [lia|]. cbn [predicate_loop].
  rewrite O. replace (p <=? 4) with true by lia. apply H2. lia.
Qed.
Lemma pred_comparison p l ts o q e r res : suffix_of ts = AfterComparison o q -> p <= 3 ->
  ev (fun n => predicateExpression n 4 q) (e, r) ->
  ev (fun n => predicate_loop n p (PCompare o l e) r) res -> ev (fun n => predicate_loop n p l ts) res.
Proof.
  intros O P (N1 & H1) (N2 & H2). exists (Datatypes.S (N1 + N2))%nat. intros n L. destruct n as [|n]; [lia|]. cbn [predicate_loop].
  rewrite O. replace (p <=? 3) with true by lia. rewrite H1 by lia. apply H2. lia.
Qed.
Lemma pred_like p l ts nt x q e r res : suffix_of ts = AfterLike nt x q -> p <= 2 ->
  ev (fun n => predicateExpression n 3 q) (e, r) ->
  ev (fun n => predicate_loop n p (PLike nt x l e) r) res -> ev (fun n => predicate_loop n p l ts) res.
Proof.
  intros O P (N1 & H1) (N2 & H2). exists (Datatypes.S (N1 + N2))%nat. intros n L. destruct n as [|n]; [lia|]. cbn [predicate_loop].
  rewrite O. replace (p <=? 2) with true by lia. rewrite H1 by lia. apply H2. lia.
Qed.
Lemma expr_stop p e r : (p <= 2 -> no_logical r) -> ev (fun n => expression_loop n p e r) (e, r).
Proof.
  intros NL. exists 1%nat. intros n L. destruct n as [|n]; [lia|]. cbn [expression_loop]. destruct r as [|t r]; [reflexivity|].
  unfold no_logical in NL. cbn in NL. destruct (p <=? 2) eqn:P; [rewrite NL by lia|rewrite andb_false_r]; reflexivity.
Qed.
Lemma expr_logical p l o q e r res : logicalOperator o = true -> p <= 2 -> ev (fun n => expression n 3 q) (e, r) ->
  ev (fun n => expression_loop n p (PLogical o l e) r) res -> ev (fun n => expression_loop n p l (o :: q)) res.
Proof.
  intros O P (N1 & H1) (N2 & H2). exists (Datatypes.S (N1 + N2))%nat. intros n L. destruct n as [|n]; [lia|]. cbn [expression_loop].
  rewrite O. replace (p <=? 2) with true by lia. cbn [andb]. rewrite H1 by lia. apply H2. lia.
Qed.

(** ** Suffixes *)

Lemma maybe_optional p words b u r : (forall t, p t = true <-> In t words) -> maybe words b u -> starts p r = false ->
  optional p (u ++ r) = (b, r).
Proof.
  intros W M NS. destruct M as [|t T]; cbn [app optional].
  - destruct r as [|t r]; [reflexivity|]. cbn in NS |- *. rewrite NS. reflexivity.
  - rewrite (proj2 (W t) T). reflexivity.
Qed.
Lemma suffix_of_in nt n x y r : maybe not_tokens nt n -> maybe exact_tokens x y ->
  suffix_of (n ++ TKey KIn :: y ++ TSym LeftParen :: r) = AfterIn nt x r.
Proof.
  intros MN MX. unfold suffix_of. rewrite (maybe_optional _ _ _ _ _ not_in MN) by reflexivity.
  rewrite (maybe_optional _ _ _ _ _ exact_in MX) by reflexivity. reflexivity.
Qed.
Lemma suffix_of_is nt n r : maybe not_tokens nt n -> suffix_of (TKey KIs :: n ++ TKey KNull :: r) = AfterIs nt r.
Proof.
  intros MN. unfold suffix_of. cbn [optional notOperator]. rewrite (maybe_optional _ _ _ _ _ not_in MN) by reflexivity. reflexivity.
Qed.
Lemma suffix_of_comparison o r : In o comparison_tokens -> suffix_of (o :: r) = AfterComparison o r.
Proof. cbn. intuition (subst; reflexivity). Qed.
Lemma suffix_of_like nt n x y r : maybe not_tokens nt n -> maybe exact_tokens x y -> starts exactMatchModifier r = false ->
  suffix_of (n ++ TKey KLike :: y ++ r) = AfterLike nt x r.
Proof.
  intros MN MX NE. unfold suffix_of. rewrite (maybe_optional _ _ _ _ _ not_in MN) by reflexivity.
  rewrite (maybe_optional _ _ _ _ _ exact_in MX) by exact NE. reflexivity.
Qed.
Lemma suffix_of_logical o r : In o logical_tokens -> suffix_of (o :: r) = Nothing.
Proof. cbn. intuition (subst; reflexivity). Qed.

(** ** First tokens *)

Definition begins (t : token) : Prop :=
  match t with
  | TSym (Minus | Plus | Tilde | Bang | LeftParen) | TKey (KNot | KNull) | TFunc _ | TIdent _
  | TInt _ | TNum _ | TStr _ | TDate _ | TGuid _ | TBool _ => True
  | _ => False
  end.
Lemma says_begins l ts e : says l ts e -> match ts with t :: _ => begins t | [] => False end.
Proof.
  intros H. induction H; try exact I; try assumption.
  all: try solve [match goal with H : literal _ |- _ => destruct H; exact I end].
  all: try solve [match goal with H : In _ _ |- _ => cbn in H; intuition (subst; exact I) end].
  all: match goal with |- match ?a ++ _ with _ => _ end => destruct a; [contradiction|assumption] end.
Qed.
Lemma list_begins ts l : says_list ts l -> match ts with t :: _ => begins t | [] => False end.
Proof.
  intros H. destruct H as [ts e H|ts e us l H _]; apply says_begins in H; [exact H|].
  destruct ts; [destruct H|exact H].
Qed.

(** ** Completeness *)

Scheme says_mut := Induction for says Sort Prop with says_list_mut := Induction for says_list Sort Prop.

Definition complete (l : level) (ts : list token) (e : ptree) : Prop :=
  match l with
  | LUnary => forall p r res, ev (fun n => value_loop n p e r) res -> ev (fun n => valueExpression n p (ts ++ r)) res
  | LMath => forall p r res, p <= 2 -> ev (fun n => value_loop n p e r) res -> ev (fun n => valueExpression n p (ts ++ r)) res
  | LBitwise => forall p r res, p <= 1 -> no_math r -> ev (fun n => value_loop n p e r) res -> ev (fun n => valueExpression n p (ts ++ r)) res
  | LSuffix => forall p r res, p <= 4 -> no_math r -> no_bitwise r ->
               ev (fun n => predicate_loop n p e r) res -> ev (fun n => predicateExpression n p (ts ++ r)) res
  | LComparison => forall p r res, p <= 3 -> no_math r -> no_bitwise r -> no_suffix r ->
               ev (fun n => predicate_loop n p e r) res -> ev (fun n => predicateExpression n p (ts ++ r)) res
  | LLike => forall p r res, p <= 2 -> no_math r -> no_bitwise r -> no_suffix r -> no_comparison r ->
               ev (fun n => predicate_loop n p e r) res -> ev (fun n => predicateExpression n p (ts ++ r)) res
  | LNot => forall p r res, no_math r -> no_bitwise r -> suffix_of r = Nothing ->
               ev (fun n => expression_loop n p e r) res -> ev (fun n => expression n p (ts ++ r)) res
  | LLogical => forall p r res, p <= 2 -> no_math r -> no_bitwise r -> suffix_of r = Nothing ->
               ev (fun n => expression_loop n p e r) res -> ev (fun n => expression n p (ts ++ r)) res
  end.
Definition complete_list (ts : list token) (l : list ptree) : Prop :=
  forall r, ev (fun n => expressionList n (ts ++ TSym RightParen :: r)) (l, TSym RightParen :: r).

Lemma nothing_stops r : suffix_of r = Nothing -> no_suffix r /\ no_comparison r /\ no_like r.
Proof. unfold no_suffix, no_comparison, no_like. intros ->. auto. Qed.

Lemma parse_complete : forall l ts e (H : says l ts e), complete l ts e.
Proof.
  apply (says_mut (fun l ts e _ => complete l ts e) (fun ts l _ => complete_list ts l)); cbn [complete]; unfold complete_list.
  - (* literal *)
    intros t T p r res E. eapply ev_ext; [|exact E]. intros n. cbn [app]. destruct T; reflexivity.
  - intros name p r res E. eapply ev_ext; [|exact E]. intros n. reflexivity.
  - intros f p r res E. eapply ev_ext; [|exact E]. intros n. reflexivity.
  - (* call *)
    intros f ts args S IH p r res E. specialize (IH r). destruct IH as (N1 & H1), E as (N2 & H2).
    pose proof (list_begins _ _ S) as B. destruct ts as [|t ts]; [destruct B|].
    exists (Datatypes.S (N1 + N2))%nat. intros n L. destruct n as [|n]; [lia|].
    norm. norm_in H1. cbn [valueExpression].
    tok t; destruct B; rewrite H1 by lia; apply H2; lia.
  - (* parentheses *)
    intros ts e S IH p r res E.
    assert (P1 : ev (fun n => expression n 0 (ts ++ TSym RightParen :: r)) (e, TSym RightParen :: r)).
    { apply IH; try reflexivity; [lia|]. apply expr_stop. reflexivity. }
    destruct P1 as (N1 & H1), E as (N2 & H2). exists (Datatypes.S (N1 + N2))%nat. intros n L. destruct n as [|n]; [lia|].
    norm. cbn [valueExpression]. rewrite H1 by lia. apply H2; lia.
  - (* unary *)
    intros o ts e O S IH p r res E.
    assert (P1 : ev (fun n => valueExpression n 4 (ts ++ r)) (e, r)).
    { apply IH. apply value_stop. split; intros; lia. }
    destruct P1 as (N1 & H1), E as (N2 & H2). exists (Datatypes.S (N1 + N2))%nat. intros n L. destruct n as [|n]; [lia|].
    norm. cbn in O. cbn [valueExpression]. repeat (destruct O as [<-|O]; [cbn [literalValue unaryOperator]; rewrite H1 by lia; apply H2; lia|]). destruct O.
  - (* up *) intros ts e S IH p r res P E. apply IH. exact E.
  - intros ts e S IH p r res P NM E. apply IH; [lia|exact E].
  - intros ts e S IH p r res P NM NB E.
    assert (P1 : ev (fun n => valueExpression n 0 (ts ++ r)) (e, r)).
    { apply IH; [lia|exact NM|]. apply value_stop. split; intros; assumption. }
    destruct P1 as (N1 & H1), E as (N2 & H2). exists (Datatypes.S (N1 + N2))%nat. intros n L. destruct n as [|n]; [lia|].
    cbn [predicateExpression]. rewrite H1 by lia. apply H2; lia.
  - intros ts e S IH p r res P NM NB NS E. apply IH; [lia|exact NM|exact NB|exact E].
  - intros ts e S IH p r res P NM NB NS NC E. apply IH; [lia|exact NM|exact NB|exact NS|exact E].
  - (* not up *)
    intros t ts e S IH NT p r res NM NB SU E. destruct (nothing_stops _ SU) as (NS & NC & NL).
    assert (P1 : ev (fun n => predicateExpression n 0 ((t :: ts) ++ r)) (e, r)).
    { apply IH; try assumption; [lia|]. apply pred_stop. repeat split; intros; assumption. }
    destruct P1 as (N1 & H1), E as (N2 & H2). exists (Datatypes.S (N1 + N2))%nat. intros n L. destruct n as [|n]; [lia|].
    cbn [expression app]. destruct (notOperator t) eqn:O; [exfalso; apply NT, not_in, O|].
    cbn [app] in H1. rewrite H1 by lia. apply H2; lia.
  - intros ts e S IH p r res P NM NB SU E. apply IH; assumption.
  - (* math *)
    intros a o b l e S1 IH1 O S2 IH2 p r res P E. norm. apply IH1; [exact P|].
    eapply value_math; [apply math_in, O|exact P| |exact E].
    apply IH2. apply value_stop. split; intros; lia.
  - (* bitwise *)
    intros a o b l e S1 IH1 O S2 IH2 p r res P NM E. norm. apply bitwise_in in O.
    apply IH1; [exact P|unfold no_math; cbn; apply bitwise_not_math, O|].
    eapply value_bitwise; [exact O|exact P| |exact E].
    apply IH2; [lia|]. apply value_stop. split; intros; [exact NM|lia].
  - (* in *)
    intros a l nt nts x xts ts args S IH MN MX SL IHL p r res P NM NB E. norm.
    apply IH; [exact P| | |].
    + destruct MN as [|t T]; [reflexivity|]. cbn in T. destruct T as [<-|[<-|[]]]; reflexivity.
    + destruct MN as [|t T]; [reflexivity|]. cbn in T. destruct T as [<-|[<-|[]]]; reflexivity.
    + eapply pred_in; [apply suffix_of_in; eassumption|lia|apply IHL|exact E].
  - (* is null *)
    intros a l nt nts S IH MN p r res P NM NB E. norm.
    apply IH; [exact P|reflexivity|reflexivity|].
    eapply pred_is; [apply suffix_of_is; eassumption|lia|exact E].
  - (* comparison *)
    intros a o b l e S1 IH1 O S2 IH2 p r res P NM NB NS E. norm.
    pose proof (suffix_of_comparison o (b ++ r) O) as SO.
    apply IH1; [exact P| | | |].
    + cbn in O. unfold no_math. cbn. intuition (subst; reflexivity).
    + cbn in O. unfold no_bitwise. cbn. intuition (subst; reflexivity).
    + unfold no_suffix. rewrite SO. exact I.
    + eapply pred_comparison; [exact SO|exact P| |exact E].
      apply IH2; [lia|exact NM|exact NB|]. apply pred_stop. repeat split; [exact NS|intros; lia|intros; lia].
  - (* like *)
    intros a l nt nts x xts b e S1 IH1 MN MX S2 IH2 p r res P NM NB NS NC E. norm.
    assert (SO : suffix_of (nts ++ TKey KLike :: xts ++ b ++ r) = AfterLike nt x (b ++ r)).
    { apply suffix_of_like; [assumption|assumption|]. apply says_begins in S2. destruct b as [|t b]; [destruct S2|]. tok t; destruct S2; reflexivity. }
    apply IH1; [exact P| | | | |].
    + destruct MN as [|t T]; [reflexivity|]. cbn in T. destruct T as [<-|[<-|[]]]; reflexivity.
    + destruct MN as [|t T]; [reflexivity|]. cbn in T. destruct T as [<-|[<-|[]]]; reflexivity.
    + unfold no_suffix. rewrite SO. exact I.
    + unfold no_comparison. rewrite SO. exact I.
    + eapply pred_like; [exact SO|exact P| |exact E].
      apply IH2; [lia|exact NM|exact NB|exact NS|]. apply pred_stop. repeat split; [exact NS|intros; exact NC|intros; lia].
  - (* not *)
    intros t ts e T S IH p r res NM NB SU E.
    assert (P1 : ev (fun n => expression n 3 (ts ++ r)) (e, r)).
    { apply IH; try assumption. apply expr_stop. intros; lia. }
    destruct P1 as (N1 & H1), E as (N2 & H2). exists (Datatypes.S (N1 + N2))%nat. intros n L. destruct n as [|n]; [lia|].
    cbn [expression app]. rewrite (proj2 (not_in t) T). rewrite H1 by lia. apply H2; lia.
  - (* logical *)
    intros a o b l e S1 IH1 O S2 IH2 p r res P NM NB SU E. norm.
    apply IH1; [exact P| | | |].
    + cbn in O. unfold no_math. cbn. intuition (subst; reflexivity).
    + cbn in O. unfold no_bitwise. cbn. intuition (subst; reflexivity).
    + apply suffix_of_logical, O.
    + eapply expr_logical; [apply logical_in, O|exact P| |exact E].
      apply IH2; try assumption. apply expr_stop. intros; lia.
  - (* one *)
    intros ts e S IH r.
    assert (P1 : ev (fun n => expression n 0 (ts ++ TSym RightParen :: r)) (e, TSym RightParen :: r)).
    { apply IH; try reflexivity; [lia|]. apply expr_stop. reflexivity. }
    destruct P1 as (N1 & H1). exists (Datatypes.S N1). intros n L. destruct n as [|n]; [lia|].
    cbn [expressionList]. rewrite H1 by lia. reflexivity.
  - (* more *)
    intros ts e us l S IH SL IHL r. norm.
    assert (P1 : ev (fun n => expression n 0 (ts ++ TSym Comma :: us ++ TSym RightParen :: r)) (e, TSym Comma :: us ++ TSym RightParen :: r)).
    { apply IH; try reflexivity; [lia|]. apply expr_stop. reflexivity. }
    destruct P1 as (N1 & H1). destruct (IHL r) as (N2 & H2). exists (Datatypes.S (N1 + N2))%nat. intros n L. destruct n as [|n]; [lia|].
    cbn [expressionList]. rewrite H1 by lia. rewrite H2 by lia. reflexivity.
Qed.
