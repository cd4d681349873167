(** A sort that meets the specification of sort.Slice, for the examples, and
    the depth of nested computed columns. *)
From Coq Require Import String QArith Permutation Sorting.Sorted Lia ZifyBool ZifyNat.
From Verif Require Import Base GuidModel GuidSpec StrModel NumModel ExprModel ExprSpec TableModel TableSpec.
Close Scope Q_scope.
Open Scope Z_scope.

Fixpoint insert (less : drow -> drow -> bool) (x : drow) (l : list drow) : list drow :=
  match l with [] => [x] | y :: l' => if less x y then x :: l else y :: insert less x l' end.
Definition insertion_sort (less : drow -> drow -> bool) (l : list drow) : list drow := fold_right (insert less) [] l.

Lemma insert_perm less x l : Permutation (x :: l) (insert less x l).
Proof.
  induction l as [|y l IH]; cbn [insert]; [reflexivity|]. destruct (less x y); [reflexivity|].
  rewrite perm_swap. apply perm_skip. exact IH.
Qed.
Lemma sort_perm less l : Permutation l (insertion_sort less l).
Proof.
  induction l as [|x l IH]; cbn [insertion_sort fold_right]; [reflexivity|].
  rewrite <- insert_perm. apply perm_skip. exact IH.
Qed.
Definition after (less : drow -> drow -> bool) (a b : drow) : Prop := less b a = false.

Lemma after_trans less l a b c : strict_weak_order less l -> In a l -> In b l -> In c l ->
  after less a b -> after less b c -> after less a c.
Proof.
  intros (S1 & S2 & S3) Ha Hb Hc. unfold after. intros X Y. destruct (less c a) eqn:E; [|reflexivity]. exfalso.
  destruct (less a b) eqn:E1.
  - rewrite (S2 c a b) in Y by assumption. discriminate.
  - destruct (less b c) eqn:E2.
    + rewrite (S2 b c a) in X by assumption. discriminate.
    + destruct (S3 a b c Ha Hb Hc E1 X E2 Y) as [_ Z]. congruence.
Qed.
Lemma insert_sorted less l0 x l : strict_weak_order less l0 -> In x l0 -> (forall y, In y l -> In y l0) ->
  StronglySorted (after less) l -> StronglySorted (after less) (insert less x l).
Proof.
  intros S Hx. induction l as [|y l IH]; intros Hl H; cbn [insert]; [repeat constructor|].
  inversion H as [|? ? H1 H2]; subst. destruct (less x y) eqn:E.
  - constructor; [exact H|].
    assert (A : after less x y).
    { unfold after. destruct (less y x) eqn:E2; [|reflexivity]. destruct S as (S1 & S2 & _).
      rewrite <- (S1 x Hx). symmetry. apply (S2 x y x); auto. apply Hl. left. reflexivity. }
    constructor; [exact A|]. rewrite List.Forall_forall in *. intros z Hz. eapply (after_trans less l0 x y z); eauto; apply Hl; cbn; auto.
  - constructor; [apply IH; [intros z Hz; apply Hl; right; exact Hz|exact H1]|].
    rewrite List.Forall_forall in *. intros z Hz. apply (Permutation_in _ (Permutation_sym (insert_perm less x l))) in Hz as [<-|Hz]; [exact E|auto].
Qed.
Lemma sort_sorted less l0 l : strict_weak_order less l0 -> (forall y, In y l -> In y l0) -> StronglySorted (after less) (insertion_sort less l).
Proof.
  intros S. induction l as [|x l IH]; intros Hl; cbn [insertion_sort fold_right]; [constructor|].
  apply (insert_sorted less l0); [exact S|apply Hl; left; reflexivity| |apply IH; intros y Hy; apply Hl; right; exact Hy].
  intros y Hy. apply Hl. right. apply (Permutation_in _ (Permutation_sym (sort_perm less l))). exact Hy.
Qed.
Lemma sorted_in_order less l : StronglySorted (after less) l -> in_order less l.
Proof.
  intros H l1. revert l H. induction l1 as [|x l1 IH]; intros l H a l2 b l3 ->; cbn [app] in H; inversion H as [|? ? H1 H2]; subst.
  - rewrite List.Forall_forall in H2. apply H2. apply in_app_iff. right. left. reflexivity.
  - eapply IH; [exact H1|reflexivity].
Qed.
Lemma insertion_sorts : sorts insertion_sort.
Proof.
  intros less l. split; [apply sort_perm|]. intros S. apply sorted_in_order. eapply sort_sorted; [exact S|auto].
Qed.
