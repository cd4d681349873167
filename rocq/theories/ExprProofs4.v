(** MaxOf/MinOf and the string functions (C57, C59). *)
From Coq Require Import Lia ZifyBool ZifyNat QArith String.
From Verif Require Import Base BaseProofs GuidModel GuidSpec GuidProofs FormatModel StrModel CalModel NumModel ExprModel ExprSpec ExprProofs ExprPanic StrProofs ExprPanic2 ExprProofs2 ExprProofs3.
Close Scope Q_scope.
Open Scope list_scope.
Open Scope Z_scope.

(** ** MaxOf, MinOf *)
Definition usable (v : ve) : Prop := (null v /\ numeric (ve_type v)) \/ exists x, number_of v x.
Lemma number_type v x : number_of v x -> numeric (ve_type v) /\ ~ null v.
Proof. intros [? ? [? ?|? ?]|d]; split; try discriminate; unfold numeric; cbn; lia. Qed.
Lemma derive_ok a b : numeric a -> numeric b -> exists t, deriveComparison a b = Ok t.
Proof. unfold numeric. destruct a, b; cbn; intros; try lia; eexists; reflexivity. Qed.

Definition better (mx : bool) (x y : Q) : Prop := if mx then Qle y x else Qle x y.
Definition ext_op (L : lib) (mx : bool) := if mx then greaterThanOp L else lessThanOp L.
Definition ext_oper (mx : bool) : oper := if mx then OGreaterThan else OLessThan.
Lemma ext_apply L mx a b : applyOperator L (ext_oper mx) a b = let* t := deriveComparison (ve_type a) (ve_type b) in ext_op L mx a b t.
Proof. destruct mx; reflexivity. Qed.
Lemma ext_null L mx a b t : null a \/ null b -> ext_op L mx a b t = Ok (vNull t).
Proof. intros N. destruct mx; cbn [ext_op]; unfold greaterThanOp, lessThanOp; apply operands_null, N. Qed.

Lemma better_trans mx x y z : better mx x y -> better mx y z -> better mx x z.
Proof. destruct mx; cbn; intros; eauto using Qle_trans. Qed.
Lemma better_refl mx x : better mx x x.
Proof. destruct mx; cbn; apply Qle_refl. Qed.

(** Numbers of equal types: comparison is symmetric. *)
Lemma derive_sym a b : numeric a -> numeric b -> deriveComparison a b = deriveComparison b a.
Proof. unfold numeric. destruct a, b; cbn; intros; try lia; reflexivity. Qed.

Lemma extreme_spec L row mx args : forall vs test,
  Forall2 (fun a w => Evaluate L row a = Ok w) args vs -> usable test -> Forall usable vs ->
  exists r, extreme_rest (ext_op L mx) test (map (thunk L row) args) = Ok r /\ In r (test :: vs) /\ usable r /\
    (forall w y, In w (test :: vs) -> number_of w y -> exists x, number_of r x /\ better mx x y).
Proof.
  induction args as [|a args IH]; intros vs test F U UV; inversion F; subst.
  - exists test. repeat split; auto.
    + left; reflexivity.
    + intros w y [<-|[]] N. exists y. split; [exact N|apply better_refl].
  - inversion UV as [|? ? Uy UV']; subst. cbn [map extreme_rest].
    change (thunk L row a VBoolean) with (Evaluate L row a).
    match goal with H : Evaluate L row a = Ok ?w |- _ => rewrite H; rename w into nx end. cbn [bind].
    assert (NT : numeric (ve_type test)) by (destruct U as [[_ H]|[x H]]; [exact H|apply (number_type _ _ H)]).
    assert (NN : numeric (ve_type nx)) by (destruct Uy as [[_ H]|[x H]]; [exact H|apply (number_type _ _ H)]).
    destruct (derive_ok _ _ NT NN) as (t & D). rewrite D. cbn [bind].
    destruct U as [[U1 U2]|[x X]]; [|destruct Uy as [[V1 V2]|[y Y]]].
    + rewrite ext_null by auto. cbn [bind booleanValue vNull ve_value orb].
      destruct (IH _ (if IsNull test && negb (IsNull nx) then nx else test) ltac:(eassumption)) as (r & R1 & R2 & R3 & R4); auto.
      { destruct (IsNull test && negb (IsNull nx)); [assumption|left; auto]. }
      exists r. split; [exact R1|]. split; [|split; [exact R3|]].
      { destruct R2 as [<-|R2]; [destruct (IsNull test && negb (IsNull nx)); cbn; auto|cbn; auto]. }
      intros w y [<-|[<-|I]] N.
      * exfalso. apply (number_type _ _ N). exact U1.
      * apply (R4 nx); [|exact N]. left. apply IsNull_spec in U1. rewrite U1.
        destruct (number_type _ _ N) as [_ NN']. destruct (IsNull nx) eqn:Q; [apply IsNull_spec in Q; contradiction|reflexivity].
      * apply (R4 w); [right; exact I|exact N].
    + rewrite ext_null by auto. cbn [bind booleanValue vNull ve_value orb].
      destruct (number_type _ _ X) as [_ NX]. replace (IsNull test) with false by (symmetry; apply not_true_is_false; intros H; apply IsNull_spec in H; contradiction).
      cbn [andb].
      destruct (IH _ test ltac:(eassumption)) as (r & R1 & R2 & R3 & R4); auto. { right; eauto. }
      exists r. split; [exact R1|]. split; [destruct R2; cbn; auto|]. split; [exact R3|].
      intros w y [<-|[<-|I]] N; [apply (R4 test); [left; reflexivity|exact N]| |apply (R4 w); [right; exact I|exact N]].
      exfalso. apply (number_type _ _ N). exact V1.
    + destruct (number_type _ _ X) as [_ NX]. destruct (number_type _ _ Y) as [_ NY].
      assert (E : ext_op L mx nx test t = Ok (vBool (holds (ext_oper mx) (y ?= x)%Q))).
      { assert (RO : relational (ext_oper mx)) by (destruct mx; unfold relational; cbn; auto).
        pose proof (relation_number (ext_oper mx) L nx test y x RO Y X) as H. rewrite ext_apply in H.
        rewrite <- (derive_sym _ _ NT NN), D in H. exact H. }
      rewrite E. cbn [bind booleanValue vBool ve_value].
      replace (IsNull test) with false by (symmetry; apply not_true_is_false; intros H; apply IsNull_spec in H; contradiction).
      cbn [andb]. rewrite orb_false_r.
      set (b := holds (ext_oper mx) (y ?= x)%Q) in *.
      destruct (IH _ (if b then nx else test) ltac:(eassumption)) as (r & R1 & R2 & R3 & R4); auto.
      { destruct b; right; eauto. }
      exists r. split; [exact R1|]. split; [destruct R2 as [<-|R2]; [destruct b; cbn; auto|cbn; auto]|]. split; [exact R3|].
      assert (HB : if b then better mx y x else better mx x y).
      { unfold b. destruct mx; cbn [ext_oper holds better]; destruct (Qcompare_spec y x) as [H|H|H];
          first [apply Qlt_le_weak; assumption|rewrite H; apply Qle_refl]. }
      intros w z [<-|[<-|I]] N.
      * destruct b.
        -- destruct (R4 nx y (or_introl eq_refl) Y) as (q & Q1 & Q2). exists q. split; [exact Q1|].
           eapply better_trans; [exact Q2|]. assert (Z' : (z == x)%Q).
           { clear - N X. destruct X as [? ? A|d]; inversion N as [? ? B|]; subst; try reflexivity.
             - inversion A; subst; inversion B; subst; reflexivity.
             - match goal with H : int_of _ _ |- _ => inversion H end. 
             - match goal with H : int_of _ _ |- _ => inversion H end. }
           clear - Z' HB. destruct mx; cbn [better] in *; rewrite Z'; exact HB.
        -- apply (R4 test); [left; reflexivity|exact N].
      * destruct b.
        -- apply (R4 nx); [left; reflexivity|exact N].
        -- destruct (R4 test x (or_introl eq_refl) X) as (q & Q1 & Q2). exists q. split; [exact Q1|].
           eapply better_trans; [exact Q2|]. assert (Z' : (z == y)%Q).
           { clear - N Y. destruct Y as [? ? A|d]; inversion N as [? ? B|]; subst; try reflexivity.
             - inversion A; subst; inversion B; subst; reflexivity.
             - match goal with H : int_of _ _ |- _ => inversion H end. 
             - match goal with H : int_of _ _ |- _ => inversion H end. }
           clear - Z' HB. destruct mx; cbn [better] in *; rewrite Z'; exact HB.
      * apply (R4 w); [right; exact I|exact N].
Qed.
