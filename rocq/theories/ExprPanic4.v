(** Exactly when a function or an IN list panics: loops over arguments, and the
    theorems for expressions (C48). *)
From Coq Require Import Lia ZifyBool ZifyNat String.
From Verif Require Import Base BaseProofs GuidModel GuidSpec FormatModel StrModel CalModel NumModel ExprModel ExprSpec ExprProofs ExprPanic StrProofs ExprPanic2 PanicSpec ExprPanic3.
Open Scope list_scope.
Open Scope Z_scope.

(** ** Comparisons in loops *)
Lemma mixed_panics L op l r : loop_op L op -> well_typed l -> well_typed r -> bool_int32 l r ->
  deriveComparison (ve_type l) (ve_type r) = Ok VInt32 /\ deriveComparison (ve_type r) (ve_type l) = Ok VInt32 /\ op l r VInt32 = Panic.
Proof.
  intros O Wl Wr (Nl & Nr & T).
  assert (P : forall k, withOperands L l r VInt32 k = Panic).
  { intros k. apply operands_panic; [assumption..|discriminate|]. split; [exact Nl|]. split; [exact Nr|].
    destruct T as [[T1 T2]|[T1 T2]].
    - left. left. vcases Wl Nl; try discriminate T1. eauto.
    - right. left. vcases Wl Nl; try discriminate T1. vcases Wr Nr; try discriminate T2.
      split; [|split; [discriminate|left; eauto]]. intros [(b & E & _)|(f & E & _)]; discriminate E. }
  split; [|split]; [destruct T as [[-> ->]|[-> ->]]; reflexivity..|].
  destruct O as [-> |[-> |(x & ->)]]; apply P.
Qed.
Lemma mixed_sym a b : bool_int32 a b -> bool_int32 b a.
Proof. intros (A & B & C). split; [exact B|]. split; [exact A|]. tauto. Qed.

Definition known (v : ve) : arg := fun _ => Ok v.
Definition knowns := map known.

Lemma extreme_loop_iff L op : loop_op L op -> forall vals t, Forall well_typed vals -> well_typed t ->
  (extreme_rest op t (knowns vals) = Panic <->
   exists before next after u, vals = before ++ next :: after /\
     extreme_rest op t (knowns before) = Ok u /\ bool_int32 next u).
Proof.
  intros O. induction vals as [|v vals IH]; intros t W Wt; cbn [knowns map extreme_rest].
  { split; [discriminate|]. intros (before & next & after & u & E & _). destruct before; discriminate E. }
  apply List.Forall_cons_iff in W as [Wv W]. unfold known at 1. cbn [bind].
  destruct (deriveComparison (ve_type t) (ve_type v)) as [c| |] eqn:D; cbn [bind].
  - assert (C : c <> VUndefined) by (eapply comparison_defined; [apply Wt|apply Wv|exact D]).
    destruct (op v t c) as [r| |] eqn:R; cbn [bind].
    + destruct (booleanValue r) as [b| |] eqn:B; cbn [bind].
      * set (t' := if b || IsNull t && negb (IsNull v) then v else t).
        assert (Wt' : well_typed t') by (unfold t'; destruct (b || _); assumption).
        fold (knowns vals). rewrite (IH t' W Wt'). split.
        -- intros (before & next & after & u & -> & E & M). exists (v :: before), next, after, u.
           split; [reflexivity|]. split; [|exact M]. cbn [knowns map extreme_rest]. unfold known at 1. cbn [bind].
           rewrite D. cbn [bind]. rewrite R. cbn [bind]. rewrite B. cbn [bind]. exact E.
        -- intros ([|x before] & next & after & u & EQ & E & M).
           ++ injection EQ as <- <-. cbn in E. injection E as <-. exfalso.
              destruct (mixed_panics L op v t O Wv Wt M) as (_ & D' & P). rewrite D in D'. injection D' as ->. congruence.
           ++ injection EQ as <- ->. cbn [knowns map extreme_rest] in E. unfold known at 1 in E. cbn [bind] in E.
              rewrite D in E. cbn [bind] in E. rewrite R in E. cbn [bind] in E. rewrite B in E. cbn [bind] in E.
              exists before, next, after, u. auto.
      * split; [discriminate|]. intros ([|x before] & next & after & u & EQ & E & M).
        -- injection EQ as <- <-. cbn in E. injection E as <-.
           destruct (mixed_panics L op v t O Wv Wt M) as (_ & D' & P). rewrite D in D'. injection D' as ->. congruence.
        -- injection EQ as <- ->. cbn [knowns map extreme_rest] in E. unfold known at 1 in E. cbn [bind] in E.
           rewrite D in E. cbn [bind] in E. rewrite R in E. cbn [bind] in E. rewrite B in E. discriminate E.
      * exfalso. revert B. eapply loop_op_read; eassumption.
    + split; [discriminate|]. intros ([|x before] & next & after & u & EQ & E & M).
      * injection EQ as <- <-. cbn in E. injection E as <-.
        destruct (mixed_panics L op v t O Wv Wt M) as (_ & D' & P). rewrite D in D'. injection D' as ->. congruence.
      * injection EQ as <- ->. cbn [knowns map extreme_rest] in E. unfold known at 1 in E. cbn [bind] in E.
        rewrite D in E. cbn [bind] in E. rewrite R in E. discriminate E.
    + split; [|reflexivity]. intros _. exists [], v, vals, t. split; [reflexivity|]. split; [reflexivity|].
      eapply loop_op_mixed; [exact O|exact Wv|exact Wt|exact C| |exact D|exact R]. auto.
  - split; [discriminate|]. intros ([|x before] & next & after & u & EQ & E & M).
    + injection EQ as <- <-. cbn in E. injection E as <-.
      destruct (mixed_panics L op v t O Wv Wt M) as (_ & D' & P). congruence.
    + injection EQ as <- ->. cbn [knowns map extreme_rest] in E. unfold known at 1 in E. cbn [bind] in E.
      rewrite D in E. discriminate E.
  - exfalso. revert D. apply comparison_np.
Qed.

(** Only the values of the arguments matter to these loops. *)
Definition gives (a : arg) (v : ve) : Prop := a VBoolean = Ok v.
Lemma extreme_gives op args vals : Forall2 gives args vals -> forall t, extreme_rest op t args = extreme_rest op t (knowns vals).
Proof.
  induction 1 as [|a v args vals G _ IH]; intros t; [reflexivity|]. cbn [knowns map extreme_rest]. unfold known at 1. rewrite G. cbn [bind].
  destruct (deriveComparison _ _); cbn [bind]; try reflexivity. destruct (op _ _ _); cbn [bind]; try reflexivity.
  destruct (booleanValue _); cbn [bind]; try reflexivity. apply IH.
Qed.
Lemma in_list_gives L v n m args vals : Forall2 gives args vals -> in_list L v args n m = in_list L v (knowns vals) n m.
Proof.
  induction 1 as [|a w args vals G _ IH]; [reflexivity|]. cbn [knowns map in_list]. unfold known at 1. rewrite G. cbn [bind].
  destruct (deriveComparison _ _); cbn [bind]; try reflexivity. destruct (equalOp _ _ _ _ _); cbn [bind]; try reflexivity.
  destruct (booleanValue _) as [[|]| |]; cbn [bind]; try reflexivity. apply IH.
Qed.
Lemma values_give L vals : Forall well_typed vals -> Forall2 gives (map (fun a t => evaluateAs L None a t) (map EValue vals)) vals.
Proof.
  induction 1 as [|v vals W _ IH]; cbn [map]; constructor; [|exact IH]. unfold gives. cbn [evaluateAs].
  destruct (vtype_eqb (ve_type v) VUndefined) eqn:E; [apply vtype_eqb_spec in E; destruct (proj1 W E)|reflexivity].
Qed.
Lemma exprs_give L row args vals : Forall2 (fun e v => Evaluate L row e = Ok v) args vals ->
  Forall2 gives (map (fun a t => evaluateAs L row a t) args) vals.
Proof. induction 1; constructor; assumption. Qed.

Lemma forall2_len {A B} (R : A -> B -> Prop) l m : Forall2 R l m -> length l = length m.
Proof. induction 1; cbn; congruence. Qed.
Lemma extreme_values L f op args v w vals : (f = FMaxOf /\ op = greaterThanOp L \/ f = FMinOf /\ op = lessThanOp L) ->
  Forall2 gives args (v :: w :: vals) -> evaluateFunction L f args = extreme_rest op v (knowns (w :: vals)).
Proof.
  intros F G. inversion G as [|a ? args' ? G1 G2]; subst. rewrite <- (extreme_gives op _ _ G2 v).
  inversion G2; subst. unfold gives in G1. destruct F as [[-> ->]|[-> ->]]; cbn -[extreme_rest]; rewrite G1; reflexivity.
Qed.
Lemma extreme_so_far_loop L f op v vals t : (f = FMaxOf /\ op = greaterThanOp L \/ f = FMinOf /\ op = lessThanOp L) ->
  Forall well_typed (v :: vals) ->
  (extreme_so_far L f (v :: vals) t <-> extreme_rest op v (knowns vals) = Ok t).
Proof.
  intros F W. pose proof (values_give L _ W) as G.
  unfold extreme_so_far. destruct vals as [|w vals].
  - cbn. split; [intros [E|[E _]]; [injection E as ->; reflexivity|unfold len in E; cbn in E; lia]|].
    intros E. injection E as ->. left. reflexivity.
  - assert (LN : 2 <= len (v :: w :: vals)) by (unfold len; cbn [length]; lia).
    assert (E : Evaluate L None (EFunction f (map EValue (v :: w :: vals))) = extreme_rest op v (knowns (w :: vals))).
    { exact (extreme_values L f op _ v w vals F G). }
    rewrite E. split; [intros [K|[_ K]]; [discriminate K|exact K]|auto].
Qed.
Lemma extreme_iff L f op args vals : (f = FMaxOf /\ op = greaterThanOp L \/ f = FMinOf /\ op = lessThanOp L) ->
  Forall2 gives args vals -> Forall well_typed vals ->
  (evaluateFunction L f args = Panic <-> function_crash L f vals).
Proof.
  intros F G W.
  assert (O : loop_op L op) by (unfold loop_op; destruct F as [[_ ->]|[_ ->]]; auto).
  assert (E : evaluateFunction L f args = if (length args <? 2)%nat then Err else fn_extreme op args) by (destruct F as [[-> ->]|[-> ->]]; reflexivity).
  rewrite E, (forall2_len _ _ _ G). clear E.
  assert (K : function_crash L f vals <-> exists before next after t, vals = before ++ next :: after /\ extreme_so_far L f before t /\ bool_int32 next t).
  { split.
    - inversion 1 as [ | | | | | | |g before next after t O' X M]; subst; try (destruct F as [[K _]|[K _]]; discriminate K).
      exists before, next, after, t. auto.
    - intros (before & next & after & t & -> & X & M). apply (fc_extreme L f before next after t); [tauto|exact X|exact M]. }
  rewrite K. clear K.
  destruct G as [|a v args vals Ga G].
  { cbn. split; [discriminate|]. intros (before & ? & ? & ? & E & _). destruct before; discriminate E. }
  pose proof W as W'. apply List.Forall_cons_iff in W' as [Wv Wvs].
  destruct vals as [|w vals].
  { cbn. split; [discriminate|]. intros ([|x before] & ? & ? & ? & E & X & _).
    - destruct X as [X|[X _]]; [discriminate X|unfold len in X; cbn in X; lia].
    - injection E as _ E. destruct before; discriminate E. }
  change (length (v :: w :: vals) <? 2)%nat with false. cbv iota. cbn [fn_extreme]. unfold gives in Ga. rewrite Ga. cbn [bind].
  rewrite (extreme_gives op _ _ G v), (extreme_loop_iff L op O _ v Wvs Wv). split.
  - intros (before & next & after & u & E & X & M). exists (v :: before), next, after, u. rewrite E. split; [reflexivity|]. split; [|exact M].
    apply (extreme_so_far_loop L f op); [exact F| |exact X]. constructor; [exact Wv|]. rewrite E in Wvs. apply List.Forall_app in Wvs. apply Wvs.
  - intros ([|x before] & next & after & u & E & X & M).
    + exfalso. destruct X as [X|[X _]]; [discriminate X|unfold len in X; cbn in X; lia].
    + injection E as <- E. exists before, next, after, u. split; [exact E|]. split; [|exact M].
      apply (extreme_so_far_loop L f op) in X; [exact X|exact F|]. constructor; [exact Wv|]. rewrite E in Wvs. apply List.Forall_app in Wvs. apply Wvs.
Qed.

(** ** IN *)
Lemma in_loop_iff L v n m : well_typed v -> forall vals, Forall well_typed vals ->
  (in_list L v (knowns vals) n m = Panic <->
   exists before next after, vals = before ++ next :: after /\
     in_list L v (knowns before) false m = Ok vFalse /\ bool_int32 v next).
Proof.
  intros Wv. set (op := fun l r t => equalOp L l r t m).
  assert (O : loop_op L op) by (right; right; exists m; reflexivity).
  induction vals as [|w vals IH]; intros W; cbn [knowns map in_list].
  { split; [discriminate|]. intros (before & next & after & E & _). destruct before; discriminate E. }
  apply List.Forall_cons_iff in W as [Ww W]. specialize (IH W). unfold known at 1. cbn [bind].
  assert (ST : forall before, in_list L v (knowns (w :: before)) false m =
    (let* t := deriveComparison (ve_type v) (ve_type w) in let* r := equalOp L v w t m in let* b := booleanValue r in
     if b : bool then Ok vTrue else in_list L v (knowns before) false m)) by reflexivity.
  destruct (deriveComparison (ve_type v) (ve_type w)) as [c| |] eqn:D; cbn [bind] in *.
  - assert (C : c <> VUndefined) by (eapply comparison_defined; [apply Wv|apply Ww|exact D]).
    destruct (equalOp L v w c m) as [r| |] eqn:R; cbn [bind].
    + assert (NM : ~ bool_int32 v w).
      { intros M. destruct (mixed_panics L op v w O Wv Ww M) as (D' & _ & P). rewrite D in D'. injection D' as ->. unfold op in P. congruence. }
      destruct (booleanValue r) as [b| |] eqn:B; cbn [bind].
      * destruct b.
        -- split; [destruct n; discriminate|]. intros ([|x before] & next & after & EQ & E & M); injection EQ; intros; subst; [contradiction|].
           rewrite ST in E. cbn [bind] in E. rewrite B in E. discriminate E.
        -- fold (knowns vals). rewrite IH. split.
           ++ intros (before & next & after & -> & E & M). exists (w :: before), next, after. split; [reflexivity|]. split; [|exact M].
              rewrite ST. cbn [bind]. rewrite B. exact E.
           ++ intros ([|x before] & next & after & EQ & E & M); injection EQ; intros; subst; [contradiction|].
              rewrite ST in E. cbn [bind] in E. rewrite B in E. exists before, next, after. auto.
      * split; [discriminate|]. intros ([|x before] & next & after & EQ & E & M); injection EQ; intros; subst; [contradiction|].
        rewrite ST in E. cbn [bind] in E. rewrite B in E. discriminate E.
      * exfalso. revert B. eapply (loop_op_read L op); [exact O|exact R].
    + split; [discriminate|]. intros ([|x before] & next & after & EQ & E & M); injection EQ; intros; subst.
      * destruct (mixed_panics L op v next O Wv Ww M) as (D' & _ & P). rewrite D in D'. injection D' as ->. unfold op in P. congruence.
      * rewrite ST in E. discriminate E.
    + split; [|reflexivity]. intros _. exists [], w, vals. split; [reflexivity|]. split; [reflexivity|].
      eapply (loop_op_mixed L op); [exact O|exact Wv|exact Ww|exact C| |exact D|exact R]. auto.
  - split; [discriminate|]. intros ([|x before] & next & after & EQ & E & M); injection EQ; intros; subst.
    + destruct (mixed_panics L op v next O Wv Ww M) as (D' & _). congruence.
    + rewrite ST in E. discriminate E.
  - exfalso. revert D. apply comparison_np.
Qed.
Lemma in_iff L row e args n m v vals : Evaluate L row e = Ok v -> well_typed v ->
  Forall2 (fun a w => Evaluate L row a = Ok w) args vals -> Forall well_typed vals ->
  (Evaluate L row (EInList e args n m) = Panic <->
   exists before next after, vals = before ++ next :: after /\ bool_int32 v next /\
     Evaluate L None (EInList (EValue v) (map EValue before) false m) = Ok vFalse).
Proof.
  intros Ev Wv EA W. unfold Evaluate in *. cbn [evaluateAs]. rewrite Ev. cbn [bind].
  destruct (IsNull v) eqn:N.
  { split; [discriminate|]. intros (? & ? & ? & _ & M & _). apply IsNull_spec in N. destruct M as (M & _). contradiction. }
  rewrite (in_list_gives L v n m _ _ (exprs_give L row _ _ EA)), (in_loop_iff L v n m Wv vals W).
  assert (K : forall before, Forall well_typed before ->
    evaluateAs L None (EInList (EValue v) (map EValue before) false m) VBoolean = in_list L v (knowns before) false m).
  { intros before Wb. cbn [evaluateAs]. destruct (vtype_eqb (ve_type v) VUndefined) eqn:E; [apply vtype_eqb_spec in E; destruct (proj1 Wv E)|].
    cbn [bind]. rewrite N. apply in_list_gives, values_give, Wb. }
  split; intros (before & next & after & -> & H1 & H2); exists before, next, after; (split; [reflexivity|]); apply List.Forall_app in W as [W _].
  - split; [exact H2|]. exact (eq_trans (K before W) H1).
  - split; [|exact H1]. rewrite <- (K before W). exact H2.
Qed.

(** ** All functions *)

(** Without a value an argument takes the type that is asked for. *)
Definition rel (v w : ve) : Prop := w = v \/ (null v /\ null w).
Lemma arg_rel L row e v t : Evaluate L row e = Ok v -> well_typed v -> t <> VUndefined ->
  exists w, evaluateAs L row e t = Ok w /\ rel v w /\ well_typed w.
Proof.
  unfold Evaluate. intros E W T. destruct e; cbn [evaluateAs] in *; try (exists v; split; [exact E|split; [left; reflexivity|exact W]]).
  - injection E as <-. eexists. split; [reflexivity|]. split; [right; split; reflexivity|]. apply wt_null, T.
  - destruct (vtype_eqb _ _) eqn:Q.
    + injection E as <-. eexists. split; [reflexivity|]. split; [right; split; reflexivity|]. apply wt_null, T.
    + exists v. split; [exact E|]. split; [left; reflexivity|exact W].
Qed.
Lemma rel_some v w : rel v w -> ~ null v -> w = v.
Proof. intros [->|[N _]]; [reflexivity|contradiction]. Qed.
Lemma rel_sym v w : rel v w -> rel w v.
Proof. unfold rel. intros [->|[A B]]; auto. Qed.
Lemma whole_some v i : whole v i -> ~ null v.
Proof. inversion 1 as [|? ? K]; [discriminate|]. inversion K; discriminate. Qed.
Lemma caseless_rel L o o' b : Forall2 rel o o' -> caseless L o b -> caseless L o' b.
Proof.
  intros R C. inversion C as [|v N|v b' N E]; subst.
  - inversion R. constructor.
  - inversion R as [|? w ? ? R1 R2]; subst. inversion R2; subst. apply caseless_null. destruct R1 as [->|[_ K]]; [exact N|exact K].
  - inversion R as [|? w ? ? R1 R2]; subst. inversion R2; subst. rewrite (rel_some _ _ R1 N). apply caseless_given; assumption.
Qed.
Lemma crash_rel L f vals vals' : f <> FMaxOf -> f <> FMinOf -> Forall2 rel vals vals' ->
  function_crash L f vals -> function_crash L f vals'.
Proof.
  intros F1 F2 R C.
  Ltac peel := repeat match goal with
    | H : Forall2 rel (_ :: _) _ |- _ => inversion H; clear H; subst
    | H : Forall2 rel [] _ |- _ => inversion H; clear H; subst
    | H : rel ?v ?w |- _ => is_var w; assert (w = v) by (apply (rel_some _ _ H); first [assumption|eapply whole_some; eassumption|discriminate]); subst w; clear H
    end.
  destruct C; try (repeat match goal with H : _ \/ _ |- _ => destruct H end; congruence).
  - peel. apply fc_convert_bool; assumption.
  - peel. apply fc_convert_double; assumption.
  - peel. apply fc_power_mixed.
  - inversion R as [|? ? ? ? R1 RA]; subst. inversion RA as [|? ? ? ? R2 RB]; subst. inversion RB as [|? ? ? o' R3 RC]; subst.
    assert (caseless L o' ignore) by (eapply caseless_rel; eassumption). clear R RA RB RC. peel. eapply fc_nth_index; eassumption.
  - inversion R as [|? ? ? ? R1 RA]; subst. inversion RA as [|? ? ? ? R2 RB]; subst. inversion RB as [|? ? ? o' R3 RC]; subst.
    assert (caseless L o' ignore) by (eapply caseless_rel; eassumption). clear R RA RB RC. peel. eapply fc_split; eassumption.
  - peel. eapply fc_substr; eassumption.
  - peel. eapply fc_regex; eassumption.
Qed.
Lemma crash_rel_iff L f vals vals' : f <> FMaxOf -> f <> FMinOf -> Forall2 rel vals vals' ->
  (function_crash L f vals <-> function_crash L f vals').
Proof.
  intros F1 F2 R. split; apply crash_rel; auto. clear - R. induction R; constructor; [apply rel_sym|]; assumption.
Qed.
Lemma short_rel L v w : rel v w -> short_text L v -> short_text L w.
Proof. intros R H s ->. apply H. apply (rel_some _ _ (rel_sym _ _ R)). discriminate. Qed.
Lemma crash_arity L f vals : function_crash L f vals ->
  match f with
  | FConvert | FPower | FRegExVal => length vals = 2%nat
  | FNthIndexOf | FSplit => length vals = 3%nat \/ length vals = 4%nat
  | FSubStr => length vals = 3%nat
  | FMaxOf | FMinOf => True
  | _ => False
  end.
Proof.
  destruct 1; try reflexivity.
  - match goal with H : caseless _ _ _ |- _ => inversion H; subst end; cbn; auto.
  - match goal with H : caseless _ _ _ |- _ => inversion H; subst end; cbn; auto.
  - destruct H as [-> | ->]; exact Logic.I.
Qed.

Section Functions.
  Variables (L : lib) (row : option row_reader).
  (** The arguments have values. *)
  Definition have (args : list expr) (vals : list ve) : Prop :=
    Forall2 (fun e v => Evaluate L row e = Ok v) args vals /\ Forall well_typed vals /\ Forall (short_text L) vals.
  Definition thunks (args : list expr) : list arg := map (fun a t => evaluateAs L row a t) args.

  Lemma have_cons e args vals : have (e :: args) vals -> exists v vs, vals = v :: vs /\ Evaluate L row e = Ok v /\ well_typed v /\ short_text L v /\ have args vs.
  Proof.
    intros (A & B & C). inversion A as [|? v ? vs E A']; subst. apply List.Forall_cons_iff in B as [B1 B2]. apply List.Forall_cons_iff in C as [C1 C2].
    exists v, vs. split; [reflexivity|]. split; [assumption|]. split; [assumption|]. split; [assumption|]. split; [assumption|split; assumption].
  Qed.
  Lemma have_nil vals : have [] vals -> vals = [].
  Proof. intros (A & _). inversion A. reflexivity. Qed.
  Lemma have_as e v t : Evaluate L row e = Ok v -> well_typed v -> short_text L v -> t <> VUndefined ->
    exists w, evaluateAs L row e t = Ok w /\ rel v w /\ well_typed w /\ short_text L w.
  Proof.
    intros E W C T. destruct (arg_rel L row e v t E W T) as (w & A & R & W'). exists w. split; [exact A|]. split; [exact R|].
    split; [exact W'|]. eapply short_rel; eassumption.
  Qed.

  (** Break an argument list into its values. *)
  Ltac open_args args :=
    destruct args as [|?e [|?e [|?e [|?e [|?e args]]]]];
    repeat match goal with
    | H : have (_ :: _) _ |- _ => apply have_cons in H as (?v & ?vs & -> & ?Ev & ?Wv & ?Sv & H)
    | H : have [] _ |- _ => apply have_nil in H; subst
    end.
  Ltac run := unfold thunks; cbn [map]; unfold evaluateFunction; cbv beta iota zeta.
  Ltac read_args := repeat match goal with
    | H : Evaluate L row ?e = Ok ?v, W : well_typed ?v, C : short_text L ?v |- context [bind (evaluateAs L row ?e ?t) _] =>
      let w := fresh "w" in let Ew := fresh "Ew" in
      destruct (have_as e v t H W C ltac:(discriminate)) as (w & Ew & ?Rw & ?Ww & ?Sw); rewrite Ew; cbn [bind]
    end.
  Ltac wrong_arity :=
    split; [intros K; discriminate K|intros K; apply crash_arity in K; cbn in K; exfalso; lia].
  Ltac nopanic :=
    first [discriminate|apply abs_np|apply integral_np|apply string_test_np|apply dateAdd_np|apply dateDiff_np|apply datePart_np
          |apply string_find_np|apply isDate_np|apply isInteger_np|apply isGuid_np|apply isNumeric_np|apply isNull_np
          |apply len_np|apply string_map_np|apply replace_np|apply sqrt_np|apply strCount_np|apply strCmp_np];
    first [assumption|apply wt_null; discriminate].
  Lemma coalesce_never args vals v : have args vals -> coalesce_rest v (thunks args) <> Panic.
  Proof.
    revert vals. induction args as [|e args IH]; intros vals H; cbn [thunks map coalesce_rest]; [discriminate|].
    apply have_cons in H as (w & vs & -> & E & W & _ & H). unfold Evaluate in E. rewrite E. cbn [bind].
    destruct (negb (IsNull w)); [discriminate|]. eapply IH, H.
  Qed.
  Lemma silent_regEx a b : well_typed a -> well_typed b -> fn_regEx L a b false <> Panic.
  Proof. intros A B E. apply regEx_panic in E as [E _]; [discriminate E|assumption..]. Qed.

  Definition can_panic (f : func) : bool :=
    match f with FConvert | FPower | FRegExVal | FNthIndexOf | FSplit | FSubStr | FMaxOf | FMinOf => true | _ => false end.
  Lemma silent f args vals : can_panic f = false -> have args vals -> evaluateFunction L f (thunks args) <> Panic.
  Proof.
    intros F H. destruct f; try discriminate F; clear F;
      try solve [open_args args; run; read_args; first [nopanic|apply silent_regEx; assumption]].
    - destruct args as [|e args]; [discriminate|]. unfold evaluateFunction. cbv beta iota zeta.
      destruct (_ <? _)%nat; [discriminate|]. apply have_cons in H as (w & vs & -> & E & W & _ & H).
      cbn [thunks map fn_coalesce]. unfold Evaluate in E. rewrite E. cbn [bind]. destruct (negb (IsNull w)); [discriminate|].
      eapply coalesce_never, H.
    - open_args args; run; try discriminate. unfold Evaluate in *. rewrite Ev0. cbn [bind]. unfold fn_iif.
      destruct (negb (vtype_eqb (ve_type v0) VBoolean)) eqn:T; [discriminate|]. apply negb_false_iff, vtype_eqb_spec in T.
      acc Wv0. apply np_bind; [tauto|]. intros b _. destruct b; congruence.
  Qed.

  Ltac rels := repeat first [apply Forall2_nil|apply Forall2_cons; [assumption|]].

  Lemma function_iff f args vals : have args vals ->
    (evaluateFunction L f (thunks args) = Panic <-> function_crash L f vals).
  Proof.
    intros H. destruct (can_panic f) eqn:F.
    2: { split; [intros K; exfalso; revert K; eapply silent; eassumption|].
         intros K. apply crash_arity in K. destruct f; try discriminate F; destruct K. }
    destruct f; try discriminate F; clear F.
    - open_args args; try (run; wrong_arity). run. read_args.
      rewrite fn_convert_iff by assumption. symmetry. apply crash_rel_iff; [discriminate|discriminate|rels].
    - destruct H as (A & B & _). apply (extreme_iff L FMaxOf (greaterThanOp L)); [auto|apply exprs_give, A|exact B].
    - destruct H as (A & B & _). apply (extreme_iff L FMinOf (lessThanOp L)); [auto|apply exprs_give, A|exact B].
    - open_args args; try (run; wrong_arity); run; read_args.
      + rewrite (nthIndexOf_iff L w w0 w1 []) by first [assumption|left; reflexivity].
        symmetry. apply crash_rel_iff; [discriminate|discriminate|rels].
      + rewrite (nthIndexOf_iff L w w0 w1 [w2]) by first [assumption|right; eauto].
        symmetry. apply crash_rel_iff; [discriminate|discriminate|rels].
    - open_args args; try (run; wrong_arity). run. read_args.
      rewrite power_iff by assumption. symmetry. apply crash_rel_iff; [discriminate|discriminate|rels].
    - open_args args; try (run; wrong_arity). run. read_args.
      rewrite regExVal_iff by assumption. symmetry. apply crash_rel_iff; [discriminate|discriminate|rels].
    - open_args args; try (run; wrong_arity); run; read_args.
      + rewrite (split_iff L w w0 w1 []) by first [assumption|left; reflexivity].
        symmetry. apply crash_rel_iff; [discriminate|discriminate|rels].
      + rewrite (split_iff L w w0 w1 [w2]) by first [assumption|right; eauto].
        symmetry. apply crash_rel_iff; [discriminate|discriminate|rels].
    - open_args args; try (run; wrong_arity); run; read_args.
      + split; [|intros K; apply crash_arity in K; cbn in K; lia].
        intros K. exfalso. apply subStr_panic in K as (s & i & n & _ & _ & K & _); [|assumption|assumption|apply wt_null; discriminate].
        apply whole_some in K. apply K. reflexivity.
      + rewrite (subStr_iff L) by assumption. symmetry. apply crash_rel_iff; [discriminate|discriminate|rels].
  Qed.
End Functions.
