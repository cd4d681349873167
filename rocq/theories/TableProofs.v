(** Proofs about selections: C60, C61, C66. *)
From Coq Require Import String QArith Permutation Lia ZifyBool ZifyNat.
From Verif Require Import Base GuidModel GuidSpec StrModel NumModel ExprModel ExprSpec TableModel TableSpec.
Close Scope Q_scope.
Open Scope Z_scope.

Definition live (rows : list (option drow)) : list drow :=
  flat_map (fun r => match r with Some x => [x] | None => [] end) rows.

Lemma top_neg {A} n (l : list A) : n < 0 -> top n l = l.
Proof. intros H. unfold top. destruct (n <? 0) eqn:E; [reflexivity|lia]. Qed.
Lemma top_all {A} n (l : list A) : len l <= n -> top n l = l.
Proof. intros H. unfold top. destruct (n <? 0) eqn:E; [reflexivity|]. apply firstn_all2. unfold len in H. lia. Qed.
Lemma top_len {A} n (l : list A) : 0 <= n -> len (top n l) <= n.
Proof. intros H. unfold top. destruct (n <? 0) eqn:E; [lia|]. unfold len. rewrite firstn_length. lia. Qed.
Lemma top_full {A} n (l k : list A) : 0 <= n -> len l = n -> top n (l ++ k) = l.
Proof.
  intros H E. unfold top. destruct (n <? 0) eqn:E1; [lia|]. unfold len in E.
  rewrite firstn_app, firstn_all2 by lia. replace (Z.to_nat n - length l)%nat with 0%nat by lia.
  cbn [firstn]. apply app_nil_r.
Qed.

Section Loop.
Variables (eval : drow -> res ve) (pred : ve -> res bool).
Definition hit (r : drow) : bool := match (let* v := eval r in pred v) with Ok true => true | _ => false end.

Lemma select_loop_spec limited n rows matched out :
  let n' := (if limited : bool then n else -1) in
  (0 <= n' -> len matched <= n') ->
  select_loop eval pred limited n rows matched = Ok out -> out = top n' (matched ++ filter hit (live rows)).
Proof.
  intros n'. revert matched. induction rows as [|r rows IH]; intros matched Hm H; cbn [select_loop live flat_map filter] in *.
  - inversion H; subst. rewrite app_nil_r. symmetry.
    destruct (Z.ltb_spec n' 0); [apply top_neg; lia|apply top_all; lia].
  - destruct (limited && (-1 <? n) && (n <=? len matched)) eqn:E.
    + inversion H; subst out. assert (n' = n) by (unfold n'; destruct limited; [reflexivity|discriminate]).
      symmetry. apply top_full; lia.
    + assert (Hlt : 0 <= n' -> len matched < n').
      { unfold n' in *. destruct limited; [|lia]. intros H0. specialize (Hm H0). lia. }
      destruct r as [row|]; [|apply IH; assumption].
      cbn [app filter]. unfold hit at 1.
      destruct (eval row) as [v| |] eqn:E1; cbn [bind] in H; try discriminate.
      cbn [bind]. destruct (pred v) as [b| |] eqn:E2; cbn [bind] in H; try discriminate.
      apply IH in H.
      * rewrite H. destruct b; [rewrite <- app_assoc; reflexivity|reflexivity].
      * intros H0. specialize (Hlt H0). destruct b; [unfold len in *; rewrite app_length; cbn [length]; lia|lia].
Qed.

Lemma select_loop_total limited n rows matched :
  (forall r, In r (live rows) -> exists b, (let* v := eval r in pred v) = Ok b) ->
  exists out, select_loop eval pred limited n rows matched = Ok out.
Proof.
  revert matched. induction rows as [|r rows IH]; intros matched H; cbn [select_loop]; [eauto|].
  destruct (limited && (-1 <? n) && (n <=? len matched)); [eauto|].
  destruct r as [row|].
  - destruct (H row) as [b Hb]. { cbn [live flat_map app]. left. reflexivity. }
    destruct (eval row) as [v| |]; cbn [bind] in Hb |- *; try discriminate.
    rewrite Hb. cbn [bind]. apply IH. intros r Hr. apply H. cbn [live flat_map app]. right. exact Hr.
  - apply IH. intros r Hr. apply H. exact Hr.
Qed.

Lemma select_loop_error limited n rows matched :
  (limited = false \/ n < 0) ->
  (exists r, In r (live rows) /\ (let* v := eval r in pred v) = Err) ->
  (forall r, In r (live rows) -> (let* v := eval r in pred v) <> Panic) ->
  select_loop eval pred limited n rows matched = Err.
Proof.
  intros Hl. revert matched. induction rows as [|r rows IH]; intros matched [x [Hx E]] Hp; cbn [live flat_map] in *; [contradiction|].
  cbn [select_loop].
  replace (limited && (-1 <? n) && (n <=? len matched)) with false by (destruct Hl; subst; lia).
  destruct r as [row|].
  - cbn [app] in Hx. pose proof (Hp row (or_introl eq_refl)) as Hrow.
    destruct (eval row) as [v| |] eqn:E1; cbn [bind] in *; [| reflexivity | congruence].
    destruct (pred v) as [b| |] eqn:E2; cbn [bind] in *; [| reflexivity | congruence].
    apply IH; [|intros r Hr; apply Hp; right; exact Hr].
    destruct Hx as [->|Hx]; [rewrite E1 in E; cbn [bind] in E; congruence|].
    exists x. split; [exact Hx|exact E].
  - apply IH; [exists x; split; assumption|exact Hp].
Qed.
End Loop.

Lemma hit_select depth (D : dlib) t e r :
  hit (fun r => Evaluate D (Some (TypedValue depth D t (row_values r))) e) select_predicate r = is_true depth D t e r.
Proof.
  unfold hit, is_true, result_on. destruct (Evaluate _ _ _) as [v| |]; cbn [bind]; try reflexivity.
  unfold select_predicate. destruct v as [ty [x|]]; destruct ty; cbn; try reflexivity.
  - destruct x as [[]| | | | | | | |]; reflexivity.
Qed.
Lemma hit_evaluate depth (D : dlib) t e r :
  hit (fun r => Evaluate D (Some (TypedValue depth D t (row_values r))) e) evaluate_predicate r = is_true depth D t e r.
Proof.
  unfold hit, is_true, result_on. destruct (Evaluate _ _ _) as [v| |]; cbn [bind]; try reflexivity.
  unfold evaluate_predicate. destruct v as [ty [x|]]; destruct ty; cbn; try reflexivity.
  - destruct x as [[]| | | | | | | |]; reflexivity.
Qed.

Lemma rows_of_live t : rows_of t = live (dt_rows t).
Proof. reflexivity. Qed.

Lemma Select_no_order depth (D : dlib) name n e t out :
  Select depth D (Tree name n [] e) (Some t) = Ok out -> out = top n (filter (is_true depth D t e) (rows_of t)).
Proof.
  unfold Select, SelectWhere. cbn [et_root et_top et_order].
  destruct (select_loop _ _ _ _ _ _) as [m| |] eqn:E; cbn [bind]; try discriminate.
  rewrite andb_false_r. intros H; inversion H; subst m.
  apply select_loop_spec in E; [|unfold len; cbn; lia].
  rewrite E. cbn [app]. rewrite rows_of_live. f_equal. apply filter_ext. apply hit_select.
Qed.

Definition boolean_result (r : res ve) : Prop :=
  exists b, r = Ok (VE VBoolean b) /\ (b = None \/ exists x, b = Some (GBool x)).

Lemma Select_total depth (D : dlib) name n e t :
  (forall r, In r (rows_of t) -> boolean_result (result_on depth D t e r)) ->
  Select depth D (Tree name n [] e) (Some t) = Ok (top n (filter (is_true depth D t e) (rows_of t))).
Proof.
  intros H. destruct (Select depth D (Tree name n [] e) (Some t)) as [out| |] eqn:E.
  - f_equal. eapply Select_no_order. exact E.
  - exfalso. revert E. unfold Select, SelectWhere. cbn [et_root et_top et_order].
    destruct (select_loop_total (fun r => Evaluate D (Some (TypedValue depth D t (row_values r))) e) select_predicate true n (dt_rows t) []) as [o Ho].
    { intros r Hr. destruct (H r Hr) as (b & Hb & Hb'). unfold result_on in Hb. rewrite Hb. cbn [bind].
      destruct Hb' as [->|[x ->]]; cbn; eauto. }
    rewrite Ho. cbn [bind]. rewrite andb_false_r. discriminate.
  - exfalso. revert E. unfold Select, SelectWhere. cbn [et_root et_top et_order].
    destruct (select_loop_total (fun r => Evaluate D (Some (TypedValue depth D t (row_values r))) e) select_predicate true n (dt_rows t) []) as [o Ho].
    { intros r Hr. destruct (H r Hr) as (b & Hb & Hb'). unfold result_on in Hb. rewrite Hb. cbn [bind].
      destruct Hb' as [->|[x ->]]; cbn; eauto. }
    rewrite Ho. cbn [bind]. rewrite andb_false_r. discriminate.
Qed.

(** A single row with a result that is an error or not Boolean fails the whole
    selection, unless TOP stops before. *)
Lemma Select_fails depth (D : dlib) name n e t :
  n < 0 ->
  (exists r, In r (rows_of t) /\ (result_on depth D t e r = Err \/ exists v, result_on depth D t e r = Ok v /\ ve_type v <> VBoolean)) ->
  (forall r, In r (rows_of t) -> result_on depth D t e r <> Panic) ->
  (forall r v, In r (rows_of t) -> result_on depth D t e r = Ok v -> ve_type v = VBoolean -> boolean_result (Ok v)) ->
  Select depth D (Tree name n [] e) (Some t) = Err.
Proof.
  intros Hn [r [Hr H]] Hp Hb. unfold Select, SelectWhere. cbn [et_root et_top et_order].
  rewrite select_loop_error; [reflexivity|right; exact Hn| |].
  - exists r. split; [exact Hr|]. unfold result_on in H. destruct H as [H|(v & H & Hv)]; rewrite H; cbn [bind]; [reflexivity|].
    unfold select_predicate. destruct v as [ty x]; cbn [ve_type] in *. destruct ty; cbn; try reflexivity. congruence.
  - intros r' Hr'. specialize (Hp r' Hr'). unfold result_on in Hp. destruct (Evaluate _ _ _) as [v| |] eqn:E; cbn [bind]; try congruence.
    unfold select_predicate. destruct (vtype_eqb (ve_type v) VBoolean) eqn:Et; cbn [negb]; [|discriminate].
    assert (Ev : ve_type v = VBoolean) by (destruct (ve_type v); cbn in Et; congruence).
    destruct (Hb r' v Hr' E Ev) as (b & E2 & Hb'). inversion E2; subst v.
    destruct Hb' as [->|[x ->]]; cbn; discriminate.
Qed.

(** ** RowsWhere (C66) *)
Lemma rows_where_spec p limit rows matching count :
  0 <= count -> (0 <= limit -> count < limit) ->
  rows_where p limit rows matching count =
  matching ++ (if limit <? 0 then filter p (live rows) else firstn (Z.to_nat (limit - count)) (filter p (live rows))).
Proof.
  revert matching count. induction rows as [|r rows IH]; intros matching count H0 H1; cbn [rows_where live flat_map filter].
  - destruct (limit <? 0); [|rewrite firstn_nil]; rewrite app_nil_r; reflexivity.
  - destruct r as [row|]; [|apply IH; assumption].
    cbn [app filter]. destruct (p row) eqn:E; [|apply IH; assumption].
    cbv zeta. destruct ((-1 <? limit) && (limit <=? count + 1)) eqn:E2.
    + destruct (limit <? 0) eqn:E3; [lia|]. replace (Z.to_nat (limit - count)) with 1%nat by lia. cbn [firstn]. reflexivity.
    + rewrite IH by lia. rewrite <- app_assoc. f_equal. cbn [app].
      destruct (limit <? 0) eqn:E3; [reflexivity|].
      replace (Z.to_nat (limit - count)) with (S (Z.to_nat (limit - (count + 1)))) by lia. reflexivity.
Qed.

Lemma RowsWhere_spec t p n : n <> 0 -> RowsWhere t p n = top n (filter p (rows_of t)).
Proof.
  intros H. unfold RowsWhere. rewrite rows_where_spec by lia. cbn [app]. unfold top. rewrite Z.sub_0_r. reflexivity.
Qed.

Lemma rows_where_zero p rows : rows_where p 0 rows [] 0 = firstn 1 (filter p (live rows)).
Proof.
  induction rows as [|r rows IH]; cbn [rows_where live flat_map filter]; [reflexivity|].
  destruct r as [row|]; [|exact IH]. cbn [app filter]. destruct (p row); [reflexivity|exact IH].
Qed.
Lemma RowsWhere_zero t p : RowsWhere t p 0 = firstn 1 (filter p (rows_of t)).
Proof. apply rows_where_zero. Qed.

(** ** ORDER BY with TOP (C61) *)
Lemma Select_ordered depth (D : dlib) name n terms e t out :
  Select depth D (Tree name n terms e) (Some t) = Ok out ->
  let hits := top n (filter (is_true depth D t e) (rows_of t)) in
  (out = hits /\ (hits = [] \/ terms = [])) \/
  sort_rows D (row_less depth D t terms) hits = Ok out.
Proof.
  unfold Select, SelectWhere. cbn [et_root et_top et_order].
  destruct (select_loop _ _ _ _ _ _) as [m| |] eqn:E; cbn [bind]; try discriminate.
  apply select_loop_spec in E; [|unfold len; cbn; lia].
  assert (Em : m = top n (filter (is_true depth D t e) (rows_of t))).
  { rewrite E. cbn [app]. rewrite rows_of_live. f_equal. apply filter_ext. apply hit_select. }
  rewrite <- Em. cbv zeta.
  destruct (true && (0 <? len m) && (0 <? len terms)) eqn:E2; intros H.
  - right. exact H.
  - left. inversion H; subst. split; [reflexivity|].
    unfold len in E2. match goal with |- ?o = [] \/ _ => destruct o end; [left; reflexivity|right]. destruct terms; [reflexivity|cbn in E2; lia].
Qed.

(** ** Comparisons with NULL (C47) *)
Lemma select_loop_all_ok eval pred limited n rows matched out :
  (limited = false \/ n < 0) -> select_loop eval pred limited n rows matched = Ok out ->
  forall r, In r (live rows) -> exists b : bool, (let* v := eval r in pred v) = Ok b.
Proof.
  intros Hl. revert matched. induction rows as [|[x|] rows IH]; intros matched; cbn [select_loop live flat_map app In]; [contradiction| |].
  - replace (limited && (-1 <? n) && (n <=? len matched)) with false by (destruct Hl; subst; lia).
    destruct (eval x) as [v| |] eqn:E; cbn [bind]; try discriminate. destruct (pred v) as [b| |] eqn:E2; cbn [bind]; try discriminate.
    intros H r [<-|Hr]; [rewrite E; cbn [bind]; eauto|]. eapply IH; eassumption.
  - replace (limited && (-1 <? n) && (n <=? len matched)) with false by (destruct Hl; subst; lia). apply IH.
Qed.
Lemma Select_all_boolean depth (D : dlib) name n terms e t out : n < 0 ->
  Select depth D (Tree name n terms e) (Some t) = Ok out ->
  forall r, In r (rows_of t) -> exists v, result_on depth D t e r = Ok v /\ ve_type v = VBoolean.
Proof.
  intros Hn. unfold Select, SelectWhere. cbn [et_root et_top et_order].
  destruct (select_loop _ _ _ _ _ _) as [m| |] eqn:E; cbn [bind]; try discriminate. intros _ r Hr.
  destruct (select_loop_all_ok _ _ _ _ _ _ _ (or_intror Hn) E r Hr) as [b Hb]. unfold result_on.
  destruct (Evaluate _ _ _) as [v| |]; cbn [bind] in Hb; try discriminate. exists v. split; [reflexivity|].
  unfold select_predicate in Hb. destruct (ve_type v); cbn in Hb; discriminate Hb || reflexivity.
Qed.
Lemma comparison_null_type L o a b : relational o -> null a \/ null b ->
  ve_type a <> VUndefined -> ve_type b <> VUndefined ->
  applyOperator L o a b = Err \/
  exists t, applyOperator L o a b = Ok (vNull t) /\ (t = VBoolean <-> ve_type a = VBoolean /\ (ve_type b = VBoolean \/ ve_type b = VString)).
Proof.
  intros R N Ua Ub. unfold applyOperator.
  assert (IN : IsNull a || IsNull b = true).
  { unfold IsNull. destruct N as [N|N]; unfold null in N; rewrite N; [reflexivity|apply orb_true_r]. }
  assert (W : forall t k, withOperands L a b t k = Ok (vNull t)) by (intros; unfold withOperands; rewrite IN; reflexivity).
  unfold relational in R.
  destruct a as [ta va], b as [tb vb]; cbn [ve_type] in *.
  decompose [or] R; subst o; destruct ta, tb; try congruence; cbn [deriveOperation deriveComparison bind]; try (left; reflexivity);
    right; (eexists; split; [apply W|]); split; intros X; try discriminate X; try (intuition discriminate); auto.
Qed.
