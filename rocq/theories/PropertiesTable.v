(** Data sets, tables, rows and selections (C47, C60-C66, C79-C81).
    [D] stands for the behaviour of other packages; [depth] for the number of
    computed columns that may be evaluated inside each other. *)
From Coq Require Import Lia ZifyBool ZifyNat QArith String Permutation.
From Verif Require Import Base GuidModel GuidSpec FormatModel StrModel CalModel NumModel ExprModel ExprSpec StrProofs ExprProofs2
  TableModel TableSpec TableProofs TableProofs2 TableProofs3 TableProofs4 TableProofs5 TableProofs6 PropertiesExpr.
Close Scope Q_scope.
Open Scope list_scope.
Open Scope Z_scope.

(** A library and a table for the examples. *)
Definition example_dlib : dlib := {|
  base := example_lib;
  float_to_int_any := fun _ _ => 0; go_sort := insertion_sort |}.
Definition guid_of (n : Z) : guid := repeat 0 15 ++ [n].
Definition example_columns : list dcol :=
  [newDataColumn (lit "SignalID") DGuid None; newDataColumn (lit "PointTag") DString None; newDataColumn (lit "Size") DInt32 None].
Definition example_row (id : Z) (tag : string) (size : option Z) : option drow :=
  Some (Row id [Some (SCell (CGuid (guid_of id))); Some (SCell (CStr (lit tag))); option_map (fun n => SCell (CInt32 n)) size]).
Definition with_rows (t : dtable) (l : list (option drow)) : dtable := fold_left AddRow l t.
Definition example_table : dtable :=
  with_rows (columns_history example_dlib (lit "Points") example_columns)
    [example_row 1 "PMU1" (Some 30); None; example_row 2 "PMU2" None; example_row 3 "pmu3" (Some 10); example_row 4 "X" (Some 20)].
Definition size_column : expr := EColumn (Some {| col_index := 2; col_type := DInt32 |}).
Definition tag_column : expr := EColumn (Some {| col_index := 1; col_type := DString |}).
Definition ids (r : res (list drow)) : res (list Z) := let* l := r in Ok (map row_id l).

(** ** C60: a selection returns the matching rows *)

(** Without ORDER BY: the rows whose condition is TRUE, in table order, the
    first n of them for TOP n. *)
Theorem C60_selected_rows : forall depth D name n condition t rows,
  Select depth D (Tree name n [] condition) (Some t) = Ok rows ->
  rows = top n (filter (is_true depth D t condition) (rows_of t)).
Proof. exact Select_no_order. Qed.

(** The selection succeeds when the condition gives TRUE, FALSE or a Boolean
    NULL on every row. *)
Theorem C60_selection_succeeds : forall depth D name n condition t,
  (forall r, In r (rows_of t) -> boolean_result (result_on depth D t condition r)) ->
  Select depth D (Tree name n [] condition) (Some t) = Ok (top n (filter (is_true depth D t condition) (rows_of t))).
Proof. exact Select_total. Qed.

(** With ORDER BY it is a permutation of these rows. *)
Theorem C60_ordered_permutation : forall depth D t name n terms condition rows, sorts (go_sort D) ->
  Select depth D (Tree name n terms condition) (Some t) = Ok rows ->
  Permutation (top n (filter (is_true depth D t condition) (rows_of t))) rows.
Proof. exact Select_permutation. Qed.

(** DataTable.Select with a limit of 0 returns all matching rows, not none. *)
Theorem C60_table_select_limit : forall depth D t condition limit rows,
  TableSelect depth D t condition [] limit = Ok rows ->
  rows = (if limit <=? 0 then filter (is_true depth D t condition) (rows_of t)
          else firstn (Z.to_nat limit) (filter (is_true depth D t condition) (rows_of t))).
Proof.
  intros depth D t condition limit rows H. unfold TableSelect in H. apply Select_no_order in H. rewrite H. unfold top.
  destruct (0 <? limit) eqn:E; destruct (limit <=? 0) eqn:E2; try lia; [|reflexivity]. destruct (limit <? 0) eqn:E3; [lia|reflexivity].
Qed.

Example C60_nonvacuous :
  ids (Select 3 example_dlib (Tree [] (-1) [] (EOperator OLike tag_column (text "PMU%"))) (Some example_table)) = Ok [1; 2; 3] /\
  ids (Select 3 example_dlib (Tree [] 2 [] (EOperator OLike tag_column (text "PMU%"))) (Some example_table)) = Ok [1; 2] /\
  ids (Select 3 example_dlib (Tree [] 0 [] (EOperator OLike tag_column (text "PMU%"))) (Some example_table)) = Ok [] /\
  ids (TableSelect 3 example_dlib example_table (EOperator OLike tag_column (text "PMU%")) [] 0) = Ok [1; 2; 3] /\
  (forall r, In r (rows_of example_table) -> boolean_result (result_on 3 example_dlib example_table (EOperator OLike tag_column (text "PMU%")) r)).
Proof.
  repeat split; try reflexivity. intros r Hr. cbn in Hr. decompose [or] Hr; try contradiction; subst r;
    (eexists; split; [reflexivity|right; eexists; reflexivity]).
Qed.

(** ** C47: NULL in a condition *)

(** The property fails: whenever an operand of a comparison is NULL on one row,
    and the operands are not Booleans (or a Boolean and a string), selecting by
    that comparison fails, whatever the other rows hold. *)
Theorem C47_comparison_with_null_refuted : forall depth D name terms t o l r row a b,
  relational o -> In row (rows_of t) ->
  result_on depth D t l row = Ok a -> result_on depth D t r row = Ok b -> null a \/ null b ->
  ve_type a <> VUndefined -> ve_type b <> VUndefined ->
  ~ (ve_type a = VBoolean /\ (ve_type b = VBoolean \/ ve_type b = VString)) ->
  forall rows, Select depth D (Tree name (-1) terms (EOperator o l r)) (Some t) <> Ok rows.
Proof.
  intros depth D name terms t o l r row a b R Hr A B N Ua Ub NB rows H.
  apply Select_all_boolean with (r := row) in H; [|lia|exact Hr]. destruct H as (v & E & T).
  unfold result_on in *. rewrite (eval_op _ _ o l r a b A B) in E.
  destruct (comparison_null_type D o a b R N Ua Ub) as [X|(t' & X & I)]; rewrite X in E; [discriminate|].
  inversion E; subst v. cbn in T. apply I in T. contradiction.
Qed.
Example C47_refuted_case :
  Select 3 example_dlib (Tree [] (-1) [] (EOperator OLessThan size_column (num 25))) (Some example_table) = Err /\
  Select 3 example_dlib (Tree [] (-1) [] (EOperator OEqual size_column (num 30))) (Some example_table) = Err /\
  Select 3 example_dlib (Tree [] (-1) [] (EInList size_column [num 30] false false)) (Some example_table) = Err.
Proof. repeat split; reflexivity. Qed.

(** What holds: a condition that is a NULL of type Boolean excludes the row and
    does not fail. *)
Theorem C47_boolean_null_partial : forall depth D name n condition t,
  (forall r, In r (rows_of t) -> boolean_result (result_on depth D t condition r)) ->
  exists rows, Select depth D (Tree name n [] condition) (Some t) = Ok rows /\
  forall r, result_on depth D t condition r = Ok (vNull VBoolean) -> ~ In r rows.
Proof.
  intros depth D name n condition t H. eexists. split; [apply Select_total; exact H|]. intros r E X.
  assert (Y : In r (filter (is_true depth D t condition) (rows_of t))).
  { unfold top in X. destruct (n <? 0); [exact X|]. rewrite <- (firstn_skipn (Z.to_nat n)). apply in_app_iff. left. exact X. }
  apply filter_In in Y as [_ Y]. unfold is_true in Y. rewrite E in Y. discriminate.
Qed.
(** LIKE and the NULL tests are of that kind. *)
Theorem C47_like_is_null_partial : forall depth D t l r row a b,
  result_on depth D t l row = Ok a -> result_on depth D t r row = Ok b -> null a -> ve_type a = VString -> ve_type b = VString ->
  result_on depth D t (EOperator OLike l r) row = Ok (vNull VBoolean) /\
  result_on depth D t (EOperator OIsNull l r) row = Ok (vBool true) /\
  result_on depth D t (EOperator OIsNotNull l r) row = Ok (vBool false).
Proof.
  intros depth D t l r row a b A B N Ta Tb. unfold result_on in *. rewrite !(eval_op _ _ _ l r a b A B).
  destruct a as [ta va], b as [tb vb]. unfold null in N. cbn in *. subst. repeat split; reflexivity.
Qed.
(** In a FILTER statement such a comparison excludes the row ... *)
Theorem C47_statement_partial : forall depth D ds n table condition primary rows, sorts (go_sort D) ->
  primary <> [] -> table <> [] ->
  SelectDataRows depth D ds [SFilter n table condition []] primary None = Ok rows ->
  exists t, DataSetTable D ds table = Some t /\ rows = top (top_value n) (filter (is_true depth D t condition) (rows_of t)).
Proof.
  intros depth D ds n table condition primary rows S P T H.
  apply SelectDataRows_spec in H; [|exact P|exact S|repeat constructor; exact T].
  destruct H as (outs & F & ->). cbn [filter is_identifier negb] in F. inversion F as [|x out l outs' (t & R) F']; subst. inversion F'; subst.
  inversion R; subst. exists t. split; [assumption|]. change (2 <=? len [SFilter n table condition []]) with false. cbv iota.
  unfold identifier_rows. cbn [flat_map]. rewrite (identifier_row_other depth D ds primary None) by reflexivity. cbn [option_list app List.concat]. rewrite app_nil_r.
  match goal with H : [] = [] -> _ |- _ => rewrite (H eq_refl) end. reflexivity.
Qed.
Definition example_set : dset := AddTable example_dlib NewDataSet example_table.
Definition selected (l : list statement) : res (list Z) := ids (SelectDataRows 3 example_dlib example_set l (lit "Points") None).
(** ... but the same comparison within AND or NOT fails there too. *)
Example C47_statement_cases :
  selected [SFilter None (lit "points") (EOperator OLessThan size_column (num 25)) []] = Ok [3; 4] /\
  selected [SFilter None (lit "points") (EOperator OAnd (EOperator OLessThan size_column (num 25)) (truth true)) []] = Err /\
  selected [SFilter None (lit "points") (EOperator OOr (EOperator OLessThan size_column (num 25)) (truth true)) []] = Err.
Proof. repeat split; reflexivity. Qed.

(** ** C61: TOP with ORDER BY *)

(** The property fails: TOP is applied before ORDER BY. *)
Theorem C61_top_before_order_refuted : forall D, sorts (go_sort D) ->
  let t := with_rows (Table (lit "T") [] [DCol (lit "A") DInt32 None 0] [])
             [Some (Row 1 [Some (SCell (CInt32 7))]); Some (Row 2 [Some (SCell (CInt32 5))])] in
  ids (Select 1 D (Tree [] 1 [OrderBy 0 true true] (truth true)) (Some t)) = Ok [1] /\
  row_order 1 D t [OrderBy 0 true true] (Row 2 [Some (SCell (CInt32 5))]) (Row 1 [Some (SCell (CInt32 7))]) = Lt.
Proof.
  intros D S t. split; [|reflexivity].
  assert (E : Select 1 D (Tree [] 1 [OrderBy 0 true true] (truth true)) (Some t)
            = Ok (go_sort D (fun a b => match row_less 1 D t [OrderBy 0 true true] a b with Ok x => x | _ => false end) [Row 1 [Some (SCell (CInt32 7))]])) by reflexivity.
  rewrite E. cbn [ids bind].
  destruct (S (fun a b => match row_less 1 D t [OrderBy 0 true true] a b with Ok x => x | _ => false end) [Row 1 [Some (SCell (CInt32 7))]]) as [P _].
  apply Permutation_length_1_inv in P. rewrite P. reflexivity.
Qed.
(** What holds: the first n matches of the table, sorted. *)
Theorem C61_first_matches_sorted_partial : forall depth D t name n terms condition rows, sorts (go_sort D) ->
  let hits := top n (filter (is_true depth D t condition) (rows_of t)) in
  Forall (sortable depth D t terms) hits ->
  Select depth D (Tree name n terms condition) (Some t) = Ok rows ->
  Permutation hits rows /\ in_order (fun a b => before (row_order depth D t terms a b)) rows.
Proof. intros depth D t name n terms condition rows S hits. apply Select_sorted. exact S. Qed.
(** So it is the ordered result when TOP does not cut anything off. *)
Theorem C61_no_cut_partial : forall depth D t name n terms condition rows, sorts (go_sort D) ->
  let matches := filter (is_true depth D t condition) (rows_of t) in
  n < 0 \/ len matches <= n ->
  Forall (sortable depth D t terms) matches ->
  Select depth D (Tree name n terms condition) (Some t) = Ok rows ->
  Permutation matches rows /\ in_order (fun a b => before (row_order depth D t terms a b)) rows.
Proof.
  intros depth D t name n terms condition rows S matches Hn F H.
  assert (E : top n matches = matches) by (destruct Hn; [apply top_neg|apply top_all]; assumption).
  rewrite <- E. rewrite <- E in F. eapply Select_sorted; eassumption.
Qed.
Definition by_size : list order_term := [OrderBy 2 true true].
Example C61_nonvacuous :
  ids (Select 3 example_dlib (Tree [] (-1) by_size (truth true)) (Some example_table)) = Ok [2; 3; 4; 1] /\
  ids (Select 3 example_dlib (Tree [] (-1) [OrderBy 2 false true] (truth true)) (Some example_table)) = Ok [1; 4; 3; 2] /\
  ids (Select 3 example_dlib (Tree [] 2 by_size (truth true)) (Some example_table)) = Ok [2; 1] /\
  sorts (go_sort example_dlib) /\
  Forall (sortable 3 example_dlib example_table by_size) (rows_of example_table).
Proof.
  repeat split; try reflexivity; try apply insertion_sorts.
  apply List.Forall_forall. intros r Hr. cbn in Hr. decompose [or] Hr; try contradiction; subst r;
    intros o c [<-|[]]; cbn; intros [= <-]; (split; [discriminate|]); intros x [= <-]; (split; [split; discriminate|discriminate]).
Qed.

(** ** C62: the ordering of rows *)

(** The comparison used for sorting is the lexicographic order of the terms,
    NULL first. *)
Theorem C62_less_than : forall depth D t terms a b, sortable depth D t terms a -> sortable depth D t terms b ->
  row_less depth D t terms a b = Ok (before (row_order depth D t terms a b)).
Proof. exact row_less_order. Qed.
(** It is a strict weak order on rows without NaN in the columns of the terms. *)
Theorem C62_strict_weak_order_partial : forall depth D t terms rows, Forall (sortable depth D t terms) rows ->
  strict_weak_order (fun a b => before (row_order depth D t terms a b)) rows.
Proof. exact strict_weak. Qed.
(** Ascending, a row with NULL comes before a row with a value. *)
Theorem C62_null_first : forall depth D t i exact a b x,
  column_value depth D t i a = None -> column_value depth D t i b = Some x ->
  row_order depth D t [OrderBy i true exact] a b = Lt /\ row_order depth D t [OrderBy i true exact] b a = Gt /\
  row_order depth D t [OrderBy i false exact] a b = Gt /\ row_order depth D t [OrderBy i false exact] b a = Lt.
Proof. intros depth D t i exact a b x A B. cbn [row_order ob_column ob_ascending ob_exact]. rewrite A, B. repeat split; reflexivity. Qed.
(** With NaN it is not: NaN is equal to everything. *)
Definition nan_table : dtable := Table (lit "T") [] [DCol (lit "A") DDouble None 0] [].
Definition nan_row (id : Z) (f : double) : drow := Row id [Some (SCell (CDouble f))].
Theorem C62_nan_refuted : forall D, ~ strict_weak_order
  (fun a b => match row_less 1 D nan_table [OrderBy 0 true true] a b with Ok x => x | _ => false end)
  [nan_row 1 (d_of_Z 1); nan_row 2 S754_nan; nan_row 3 (d_of_Z 2)].
Proof.
  intros D (_ & _ & S).
  destruct (S (nan_row 1 (d_of_Z 1)) (nan_row 2 S754_nan) (nan_row 3 (d_of_Z 2))) as [X _]; cbn [In]; auto. discriminate X.
Qed.
(** The order of Booleans puts TRUE first, unlike the comparison FALSE < TRUE of
    filter expressions. *)
Theorem C62_boolean_order_refuted : forall D,
  let t := Table (lit "T") [] [DCol (lit "A") DBoolean None 0] [] in
  row_less 1 D t [OrderBy 0 true true] (Row 1 [Some (SCell (CBool true))]) (Row 2 [Some (SCell (CBool false))]) = Ok true /\
  Evaluate D None (EOperator OLessThan (truth false) (truth true)) = Ok (vBool true).
Proof. intros D t. split; reflexivity. Qed.
(** In ORDER BY, the exact-match mark has the opposite effect. *)
Theorem C62_exact_match_refuted : forall L t c o terms, order_terms L t (o :: c) = Ok terms ->
  exists term rest, terms = term :: rest /\ ob_exact term = negb (oc_exact o) /\ ob_ascending term = negb (oc_desc o).
Proof.
  intros L t c o terms. cbn [order_terms]. destruct (some_or_err _) as [k| |]; cbn [bind]; try discriminate.
  destruct (order_terms L t c) as [r| |]; cbn [bind]; try discriminate. intros [= <-]. repeat eexists.
Qed.
Example C62_nonvacuous :
  selected [SFilter None (lit "Points") (truth true) [OrderClause false (lit "PointTag") true; OrderClause false (lit "size") false]] = Ok [3; 4; 2; 1] /\
  selected [SFilter None (lit "Points") (truth true) [OrderClause true (lit "PointTag") true]] = Ok [4; 3; 2; 1] /\
  row_order 3 example_dlib example_table [OrderBy 1 true false] (Row 9 [None; Some (SCell (CStr (lit "b"))); None]) (Row 8 [None; Some (SCell (CStr (lit "B"))); None]) = Eq.
Proof. repeat split; reflexivity. Qed.

(** ** C63: several statements *)

(** The rows are those of the identifier statements followed by those of the
    FILTER statements, each row at its first place when there are at least two
    statements. *)
Theorem C63_selected_rows : forall depth D ds primary fields, primary <> [] -> sorts (go_sort D) ->
  forall statements rows, tables_named statements ->
  SelectDataRows depth D ds statements primary fields = Ok rows ->
  let f := match fields with None => DefaultTableIDFields | Some f => f end in
  exists outs,
    Forall2 (fun x out => exists t, filter_rows depth D ds primary x t out) (filter (fun x => negb (is_identifier x)) statements) outs /\
    rows = (if 2 <=? len statements then distinct [] else fun r => r)
             (flat_map (fun x => option_list (identifier_row depth D ds primary f x)) statements ++ List.concat outs).
Proof. intros depth D ds primary fields P S statements rows N H. exact (SelectDataRows_spec depth D ds primary fields P S statements rows N H). Qed.

(** Each row once. *)
Theorem C63_each_row_once : forall depth D ds primary fields, primary <> [] -> sorts (go_sort D) ->
  forall statements rows, tables_named statements -> 2 <= len statements ->
  SelectDataRows depth D ds statements primary fields = Ok rows -> NoDup (map row_id rows).
Proof.
  intros depth D ds primary fields P S statements rows N H2 H.
  destruct (SelectDataRows_spec depth D ds primary fields P S statements rows N H) as (outs & _ & ->).
  destruct (2 <=? len statements) eqn:E; [|lia]. apply distinct_nodup.
Qed.
(** A row is selected iff one of the statements stands for it. *)
Theorem C63_union : forall depth D ds primary fields, primary <> [] -> sorts (go_sort D) ->
  forall statements rows, tables_named statements ->
  SelectDataRows depth D ds statements primary fields = Ok rows ->
  let f := match fields with None => DefaultTableIDFields | Some f => f end in
  exists outs,
    Forall2 (fun x out => exists t, filter_rows depth D ds primary x t out) (filter (fun x => negb (is_identifier x)) statements) outs /\
    forall id, In id (map row_id rows) <->
      (exists x r, In x statements /\ identifier_row depth D ds primary f x = Some r /\ row_id r = id) \/
      (exists out r, In out outs /\ In r out /\ row_id r = id).
Proof.
  intros depth D ds primary fields P S statements rows N H f.
  destruct (SelectDataRows_spec depth D ds primary fields P S statements rows N H) as (outs & F & E). exists outs. split; [exact F|]. fold f in E.
  assert (X : forall id, In id (map row_id rows) <-> In id (map row_id (identifier_rows depth D ds primary fields statements ++ List.concat outs))).
  { intros id. rewrite E. destruct (2 <=? len statements); [rewrite distinct_ids; cbn [In]; tauto|reflexivity]. }
  intros id. rewrite X, map_app, in_app_iff, !in_map_iff. unfold identifier_rows. fold f. split.
  - intros [(r & <- & Hr)|(r & <- & Hr)].
    + left. apply in_flat_map in Hr as (x & Hx & Hr). exists x, r. destruct (identifier_row depth D ds primary f x) as [y|]; [|contradiction].
      destruct Hr as [->|[]]. auto.
    + right. apply in_concat in Hr as (out & Ho & Hr). exists out, r. auto.
  - intros [(x & r & Hx & Hr & <-)|(out & r & Ho & Hr & <-)].
    + left. exists r. split; [reflexivity|]. apply in_flat_map. exists x. split; [exact Hx|]. rewrite Hr. left. reflexivity.
    + right. exists r. split; [reflexivity|]. apply in_concat. exists out. auto.
Qed.
(** The property fails in the order: identifiers come before the rows of FILTER
    statements that precede them.  A single FILTER statement keeps a row that the
    table holds twice. *)
Theorem C63_order_refuted :
  selected [SFilter None (lit "Points") (EOperator OEqual tag_column (text "X")) []; SPointTag (lit "pmu1")] = Ok [1; 4] /\
  selected [SFilter None (lit "Points") (EOperator OEqual tag_column (text "X")) []; SGuidLiteral (guid_of 1)] = Ok [1; 4].
Proof. split; reflexivity. Qed.
Example C63_nonvacuous :
  selected [SGuidLiteral (guid_of 4); SFilter (Some (lit "2")) (lit "Points") (EOperator OLike tag_column (text "PMU%")) [];
            SExpression (EOperator OIsNotNull size_column size_column)] = Ok [4; 1; 2; 3].
Proof. reflexivity. Qed.

Print Assumptions C60_selected_rows.
Print Assumptions C60_selection_succeeds.
Print Assumptions C60_ordered_permutation.
Print Assumptions C60_table_select_limit.
Print Assumptions C47_comparison_with_null_refuted.
Print Assumptions C47_boolean_null_partial.
Print Assumptions C47_like_is_null_partial.
Print Assumptions C47_statement_partial.
Print Assumptions C61_top_before_order_refuted.
Print Assumptions C61_first_matches_sorted_partial.
Print Assumptions C61_no_cut_partial.
Print Assumptions C62_less_than.
Print Assumptions C62_strict_weak_order_partial.
Print Assumptions C62_null_first.
Print Assumptions C62_nan_refuted.
Print Assumptions C62_boolean_order_refuted.
Print Assumptions C62_exact_match_refuted.
Print Assumptions C63_selected_rows.
Print Assumptions C63_each_row_once.
Print Assumptions C63_union.
Print Assumptions C63_order_refuted.
