(** Data sets, columns and rows (C64-C66, C79-C81). *)
From Coq Require Import Lia ZifyBool ZifyNat QArith String Permutation.
From Verif Require Import Base GuidModel GuidSpec FormatModel StrModel CalModel NumModel ExprModel ExprSpec StrProofs ExprProofs2
  TableModel TableSpec TableProofs TableProofs2 TableProofs3 TableProofs4 TableProofs5 TableProofs6 TableProofs7 PropertiesExpr PropertiesTable.
Close Scope Q_scope.
Open Scope list_scope.
Open Scope Z_scope.

(** ** C64: lookups by name *)

(** After any history of additions and removals, a name finds the table last
    added under a name equal but for letter case, unless removed since. *)
Theorem C64_table_found : forall L h name t, DataSetTable L (set_history L h) name = Some t <-> latest L h name t.
Proof. exact table_latest. Qed.
(** The tables and their number are those that are found; no two share a name. *)
Theorem C64_tables : forall L h t,
  (In t (Tables (set_history L h)) <-> latest L h (dt_name t) t) /\
  NoDup (map (ToUpper L) (TableNames (set_history L h))) /\
  TableCount (set_history L h) = len (TableNames (set_history L h)) /\
  TableCount (set_history L h) = len (Tables (set_history L h)).
Proof. intros L h t. split; [apply Tables_latest|]. split; [apply TableNames_distinct|]. apply TableCount_names. Qed.
(** RemoveTable answers whether there was such a table. *)
Theorem C64_remove_result : forall L h name, snd (RemoveTable L (set_history L h) name) = true <-> exists t, latest L h name t.
Proof. exact RemoveTable_result. Qed.
(** ASCII names that differ in letter case are the same name. *)
Theorem C64_letter_case : forall L a b, ascii_tables L -> is_ascii a -> is_ascii b -> case_variant a b -> same_name L a b.
Proof. exact case_variant_same. Qed.

(** The columns of a table are those added, numbered from 0. *)
Theorem C64_columns : forall L name cs,
  let t := columns_history L name cs in
  ColumnCount t = len cs /\
  forall i, Column t i = if i <? 0 then None else match nth_error cs (Z.to_nat i) with
                                                 | Some c => Some (DCol (dc_name c) (dc_type c) (dc_tree c) i)
                                                 | None => None end.
Proof. exact columns_spec. Qed.
(** A name finds the last column of that name, the one its index addresses. *)
Theorem C64_column_by_name : forall L n cs name c,
  let t := columns_history L n cs in
  (ColumnByName L t name = Some c <->
   Column t (dc_index c) = Some c /\ same_name L (dc_name c) name /\
   forall j d, dc_index c < j -> Column t j = Some d -> ~ same_name L (dc_name d) name) /\
  (ColumnByName L t name = None <-> forall i d, Column t i = Some d -> ~ same_name L (dc_name d) name).
Proof. intros L n cs name c t. split; [apply ColumnByName_spec|apply ColumnByName_none]. Qed.
Theorem C64_column_index : forall L n cs name,
  let t := columns_history L n cs in
  (forall i, 0 <= i -> (ColumnIndex L t name = i <-> exists c, last_named L t name i c)) /\
  (ColumnIndex L t name = -1 <-> forall i c, Column t i = Some c -> ~ same_name L (dc_name c) name).
Proof. exact ColumnIndex_spec. Qed.

Example C64_nonvacuous :
  let t := newDataTable (lit "Points") in let u := newDataTable (lit "POINTS") in
  let h := [SetAdd t; SetAdd (newDataTable (lit "Other")); SetAdd u; SetRemove (lit "other")] in
  DataSetTable example_lib (set_history example_lib h) (lit "points") = Some u /\
  DataSetTable example_lib (set_history example_lib h) (lit "OTHER") = None /\
  TableCount (set_history example_lib h) = 1 /\
  ColumnIndex example_lib (columns_history example_lib (lit "T") (example_columns ++ [newDataColumn (lit "SIZE") DString None])) (lit "size") = 3 /\
  case_variant (lit "Points") (lit "pOINTS") /\ is_ascii (lit "Points").
Proof. repeat split; try reflexivity; repeat constructor; cbn; lia. Qed.

(** ** C65: reading and writing rows *)

(** The values of a new row after any history of assignments: the last value
    assigned to each column that is not computed; an assignment to a computed or
    missing column is refused. *)
Theorem C65_assignments : forall t id h,
  exists vals, set_values t (row_values (CreateRow t id)) h = Ok vals /\ len vals = ColumnCount t /\
  forall i, 0 <= i < ColumnCount t -> idx vals i = Ok (if plain t i then last_assigned h i None else None).
Proof. exact new_row_history. Qed.
Theorem C65_assignment_refused_iff : forall t vals i v, len vals = ColumnCount t ->
  (SetValue t vals i v = Err <-> forall c, Column t i = Some c -> dc_tree c <> None).
Proof.
  intros t vals i v Hl. rewrite SetValue_spec. unfold plain. destruct (Column t i) as [c|] eqn:E.
  - pose proof (Column_range _ _ _ E) as R. destruct (dc_tree c) eqn:T.
    + split; [|reflexivity]. intros _ c' [= <-]. congruence.
    + destruct (slice_set_spec vals i v) as (l & -> & _). { rewrite Hl. exact R. }
      split; [discriminate|]. intros H. exfalso. exact (H c eq_refl T).
  - split; [discriminate|reflexivity].
Qed.

(** A typed getter returns an error for a missing column and for a column of
    another type ... *)
Theorem C65_wrong_index_or_type : forall depth D t vals i ty,
  (forall c, Column t i = Some c -> dc_type c <> ty) -> TypedValue (S depth) D t vals i ty = Err.
Proof.
  intros depth D t vals i ty H. destruct (Column t i) as [c|] eqn:E; [eapply typed_wrong_type; eauto|apply typed_no_column; exact E].
Qed.
(** ... NULL for an unset value, and the stored value when it has the type of
    the column. *)
Theorem C65_typed_read_partial : forall depth D t id h vals i c, set_values t (row_values (CreateRow t id)) h = Ok vals ->
  Column t i = Some c -> dc_tree c = None ->
  match last_assigned h i None with
  | None => TypedValue (S depth) D t vals i (dc_type c) = Ok None
  | Some (SCell x) => cell_type x = dc_type c -> TypedValue (S depth) D t vals i (dc_type c) = Ok (Some x)
  | Some _ => True
  end.
Proof.
  intros depth D t id h vals i c E Hc Ht. destruct (new_row_history t id h) as (vals' & E' & Hl & I). rewrite E in E'. inversion E'; subst vals'.
  pose proof (Column_range _ _ _ Hc) as R. specialize (I i R). unfold plain in I. rewrite Hc, Ht in I.
  assert (Q : dtype_eqb (dc_type c) (dc_type c) = true) by (apply dtype_eqb_eq; reflexivity).
  destruct (last_assigned h i None) as [[x| |]|]; auto.
  - intros T. rewrite (typed_read t vals i c _ _ depth D Hc Ht I), Q. cbn [assert_type]. rewrite T, Q. reflexivity.
  - rewrite (typed_read t vals i c _ _ depth D Hc Ht I), Q. reflexivity.
Qed.
(** The property fails: SetValue accepts a value of any type, and the getter
    of the column then panics. *)
Theorem C65_unchecked_value_refuted : forall depth D t vals i c v, Column t i = Some c -> dc_tree c = None -> len vals = ColumnCount t ->
  (v = SOther \/ v = STree \/ exists x, v = SCell x /\ cell_type x <> dc_type c) ->
  exists vals', SetValue t vals i (Some v) = Ok vals' /\ TypedValue (S depth) D t vals' i (dc_type c) = Panic.
Proof.
  intros depth D t vals i c v Hc Ht Hl Hv. rewrite SetValue_spec. unfold plain. rewrite Hc, Ht.
  destruct (slice_set_spec vals i (Some v)) as (vals' & E & _ & I). { rewrite Hl. apply (Column_range _ _ _ Hc). }
  exists vals'. split; [exact E|]. specialize (I i). rewrite Z.eqb_refl in I. rewrite (typed_read t vals' i c _ _ depth D Hc Ht I).
  replace (dtype_eqb (dc_type c) (dc_type c)) with true by (symmetry; apply dtype_eqb_eq; reflexivity).
  destruct Hv as [->|[->|(x & -> & N)]]; cbn [assert_type]; try reflexivity.
  destruct (dtype_eqb (cell_type x) (dc_type c)) eqn:X; [apply dtype_eqb_eq in X; congruence|reflexivity].
Qed.
(** It also fails for a row created before a column was added. *)
Theorem C65_column_added_later_refuted : forall depth D L t c id v, dc_tree c = None ->
  let t' := AddColumn L t c in let i := ColumnCount t in
  TypedValue (S depth) D t' (row_values (CreateRow t id)) i (dc_type c) = Panic /\ SetValue t' (row_values (CreateRow t id)) i v = Panic.
Proof.
  intros depth D L t c id v Ht t' i.
  assert (Hc : Column t' i = Some (DCol (dc_name c) (dc_type c) (dc_tree c) i)).
  { unfold i, ColumnCount, len. rewrite Column_of_nat. unfold t', AddColumn. cbn [dt_columns]. rewrite nth_error_app2 by lia. rewrite Nat.sub_diag. reflexivity. }
  assert (Hi : idx (row_values (CreateRow t id)) i = Panic).
  { unfold idx, i, ColumnCount, len. cbn [CreateRow row_values]. rewrite Nat2Z.id. destruct (_ <? 0); [reflexivity|].
    replace (nth_error _ _) with (@None (option slot)); [reflexivity|]. symmetry. apply nth_error_None. rewrite repeat_length. lia. }
  split.
  - cbn [TypedValue]. rewrite validate_spec, Hc. cbn [dc_type dc_tree orb]. rewrite Ht, andb_true_r.
    replace (dtype_eqb (dc_type c) (dc_type c)) with true by (symmetry; apply dtype_eqb_eq; reflexivity). cbn [bind dc_tree]. rewrite Hi. reflexivity.
  - rewrite SetValue_spec. unfold plain. rewrite Hc. cbn [dc_tree]. rewrite Ht. unfold slice_set, i, ColumnCount, len. cbn [CreateRow row_values]. rewrite repeat_length.
    destruct (_ || _) eqn:E; [reflexivity|lia].
Qed.
(** By name as by index, except that ValueByName does not evaluate a computed
    column. *)
(** The text of a value: "<NULL>" for NULL, decimal digits of integers, true and
    false, strings as they are, and what the formatting functions give for the
    rest. *)
Theorem C65_value_text : forall depth D t vals i c v, Column t i = Some c ->
  TypedValue depth D t vals (dc_index c) (dc_type c) = Ok v ->
  exists text, ValueAsString depth D t vals i = Ok text /\
  match v with
  | None => text = lit "<NULL>"
  | Some (CStr s) => text = s
  | Some (CBool true) => text = lit "true"
  | Some (CBool false) => text = lit "false"
  | Some (CTime d) => text = format_date d
  | Some (CSingle f) => text = format_single f
  | Some (CDouble f) => text = format_float f
  | Some (CDec d) => text = format_decimal d
  | Some (CGuid g) => text = format_guid g
  | Some (CInt8 n) | Some (CInt16 n) | Some (CInt32 n) | Some (CInt64 n)
  | Some (CUInt8 n) | Some (CUInt16 n) | Some (CUInt32 n) | Some (CUInt64 n) => text = FormatInt n
  end.
Proof.
  intros depth D t vals i c v C T. unfold ValueAsString, ColumnValueAsString. rewrite C, T. destruct v as [x|]; eexists; (split; [reflexivity|]); [|reflexivity].
  destruct x; try reflexivity. destruct b; reflexivity.
Qed.
Theorem C65_by_name : forall depth (D : dlib) n cs vals name ty v,
  let t := columns_history D n cs in
  let i := ColumnIndex D t name in
  (i <> -1 -> TypedValueByName depth D t vals name ty = TypedValue depth D t vals i ty /\
              SetValueByName D t vals name v = SetValue t vals i v /\
              (plain t i = true -> ValueByName D t vals name = Value depth D t vals i)) /\
  (i = -1 -> TypedValueByName depth D t vals name ty = Err /\ SetValueByName D t vals name v = Err /\ ValueByName D t vals name = Err).
Proof.
  intros depth D n cs vals name ty v t i. unfold i, ColumnIndex. rewrite typed_by_name, set_by_name.
  destruct (ColumnByName D t name) as [c|] eqn:E.
  - pose proof E as E0. apply ColumnByName_spec in E as (H1 & _). fold t in H1. split.
    + intros _. repeat split. unfold plain. rewrite H1. destruct (dc_tree c) eqn:T; [discriminate|]. intros _. apply value_by_name; assumption.
    + intros X. apply Column_range in H1. lia.
  - split; [congruence|]. intros _. repeat split. unfold ValueByName, getColumnIndex. rewrite E. reflexivity.
Qed.
Definition computed_columns : list dcol :=
  [newDataColumn (lit "A") DInt32 None; newDataColumn (lit "B") DInt32 (Some (Ok (EOperator OAdd (EColumn (Some {| col_index := 0; col_type := DInt32 |})) (num 1))))].
Theorem C65_value_by_name_refuted : forall D : dlib, ascii_tables D ->
  let t := columns_history D (lit "T") computed_columns in
  Value 1 D t [Some (SCell (CInt32 4)); None] 1 = Ok (Some (SCell (CInt32 5))) /\
  ValueByName D t [Some (SCell (CInt32 4)); None] (lit "B") = Ok None.
Proof.
  intros D T t. split; [reflexivity|].
  assert (N : forall a b, is_ascii a -> is_ascii b -> str_eqb (ToUpper D a) (ToUpper D b) = str_eqb (map ascii_upper a) (map ascii_upper b)).
  { intros a b Ha Hb. rewrite !ToUpper_ascii by assumption. reflexivity. }
  unfold ValueByName, getColumnIndex, ColumnByName, t, columns_history, computed_columns. cbn [fold_left AddColumn dt_indexes newDataTable].
  rewrite !map_get_put. cbn [newDataColumn dc_name]. rewrite !N by (repeat constructor; cbn; lia). reflexivity.
Qed.

Example C65_nonvacuous :
  let t := columns_history example_lib (lit "T") example_columns in
  set_values t (row_values (CreateRow t 1)) [(2, Some (SCell (CInt32 5))); (7, None); (2, Some (SCell (CInt32 6))); (1, Some SOther)]
    = Ok [None; Some SOther; Some (SCell (CInt32 6))] /\
  TypedValue 1 example_dlib t [None; Some SOther; Some (SCell (CInt32 6))] 2 DInt32 = Ok (Some (CInt32 6)) /\
  TypedValue 1 example_dlib t [None; Some SOther; Some (SCell (CInt32 6))] 2 DInt64 = Err /\
  TypedValue 1 example_dlib t [None; Some SOther; Some (SCell (CInt32 6))] 1 DString = Panic /\
  TypedValue 1 example_dlib t [None; Some SOther; Some (SCell (CInt32 6))] 0 DGuid = Ok None.
Proof. repeat split; reflexivity. Qed.

(** ** C66: RowsWhere *)

(** The property fails for a limit of 0: the first match is returned. *)
Theorem C66_limit_zero_refuted : forall t p, RowsWhere t p 0 = firstn 1 (filter p (rows_of t)).
Proof. exact RowsWhere_zero. Qed.
(** Every other limit: the first n matches, all for a negative one. *)
Theorem C66_limits_partial : forall t p n, n <> 0 -> RowsWhere t p n = top n (filter p (rows_of t)).
Proof. exact RowsWhere_spec. Qed.
Example C66_nonvacuous :
  map row_id (RowsWhere example_table (fun r => 2 <=? row_id r) 2) = [2; 3] /\
  map row_id (RowsWhere example_table (fun r => 2 <=? row_id r) (-1)) = [2; 3; 4] /\
  map row_id (RowsWhere example_table (fun r => 2 <=? row_id r) 0) = [2].
Proof. repeat split; reflexivity. Qed.

(** ** C79: sets of signal IDs *)

(** SelectSignalIDSet returns exactly the signal IDs given, those of the rows
    keys and tags stand for, and those of the rows of the FILTER statements. *)
Theorem C79_signal_ids : forall depth D ds primary fields, primary <> [] ->
  forall statements ids, tables_named statements ->
  SelectSignalIDSet depth D ds statements primary fields = Ok ids ->
  let f := match fields with None => DefaultTableIDFields | Some f => f end in
  exists outs,
    Forall2 (filter_signals depth D ds primary f) (filter (fun x => negb (is_identifier x)) statements) outs /\
    NoDup ids /\
    forall g, In g ids <-> (exists x, In x statements /\ identifier_signal depth D ds primary f x = Some g) \/ (exists out, In out outs /\ In g out).
Proof.
  intros depth D ds primary fields P statements ids N H f.
  destruct (SelectSignalIDSet_spec depth D ds primary fields P statements ids N H) as (outs & F & U & I). exists outs. split; [exact F|]. split; [exact U|].
  intros g. rewrite I, in_app_iff. unfold identifier_signals. fold f. rewrite in_flat_map, in_concat. split.
  - intros [(x & Hx & Hg)|(out & Ho & Hg)]; [left; exists x; split; [exact Hx|]|right; exists out; auto].
    destruct (identifier_signal depth D ds primary f x); [|contradiction]. destruct Hg as [->|[]]. reflexivity.
  - intros [(x & Hx & Hg)|(out & Ho & Hg)]; [left; exists x; split; [exact Hx|]; rewrite Hg; left; reflexivity|right; exists out; auto].
Qed.
(** A parser that tracks signal IDs lists those of its set, each once if there
    are several statements. *)
Theorem C79_id_list : forall depth D p l limit sort s, p_track_ids p = true ->
  EvaluateStatements depth D p l limit sort = Ok s ->
  exists set, fs_idset (initializeSetOperations p s) = Some set /\
    (forall g, In g (fs_ids s) <-> In g set) /\ (2 <= len l -> NoDup (fs_ids s)).
Proof. exact evaluate_listed. Qed.
(** The property fails when the table a FILTER names is not spelled exactly as
    the primary table: lookups elsewhere ignore letter case. *)
Theorem C79_table_spelling_refuted : forall depth (D : dlib) ds primary fields, primary <> [] ->
  forall n table condition order t, table <> [] -> DataSetTable D ds table = Some t -> dt_name t <> primary ->
  forall ids, SelectSignalIDSet depth D ds [SFilter n table condition order] primary fields <> Ok ids.
Proof. intros depth D ds primary fields P n table condition order t. apply SelectSignalIDSet_other_table. exact P. Qed.
Definition selected_ids (l : list statement) (primary : string) : res (list guid) := SelectSignalIDSet 3 example_dlib example_set l (lit primary) None.
Example C79_nonvacuous :
  selected_ids [SPointTag (lit "pmu3"); SGuidLiteral (guid_of 9); SFilter None (lit "points") (EOperator OLike tag_column (text "PMU%")) []] "Points"
    = Ok [guid_of 2; guid_of 1; guid_of 9; guid_of 3] /\
  selected_ids [SFilter None (lit "points") (truth true) []] "points" = Err /\
  selected_ids [SFilter None (lit "points") (truth true) []] "Points" = Ok [guid_of 4; guid_of 3; guid_of 2; guid_of 1].
Proof. repeat split; reflexivity. Qed.

(** ** C80: computed columns *)

(** A computed column reads as its expression over the row, converted to the
    column's type. *)
Theorem C80_computed_value : forall depth (D : dlib) t vals i c e,
  Column t i = Some c -> dc_tree c = Some (Ok e) -> idx vals i = Ok None ->
  TypedValue (S depth) D t vals i (dc_type c) =
  let* v := Evaluate D (Some (TypedValue depth D t vals)) e in
  let* x := computed_cell D v (dc_type c) in Ok (Some x).
Proof. intros depth D t vals i c e. apply typed_computed'. Qed.
(** Integers, strings, GUIDs and Booleans are converted to their own type unchanged. *)
Theorem C80_same_type : forall D,
  (forall b, computed_cell D (vBool b) DBoolean = Ok (CBool b)) /\
  (forall n, - 2 ^ 31 <= n < 2 ^ 31 -> computed_cell D (vInt32 n) DInt32 = Ok (CInt32 n)) /\
  (forall n, - 2 ^ 63 <= n < 2 ^ 63 -> computed_cell D (VE VInt64 (Some (GInt64 n))) DInt64 = Ok (CInt64 n)) /\
  (forall s, computed_cell D (vStr s) DString = Ok (CStr s)) /\
  (forall g, computed_cell D (VE VGuid (Some (GGuid g))) DGuid = Ok (CGuid g)) /\
  (forall d, computed_cell D (VE VDecimal (Some (GDec d))) DDecimal = Ok (CDec d)) /\
  (forall f, computed_cell D (VE VDouble (Some (GDouble f))) DDouble = Ok (CDouble f)) /\
  (forall d, computed_cell D (VE VDateTime (Some (GTime d))) DDateTime = Ok (CTime d)).
Proof.
  intros D. repeat split; try reflexivity; intros n R; cbn; unfold int_or_err; cbn; do 2 f_equal; (apply i32_id || apply i64_id); unfold is_i32, is_i64; lia.
Qed.
(** The property fails: a NULL result reads as the zero value, not as NULL ... *)
Theorem C80_null_becomes_zero_refuted : forall D,
  computed_cell D (vNull VInt32) DInt32 = Ok (CInt32 0) /\ computed_cell D (vNull VString) DString = Ok (CStr []) /\
  computed_cell D (vNull VBoolean) DBoolean = Ok (CBool false).
Proof. intros D. repeat split; reflexivity. Qed.
(** ... a DateTime result reads as FALSE in a Boolean column unless it is the
    Unix epoch, contrary to every other number ... *)
Theorem C80_datetime_boolean_refuted : forall D d n,
  computed_cell D (VE VDateTime (Some (GTime d))) DBoolean = Ok (CBool (i64 (Unix d) =? 0)) /\
  computed_cell D (vInt32 n) DBoolean = Ok (CBool (negb (n =? 0))).
Proof. intros D d n. split; reflexivity. Qed.
(** ... and a column computed from itself never ends: the read exhausts any stack. *)
Theorem C80_self_reference_refuted : forall (D : dlib) depth,
  let t := Table (lit "T") [] [DCol (lit "A") DInt32 (Some (Ok (EColumn (Some {| col_index := 0; col_type := DInt32 |})))) 0] [] in
  TypedValue depth D t [None] 0 DInt32 = Panic.
Proof.
  intros D depth t. induction depth as [|depth IH]; [reflexivity|].
  change DInt32 with (dc_type (DCol (lit "A") DInt32 (Some (Ok (EColumn (Some {| col_index := 0; col_type := DInt32 |})))) 0)) at 1.
  erewrite C80_computed_value; [|reflexivity|reflexivity|reflexivity].
  unfold Evaluate. cbn [evaluateAs evaluateColumn col_index col_type]. rewrite IH. reflexivity.
Qed.
Example C80_nonvacuous :
  let t := columns_history example_lib (lit "T") computed_columns in
  TypedValue 2 example_dlib t [Some (SCell (CInt32 4)); None] 1 DInt32 = Ok (Some (CInt32 5)) /\
  TypedValue 2 example_dlib t [None; None] 1 DInt32 = Ok (Some (CInt32 0)).
Proof. split; reflexivity. Qed.

(** ** C81: cloning a row *)
Theorem C81_clone : forall depth D t r id,
  (forall j, Value depth D t (row_values r) j <> Panic) -> len (row_values r) = ColumnCount t ->
  (forall i, 0 <= i < ColumnCount t -> plain t i = false -> idx (row_values r) i = Ok None) ->
  CloneRow depth D t r id = Ok (Row id (row_values r)).
Proof. exact CloneRow_spec. Qed.
Example C81_nonvacuous :
  let t := columns_history example_lib (lit "T") computed_columns in
  CloneRow 2 example_dlib t (Row 1 [Some (SCell (CInt32 4)); None]) 2 = Ok (Row 2 [Some (SCell (CInt32 4)); None]).
Proof. reflexivity. Qed.

Print Assumptions C64_table_found.
Print Assumptions C64_tables.
Print Assumptions C64_remove_result.
Print Assumptions C64_letter_case.
Print Assumptions C64_columns.
Print Assumptions C64_column_by_name.
Print Assumptions C64_column_index.
Print Assumptions C65_assignments.
Print Assumptions C65_assignment_refused_iff.
Print Assumptions C65_wrong_index_or_type.
Print Assumptions C65_typed_read_partial.
Print Assumptions C65_unchecked_value_refuted.
Print Assumptions C65_column_added_later_refuted.
Print Assumptions C65_value_text.
Print Assumptions C65_by_name.
Print Assumptions C65_value_by_name_refuted.
Print Assumptions C66_limit_zero_refuted.
Print Assumptions C66_limits_partial.
Print Assumptions C79_signal_ids.
Print Assumptions C79_id_list.
Print Assumptions C79_table_spelling_refuted.
Print Assumptions C80_computed_value.
Print Assumptions C80_same_type.
Print Assumptions C80_null_becomes_zero_refuted.
Print Assumptions C80_datetime_boolean_refuted.
Print Assumptions C80_self_reference_refuted.
Print Assumptions C81_clone.
