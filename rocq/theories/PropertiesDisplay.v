(** What String() shows of columns, rows, tables, data sets, codes and operators
    (C129). *)
From Coq Require Import Lia ZifyBool String Permutation.
From Verif Require Import Base FormatModel FormatSpec FormatProofs ExprModel TableModel TableProofs3 ParseModel ParseSpec LexModel LexSpec TextModel TextSpec DisplayModel DisplaySpec DisplayProofs.
Open Scope list_scope.
Open Scope Z_scope.

(** A column: its name, its type and whether it is computed, which the text
    determines. *)
Theorem C129_column : forall c,
  ColumnString c = dc_name c ++ lit " (" ++ (match dc_tree c with Some _ => lit "Computed " | None => [] end) ++ dtype_name (dc_type c) ++ lit ")".
Proof. intros c. unfold ColumnString. destruct (dc_tree c); rewrite <- ?app_assoc; reflexivity. Qed.
Theorem C129_column_determined : forall c c', ColumnString c = ColumnString c' ->
  dc_name c = dc_name c' /\ dc_type c = dc_type c' /\ (dc_tree c = None <-> dc_tree c' = None).
Proof. exact ColumnString_inj. Qed.
(** A row: the texts of its columns in their order, or a panic exactly where the
    getter of some column panics. *)
Theorem C129_row : forall depth D t vals,
  (Exists (fun c => TypedValue depth D t vals (dc_index c) (dc_type c) = Panic) (dt_columns t) /\ RowString depth D t vals = Panic) \/
  exists texts s, Forall2 (column_shown depth D t vals) (dt_columns t) texts /\ listed texts s /\ RowString depth D t vals = Ok (lit "[" ++ s ++ lit "]").
Proof. exact RowString_spec. Qed.
(** The text of a row tells the texts of its columns when these have no comma. *)
Theorem C129_row_determined_partial : forall depth D t vals vals' texts texts' s,
  Forall2 (column_shown depth D t vals) (dt_columns t) texts -> Forall2 (column_shown depth D t vals') (dt_columns t) texts' ->
  Forall (fun x => ~ In 44 x) texts -> Forall (fun x => ~ In 44 x) texts' ->
  RowString depth D t vals = Ok s -> RowString depth D t vals' = Ok s -> texts = texts'.
Proof.
  intros depth D t vals vals' texts texts' s F F' N N' R R'.
  assert (U : forall v ts, Forall2 (column_shown depth D t v) (dt_columns t) ts -> RowString depth D t v = Ok s -> exists u, s = lit "[" ++ u ++ lit "]" /\ listed ts u).
  { clear. intros v ts F R. destruct (RowString_spec depth D t v) as [(_ & P)|(ts' & u & F' & W & P)]; [congruence|]. rewrite R in P. injection P as ->. exists u. split; [reflexivity|].
    replace ts with ts'; [exact W|]. clear -F F'. revert ts' F'. induction F as [|c x cs xs H F IH]; intros ts' F'; inversion F'; subst; [reflexivity|]. f_equal; [|apply IH; assumption].
    inversion H; subst; inversion H2; subst; try congruence;
      repeat match goal with A : TypedValue _ _ _ _ _ _ = Ok ?v, B : TypedValue _ _ _ _ _ _ = Ok ?w |- _ => rewrite A in B; injection B as B; subst end;
      repeat match goal with A : value_shown _ ?v _, B : value_shown _ ?v _ |- _ => inversion A; subst; inversion B; subst; clear A B end; reflexivity. }
  destruct (U _ _ F R) as (u & E & W), (U _ _ F' R') as (u' & E' & W'). subst s. apply app_inv_head in E'. apply app_inj_tail in E'. destruct E' as (<- & _).
  apply (listed_inj _ _ W N _ W' N'). assert (Len : forall (P : dcol -> bytes -> Prop) cs ts, Forall2 P cs ts -> length cs = length ts) by (intros P cs ts H; induction H; cbn [length]; congruence).
  rewrite <- (Len _ _ _ F), <- (Len _ _ _ F'). reflexivity.
Qed.
(** Strings are not escaped: different rows can have one text. *)
Definition two_strings : dtable := Table (lit "T") [] [DCol (lit "A") DString None 0; DCol (lit "B") DString None 1] [].
Theorem C129_row_determined_refuted : forall depth (D : dlib), exists vals vals' s,
  vals <> vals' /\ RowString (S depth) D two_strings vals = Ok s /\ RowString (S depth) D two_strings vals' = Ok s /\
  (exists x y x' y', vals = [Some (SCell (CStr x)); Some (SCell (CStr y))] /\ vals' = [Some (SCell (CStr x')); Some (SCell (CStr y'))]).
Proof.
  intros depth D. exists [Some (SCell (CStr (lit "a"", ""b"))); Some (SCell (CStr (lit "c")))], [Some (SCell (CStr (lit "a"))); Some (SCell (CStr (lit "b"", ""c")))], (lit "[""a"", ""b"", ""c""]").
  split; [discriminate|]. split; [reflexivity|]. split; [reflexivity|]. do 4 eexists. split; reflexivity.
Qed.
(** A missing string shows like a string. *)
Theorem C129_null_refuted : forall depth (D : dlib),
  RowString (S depth) D two_strings [None; Some (SCell (CStr (lit "b")))] = RowString (S depth) D two_strings [Some (SCell (CStr (lit "<NULL>"))); Some (SCell (CStr (lit "b")))] /\
  RowString (S depth) D two_strings [None; Some (SCell (CStr (lit "b")))] = Ok (lit "[""<NULL>"", ""b""]").
Proof. intros. split; reflexivity. Qed.
(** A table: its name, its columns in their order and the number of its rows, in
    decimal with commas. *)
Theorem C129_table : forall t, len (dt_rows t) < 2 ^ 63 -> exists columns n,
  listed (map ColumnString (dt_columns t)) columns /\ is_decimal_of (len (dt_rows t)) (without 44 n) /\ grouped_by_three 44 n /\
  TableString t = Ok (dt_name t ++ lit " [" ++ columns ++ lit "] x " ++ n ++ lit " rows").
Proof.
  intros t B. unfold TableString. assert (P : 0 <= len (dt_rows t)) by (unfold len; lia).
  destruct (Int64With_ok (len (dt_rows t)) 44) as (n & E & V & G); [unfold is_i64; lia|unfold FormatSpec.is_digit; lia|lia|].
  replace (len (dt_rows t) <? 0) with false in E by lia. rewrite Z.abs_eq in V by lia. rewrite E. cbn [bind app].
  exists (listing true (map ColumnString (dt_columns t))), n. split; [apply listing_listed|]. auto.
Qed.
(** A data set: its name and the names of all its tables, each once, in an order
    that can be another one the next time. *)
Theorem C129_data_set : forall name ds visited, Permutation ds visited -> exists names s,
  Permutation names (TableNames ds) /\ listed names s /\ DataSetString name visited = name ++ lit " [" ++ s ++ lit "]".
Proof.
  intros name ds visited P. exists (TableNames visited), (listing true (TableNames visited)). split; [|split; [apply listing_listed|reflexivity]].
  apply Permutation_map. symmetry. exact P.
Qed.
Theorem C129_data_set_repeated_refuted : exists name ds v w, Permutation ds v /\ Permutation ds w /\ DataSetString name v <> DataSetString name w.
Proof.
  pose (e n := (lit n, Table (lit n) [] [] [])). exists (lit "S"), [e "A"; e "B"]%string, [e "A"; e "B"]%string, [e "B"; e "A"]%string.
  split; [reflexivity|]. split; [constructor|]. vm_compute. discriminate.
Qed.

(** Codes of the protocol show as different texts, the ones that have a name as that
    name, the others as hexadecimal numbers. *)
Theorem C129_commands : forall c d, 0 <= c < 256 -> 0 <= d < 256 -> ServerCommandString c = ServerCommandString d -> c = d.
Proof.
  intros c d C D. apply named_inj; [apply distinct_codes_NoDup; reflexivity|apply distinct_texts_NoDup; vm_compute; reflexivity|reflexivity|lia|lia].
Qed.
Theorem C129_responses : forall c d, 0 <= c < 256 -> 0 <= d < 256 -> ServerResponseString c = ServerResponseString d -> c = d.
Proof.
  intros c d C D. apply named_inj; [apply distinct_codes_NoDup; reflexivity|apply distinct_texts_NoDup; vm_compute; reflexivity|reflexivity|lia|lia].
Qed.
Theorem C129_kinds : forall c d, 0 <= c < 2 ^ 16 -> 0 <= d < 2 ^ 16 -> SignalKindString c = SignalKindString d -> c = d.
Proof.
  intros c d C D. apply named_inj; [apply distinct_codes_NoDup; reflexivity|apply distinct_texts_NoDup; vm_compute; reflexivity|reflexivity|lia|lia].
Qed.
Theorem C129_response_names : forall c n, In (c, n) response_names -> ServerResponseString c = lit n.
Proof. intros c n I. apply named_in; [apply distinct_codes_NoDup; reflexivity|exact I]. Qed.
Theorem C129_kind_names : forall c n, In (c, n) kind_names -> SignalKindString c = lit n.
Proof. intros c n I. apply named_in; [apply distinct_codes_NoDup; reflexivity|exact I]. Qed.
Theorem C129_command_names_partial : forall c n, In (c, n) command_names -> c <> 9 -> ServerCommandString c = lit n.
Proof.
  intros c n I N. apply named_in; [apply distinct_codes_NoDup; reflexivity|].
  assert (K : forall l, In (c, n) l -> In (c, n) (filter (fun e => negb (fst e =? 9)) l)) by (intros l J; apply filter_In; split; [exact J|cbn [fst]; lia]).
  exact (K command_names I).
Qed.
(** ConfirmUpdateBaseTimes has no name. *)
Theorem C129_command_names_refuted : In (9, "ConfirmUpdateBaseTimes"%string) command_names /\ ServerCommandString 9 = lit "0x9".
Proof. split; [cbn; tauto|reflexivity]. Qed.
(** Codes without a name: hexadecimal digits of the code. *)
Theorem C129_other_codes : forall c, 0 <= c < 256 ->
  (~ In c (map fst command_names) -> exists s, ServerCommandString c = lit "0x" ++ s /\ hex_value s = c /\ (length s <= 2)%nat) /\
  (~ In c (map fst response_names) -> exists s, ServerResponseString c = lit "0x" ++ s /\ hex_value s = c /\ (length s <= 2)%nat).
Proof.
  intros c C. assert (H : hex_value (FormatHex c) = c /\ (length (FormatHex c) <= 2)%nat).
  { split; [apply FormatHex_value; lia|]. unfold FormatHex. cbn [hex_digits]. destruct (c <? 16) eqn:E; [cbn; lia|]. destruct (c / 16 <? 16) eqn:E2; [cbn; lia|].
    exfalso. pose proof (Z.div_lt_upper_bound c 16 16). lia. }
  split; intros N; exists (FormatHex c); (split; [|exact H]); apply named_out; intros I; apply N; revert I; [|exact (fun I => I)].
  cbn. tauto.
Qed.

(** Operators show as they are written: between two operands, the text of an
    operator makes an expression with that operator; likewise the tests for NULL
    after one operand, the signs before one, and the names of functions. *)
Theorem C129_operators : forall L column ta tb a b x y o, operand ta a -> operand tb b ->
  TextSpec.denotes L column a x -> TextSpec.denotes L column b y -> o <> OIsNull -> o <> OIsNotNull ->
  exists e, says LLogical (ta ++ Tokens (oper_name o) ++ tb) e /\ TextSpec.denotes L column e (EOperator o x y).
Proof. intros L column ta tb a b x y o A B DA DB. exact (oper_reads L column ta tb a b x y A B DA DB o). Qed.
Theorem C129_null_tests : forall L column ta a x o, operand ta a -> TextSpec.denotes L column a x -> o = OIsNull \/ o = OIsNotNull ->
  exists e, says LLogical (ta ++ Tokens (oper_name o)) e /\ TextSpec.denotes L column e (EOperator o x ENil).
Proof. intros L column ta a x o A DA. exact (null_oper_reads L column ta a x A DA o). Qed.
Theorem C129_signs : forall L column ta a x u, operand ta a -> TextSpec.denotes L column a x ->
  exists e, says LUnary (Tokens (unary_name u) ++ ta) e /\ TextSpec.denotes L column e (EUnary u x).
Proof. intros L column ta a x u A DA. exact (unary_reads L column ta a x A DA u). Qed.
Theorem C129_functions : forall f, spelled (TFunc f) (func_name f) /\ Tokens (func_name f) = [TFunc f].
Proof.
  intros f. split; [|apply func_tokens]. constructor. unfold any_case. destruct f; cbv; repeat (constructor; [first [left; reflexivity|right; reflexivity]|]); constructor.
Qed.
(** So different functions, operators and types of values and columns show
    differently. *)
Theorem C129_names : (forall f g, func_name f = func_name g -> f = g) /\ (forall o p, oper_name o = oper_name p -> o = p) /\
  (forall u v, unary_name u = unary_name v -> u = v) /\ (forall t u, vtype_name t = vtype_name u -> t = u) /\ (forall t u, dtype_name t = dtype_name u -> t = u).
Proof.
  repeat split.
  - intros f g H. pose proof (func_tokens f) as F. rewrite H, func_tokens in F. congruence.
  - intros o p H. pose proof (oper_tokens o) as F. rewrite H, oper_tokens in F. destruct o, p; congruence.
  - intros [] [] H; try reflexivity; discriminate H.
  - intros [] [] H; try reflexivity; discriminate H.
  - intros [] [] H; try reflexivity; discriminate H.
Qed.
Print Assumptions C129_column.
Print Assumptions C129_column_determined.
Print Assumptions C129_row.
Print Assumptions C129_row_determined_partial.
Print Assumptions C129_row_determined_refuted.
Print Assumptions C129_null_refuted.
Print Assumptions C129_table.
Print Assumptions C129_data_set.
Print Assumptions C129_data_set_repeated_refuted.
Print Assumptions C129_commands.
Print Assumptions C129_responses.
Print Assumptions C129_kinds.
Print Assumptions C129_response_names.
Print Assumptions C129_kind_names.
Print Assumptions C129_command_names_partial.
Print Assumptions C129_command_names_refuted.
Print Assumptions C129_other_codes.
Print Assumptions C129_operators.
Print Assumptions C129_null_tests.
Print Assumptions C129_signs.
Print Assumptions C129_functions.
Print Assumptions C129_names.

(** A row with a string, a number and a missing number; its table; and a text whose
    operator reads back. *)
Definition shown_table : dtable :=
  Table (lit "Readings") [] [DCol (lit "Name") DString None 0; DCol (lit "Count") DInt32 None 1; DCol (lit "More") DInt64 None 2; DCol (lit "Sum") DInt32 (Some (Ok ENil)) 3]
    (repeat None 1234).
Definition plain_table : dtable := Table (lit "Plain") [] (firstn 3 (dt_columns shown_table)) [].
Example C129_example : forall depth (D : dlib),
  RowString (S depth) D plain_table [Some (SCell (CStr (lit "a, b"))); Some (SCell (CInt32 (-42))); None] = Ok (lit "[""a, b"", -42, <NULL>]") /\
  TableString shown_table = Ok (lit "Readings [Name (String), Count (Int32), More (Int64), Sum (Computed Int32)] x 1,234 rows") /\
  DataSetString (lit "Set") [(lit "PLAIN", plain_table); (lit "READINGS", shown_table)] = lit "Set [Plain, Readings]" /\
  ServerCommandString 2 = lit "Subscribe" /\ ServerResponseString 144 = lit "0x90" /\ SignalKindString 65535 = lit "0xffff".
Proof. intros. repeat split; vm_compute; reflexivity. Qed.
Example C129_operand : operand [TIdent (lit "A")] (PColumn (lit "A")) /\ operand [TInt (lit "1")] (PLiteral (TInt (lit "1"))) /\
  Tokens (lit "A " ++ oper_name ONotLikeExactMatch ++ lit " 1") = [TIdent (lit "A")] ++ Tokens (oper_name ONotLikeExactMatch) ++ [TInt (lit "1")].
Proof.
  assert (N : forall t u, In t not_tokens -> t <> u -> hd_error [u] <> Some t) by (intros t u _ H K; injection K as K; congruence).
  repeat split; try (constructor; constructor); try (intros t [<-|[<-|[]]]; discriminate).
Qed.
