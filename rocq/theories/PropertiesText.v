(** Filter expressions as text (C96-C101).  [D] stands for the behaviour of other
    packages; [depth] for the number of computed columns that may be evaluated inside
    each other.  A result [None] stands for a text outside the grammar. *)
From Coq Require Import Lia ZifyBool ZifyNat QArith String.
From Verif Require Import Base GuidModel FormatModel FormatSpec FormatProofs StrModel StrProofs CalModel NumModel ExprModel ExprSpec ExprProofs2 ExprProofs6 TableModel XmlModel XmlSpec XmlProofs6
  PropertiesExpr PropertiesTable ParseModel ParseSpec ParseProofs ParseProofs2 ParseProofs3 ParseProofs4 LexModel LexSpec LexProofs LexProofs2 LexProofs3 LexProofs4 TextModel TextSpec TextProofs TextProofs2 TextProofs3 TextProofs4.
Close Scope Q_scope.
Open Scope list_scope.
Open Scope Z_scope.

(** ** C96: a text has one reading *)

(** The tokens are those of the longest matches, the first rule winning among equals;
    comments go up to their first end. *)
Theorem C96_tokens : forall s ts, tokens s = ts <-> lexes s ts.
Proof. exact tokens_iff. Qed.
Theorem C96_one_token_list : forall s ts us, lexes s ts -> lexes s us -> ts = us.
Proof. intros s ts us H1 H2. apply tokens_iff in H1. apply tokens_iff in H2. congruence. Qed.
(** Accepted are the texts of the grammar, with the trees of the grammar ... *)
Theorem C96_parse : forall ts l, Parse ts = Some l <-> text_says ts l.
Proof. exact parse_iff. Qed.
(** ... which are unique. *)
Theorem C96_one_reading : forall ts e1 e2, says LLogical ts e1 -> says LLogical ts e2 -> e1 = e2.
Proof. exact says_unique. Qed.
(** Every tree can be written, with parentheses, and is then read back. *)
Theorem C96_every_tree : forall e, tree e -> (forall g, e <> PLiteral (TGuid g)) -> Parse (render e) = Some [QExpression e].
Proof. exact render_parse. Qed.

Definition tree_example : ptree :=
  PLogical (TKey KAnd) (PNot (PIn true false (PColumn (lit "A")) [PLiteral (TInt (lit "1")); PMath (TSym Star) (PUnary (TSym Minus) (PLiteral (TInt (lit "2")))) (PCall FLen [PColumn (lit "B")])]))
    (PLike false true (PColumn (lit "B")) (PLiteral (TStr (lit "'x%'")))).
Lemma tree_example_ok : tree tree_example.
Proof.
  unfold tree_example. repeat first [constructor | discriminate | (cbn; tauto)].
Qed.
Example C96_nonvacuous : tree tree_example /\ Parse (render tree_example) = Some [QExpression tree_example] /\
  Parse (Tokens (lit "NOT A NOT IN (1, -2*Len(B)) AND B LIKE BINARY 'x%'")) = Some [QExpression tree_example] /\
  Parse (Tokens (lit "NOT A IN 1")) = None /\ Parse (Tokens (lit "1 2")) = None.
Proof. split; [exact tree_example_ok|]. repeat split; vm_compute; reflexivity. Qed.

(** ** C97: how operators group *)

(** Four groups of binary operators, from the tightest: arithmetic, bitwise,
    comparison, logical.  Of two operators in a row the left one binds first unless
    the right one is of a tighter group. *)
Theorem C97_two_operators_partial : forall a A o1 k1 m1 b B o2 k2 m2 c C,
  operand a A -> operand b B -> operand c C -> group o1 k1 m1 -> group o2 k2 m2 ->
  Parse (a ++ o1 :: b ++ o2 :: c) = Some [QExpression (if (k1 <=? k2)%nat then m2 (m1 A B) C else m1 A (m2 B C))].
Proof.
  intros a A o1 k1 m1 b B o2 k2 m2 c C HA HB HC G1 G2. apply parse_expression; [apply two_operators; assumption|]. intros g. apply two_not_guid.
Qed.
(** For operators of different groups this is what the comment in the grammar says ... *)
Theorem C97_documented_partial : forall a A o1 k1 m1 n1 b B o2 k2 m2 n2 c C,
  operand a A -> operand b B -> operand c C -> group o1 k1 m1 -> group o2 k2 m2 -> documented o1 n1 -> documented o2 n2 -> k1 <> k2 ->
  Parse (a ++ o1 :: b ++ o2 :: c) = Some [QExpression (if (n1 <=? n2)%nat then m2 (m1 A B) C else m1 A (m2 B C))].
Proof.
  intros a A o1 k1 m1 n1 b B o2 k2 m2 n2 c C HA HB HC G1 G2 D1 D2 N. rewrite (documented_groups o1 k1 m1 n1 o2 k2 m2 n2 G1 G2 D1 D2 N).
  apply C97_two_operators_partial; assumption.
Qed.
(** ... but not within a group. *)
Theorem C97_documented_refuted : ~ (forall a A o1 k1 m1 n1 b B o2 k2 m2 n2 c C,
  operand a A -> operand b B -> operand c C -> group o1 k1 m1 -> group o2 k2 m2 -> documented o1 n1 -> documented o2 n2 ->
  Parse (a ++ o1 :: b ++ o2 :: c) = Some [QExpression (if (n1 <=? n2)%nat then m2 (m1 A B) C else m1 A (m2 B C))]).
Proof.
  intros H. assert (O : forall n, operand [TInt [n]] (PLiteral (TInt [n]))).
  { intros n. split; [apply says_literal; constructor|]. intros t I E. cbn in E. inversion E; subst. cbn in I. intuition congruence. }
  specialize (H [TInt [49]] _ (TSym Plus) 1%nat _ 2%nat [TInt [50]] _ (TSym Star) 1%nat _ 1%nat [TInt [51]] _ (O 49) (O 50) (O 51)
    (g_math (TSym Plus) ltac:(cbn; auto)) (g_math (TSym Star) ltac:(cbn; auto)) (doc_add (TSym Plus) ltac:(cbn; auto)) (doc_multiply (TSym Star) ltac:(cbn; auto))).
  vm_compute in H. discriminate H.
Qed.
(** 1+2*3 is 9; TRUE OR TRUE AND FALSE is FALSE; 1=2<3 compares (1=2) with 3. *)
Theorem C97_values_refuted : forall D,
  EvaluateExpression D (lit "1+2*3") = Some (Ok (vInt32 9)) /\
  EvaluateExpression D (lit "1=1 OR 1=1 AND 1=2") = Some (Ok (vBool false)) /\
  Parse (Tokens (lit "1=2<3")) = Some [QExpression (PCompare (TSym Less) (PCompare (TSym Eq1) (PLiteral (TInt [49])) (PLiteral (TInt [50]))) (PLiteral (TInt [51])))].
Proof. intros D. repeat split; vm_compute; reflexivity. Qed.
(** IS NULL and IN bind tighter than comparisons, against the comment. *)
Theorem C97_is_null_refuted : forall a A b B o, operand a A -> operand b B -> In o comparison_tokens ->
  Parse (a ++ o :: b ++ [TKey KIs; TKey KNull]) = Some [QExpression (PCompare o A (PIsNull false B))].
Proof.
  intros a A b B o (SA & PA) (SB & PB) I. apply parse_expression; [|apply two_not_guid].
  apply says_logical_up, like_not; [|apply plain_app; [eapply says_some, SA|exact PA]]. apply says_like_up, says_comparison; [apply says_comparison_up, math_value, says_math_up, SA|exact I|].
  exact (says_is_null b B false [] (math_value _ _ (says_math_up _ _ SB)) (maybe_no _)).
Qed.
(** NOT before an operator takes the whole comparison, and one side of AND and OR. *)
Theorem C97_not : forall a A o k m b B t, operand a A -> operand b B -> group o k m -> In t not_tokens ->
  Parse (t :: a ++ o :: b) = Some [QExpression (if (k =? 4)%nat then m (PNot A) B else PNot (m A B))].
Proof.
  intros a A o k m b B t HA HB G I. apply parse_expression; [apply not_groups; assumption|].
  intros g E. apply (f_equal (@length token)) in E. cbn [length] in E. rewrite app_length in E. cbn [length] in E. lia.
Qed.
Example C97_nonvacuous :
  operand (Tokens (lit "Len(A)")) (PCall FLen [PColumn (lit "A")]) /\ operand (Tokens (lit "-B")) (PUnary (TSym Minus) (PColumn (lit "B"))) /\
  group (TSym Amp) 2 (PBitwise (TSym Amp)) /\ group (TSym GreaterEq) 3 (PCompare (TSym GreaterEq)) /\
  Parse (Tokens (lit "Len(A) >= -B & 3")) =
    Some [QExpression (PCompare (TSym GreaterEq) (PCall FLen [PColumn (lit "A")]) (PBitwise (TSym Amp) (PUnary (TSym Minus) (PColumn (lit "B"))) (PLiteral (TInt [51]))))] /\
  Parse (Tokens (lit "NOT A = B")) = Some [QExpression (PNot (PCompare (TSym Eq1) (PColumn (lit "A")) (PColumn (lit "B"))))] /\
  Parse (Tokens (lit "!A && B")) = Some [QExpression (PLogical (TSym And2) (PNot (PColumn (lit "A"))) (PColumn (lit "B")))].
Proof.
  assert (C : says LLogical [TIdent (lit "A")] (PColumn (lit "A"))).
  { apply unary_logical; [constructor|]. intros t I E. cbn in E. inversion E; subst. cbn in I. intuition congruence. }
  split; [|split; [|split; [|split]]].
  - split; [exact (says_call FLen [TIdent (lit "A")] [PColumn (lit "A")] (says_one _ _ C))|]. intros t I E. vm_compute in E. inversion E; subst. cbn in I. intuition congruence.
  - split; [exact (says_unary (TSym Minus) [TIdent (lit "B")] _ ltac:(cbn; auto) (says_column _))|]. intros t I E. vm_compute in E. inversion E; subst. cbn in I. intuition congruence.
  - constructor. cbn. auto.
  - constructor. cbn. auto.
  - repeat split; vm_compute; reflexivity.
Qed.

(** ** C98: literals *)

(** A literal on its own has the value it denotes. *)
Theorem C98_literal : forall (D : dlib) t v s, ascii_tables D -> written [t] s -> literal_denotes D t v -> t <> TKey KNull -> EvaluateExpression D s = Some (Ok v).
Proof.
  intros D t v s T W H N. assert (S : says LLogical [t] (PLiteral t)).
  { apply unary_logical; [apply says_literal; destruct H; constructor|]. intros u I E. cbn in E. inversion E; subst. cbn in I. destruct H; intuition congruence. }
  rewrite (evaluate_one D [t] s _ (EValue v) T (written_tokens _ _ W) S (d_literal D _ _ _ H)). unfold Evaluate. cbn [evaluateAs].
  destruct H; try reflexivity; try congruence; unfold integer; destruct (_ <? _); reflexivity.
Qed.
(** Integers without leading zero, at the level of the text: Int32 or Int64 *)
Theorem C98_integer : forall (D : dlib) n, ascii_tables D -> 0 <= n < 2 ^ 63 -> EvaluateExpression D (FormatInt n) = Some (Ok (integer n)).
Proof.
  intros D n T R. destruct (written_int n R) as (W & _ & _). eapply C98_literal; [exact T|exact W| |discriminate]. apply ld_decimal; [|lia].
  unfold FormatInt. replace (n <? 0) with false by lia. apply FormatUint_decimal. unfold is_u64. lia.
Qed.
(** Text in single quotes without a quote inside, in any language, unless it has the
    form of a GUID *)
Theorem C98_string : forall (D : dlib) rs, ascii_tables D -> Forall (fun r => valid_rune r = true) rs -> ~ In 39 rs -> ~ guid_shape rs ->
  EvaluateExpression D (39 :: encode_runes rs ++ [39]) = Some (Ok (vStr (encode_runes rs))).
Proof.
  intros D rs T V Q G. assert (E : encode_runes (39 :: rs ++ [39]) = 39 :: encode_runes rs ++ [39]) by (change (39 :: rs ++ [39]) with ([39] ++ rs ++ [39]); rewrite !encode_app; reflexivity).
  apply (C98_literal D (TStr (39 :: encode_runes rs ++ [39])) _ _ T); [| |discriminate].
  - exists (39 :: rs ++ [39]). split; [symmetry; exact E|]. split; [constructor; [reflexivity|]; apply Forall_app; split; [exact V|repeat constructor]|].
    rewrite <- E. rewrite <- (app_nil_r (39 :: rs ++ [39])) at 2. apply layout_token; [|right; left; reflexivity|constructor]. apply sp_string; [|exact G].
    clear -Q. induction rs as [|c rs IH]; [constructor|]. constructor; [intros ->; apply Q; left; reflexivity|]. apply IH. intros H. apply Q. right. exact H.
  - apply ld_string. clear -Q. intros H. unfold encode_runes in H. apply in_flat_map in H as (r & I & H).
    assert (K : r = 39); [|subst; contradiction]. unfold encode_rune in H.
    destruct (valid_rune r) eqn:V; cbn [negb] in H; [|cbn in H; lia]. unfold valid_rune in V.
    assert (M : forall d, 0 <= d mod 64 < 64) by (intros; apply Z.mod_pos_bound; lia).
    pose proof (M r). pose proof (M (r / 64)). pose proof (M (r / 4096)).
    assert (0 <= r / 64) by (apply Z.div_pos; lia). assert (0 <= r / 4096) by (apply Z.div_pos; lia). assert (0 <= r / 262144) by (apply Z.div_pos; lia).
    destruct (r <? 128); [cbn [In] in H; intuition lia|]. destruct (r <? 2048); [cbn [In] in H; intuition lia|]. destruct (r <? 65536); cbn [In] in H; intuition lia.
Qed.
(** A quote written twice stays two quotes; a leading zero makes octal; the brackets
    around a column name stay part of the name. *)
Theorem C98_quote_refuted : forall D, EvaluateExpression D (lit "'it''s'") = Some (Ok (vStr (lit "it''s"))).
Proof. intros D. vm_compute. reflexivity. Qed.
Theorem C98_octal_refuted : forall D, EvaluateExpression D (lit "010") = Some (Ok (vInt32 8)).
Proof. intros D. vm_compute. reflexivity. Qed.
Theorem C98_bracket_refuted : forall r,
  SelectDataRowsText 3 example_dlib example_set (lit "FILTER Points WHERE Size = 20") [] None = Some r ->
  r <> Err /\ SelectDataRowsText 3 example_dlib example_set (lit "FILTER Points WHERE [Size] = 20") [] None = Some Err.
Proof. intros r H. vm_compute in H. injection H as <-. split; [discriminate|vm_compute; reflexivity]. Qed.
(** A hexadecimal number of 64 bits is a text; a GUID without dashes is a name or a number. *)
Theorem C98_hexadecimal_refuted : forall (D : dlib),
  EvaluateExpression D (lit "0xFFFFFFFFFFFFFFFF") = Some (Ok (vStr (lit "0xFFFFFFFFFFFFFFFF"))).
Proof.
  intros D. set (s := lit "0xFFFFFFFFFFFFFFFF") in *.
  assert (H1 : parse_decimal s = None) by (vm_compute; reflexivity). assert (H2 : parse_float s = None) by (vm_compute; reflexivity). assert (P : parse_text D (Parser None [] [] false false) s = Some (Ok [SExpression (EValue (vStr s))])).
  { unfold parse_text. replace (statements_of s) with (Some (Ok [QExpression (PLiteral (TInt s))])) by (vm_compute; reflexivity).
    cbn [bind listen listen_statement build literal_value]. unfold parseNumericLiteral. rewrite H1, H2.
    replace (parse_int64 s) with (@None Z) by (vm_compute; reflexivity). replace (parse_uint64 s) with (Some (2 ^ 64 - 1)) by (vm_compute; reflexivity). reflexivity. }
  unfold EvaluateExpression, ExpressionTrees. rewrite P. reflexivity.
Qed.
Lemma hexes_ok n x : length x = n -> forallb (fun c => (48 <=? c) && (c <=? 57) || (65 <=? c) && (c <=? 70) || (97 <=? c) && (c <=? 102)) x = true -> hexes n x.
Proof. intros E H. split; [exact E|]. apply Forall_forall. intros c I. rewrite forallb_forall in H. specialize (H c I). unfold hex, digit. lia. Qed.
Theorem C98_plain_guid_refuted :
  guid_shape (lit "aaaaaaaabbbbccccddddeeeeeeeeeeee") /\ Tokens (lit "aaaaaaaabbbbccccddddeeeeeeeeeeee") = [TIdent (lit "aaaaaaaabbbbccccddddeeeeeeeeeeee")] /\
  guid_shape (lit "11111111222233334444555555555555") /\ Tokens (lit "11111111222233334444555555555555") = [TInt (lit "11111111222233334444555555555555")].
Proof.
  split; [|split; [vm_compute; reflexivity|split; [|vm_compute; reflexivity]]].
  - exists (lit "aaaaaaaa"), [], (lit "bbbb"), [], (lit "cccc"), [], (lit "dddd"), [], (lit "eeeeeeeeeeee"). split; [vm_compute; reflexivity|].
    do 5 (split; [apply hexes_ok; vm_compute; reflexivity|]). unfold dash. auto.
  - exists (lit "11111111"), [], (lit "2222"), [], (lit "3333"), [], (lit "4444"), [], (lit "555555555555"). split; [vm_compute; reflexivity|].
    do 5 (split; [apply hexes_ok; vm_compute; reflexivity|]). unfold dash. auto.
Qed.
(** TOP with a hexadecimal number limits nothing. *)
Theorem C98_top_refuted :
  option_map ids (SelectDataRowsText 3 example_dlib example_set (lit "FILTER TOP 1 Points WHERE True") [] None) = Some (Ok [1]) /\
  option_map ids (SelectDataRowsText 3 example_dlib example_set (lit "FILTER TOP 0x1 Points WHERE True") [] None) = Some (Ok [1; 2; 3; 4]).
Proof. split; vm_compute; reflexivity. Qed.
Example C98_nonvacuous :
  written [TInt (lit "0x1F")] (lit "0x1F") /\ literal_denotes example_lib (TInt (lit "0x1F")) (vInt32 31) /\
  EvaluateExpression example_dlib (lit "2147483648") = Some (Ok (vInt64 2147483648)) /\ EvaluateExpression example_dlib (lit "tRuE") = Some (Ok (vBool true)) /\
  EvaluateExpression example_dlib (lit "NULL") = Some (Ok (vNull VBoolean)).
Proof.
  split; [|split; [|repeat split; vm_compute; reflexivity]].
  - apply written_one; [|repeat constructor; lia]. apply (sp_hexadecimal 120 (lit "1F")); [auto|discriminate|]. exact (proj2 (hexes_ok 2 (lit "1F") eq_refl eq_refl)).
  - change (vInt32 31) with (integer (hexadecimal (lit "1F"))). apply (ld_hexadecimal example_lib 120 (lit "1F")); [auto|discriminate| |vm_compute; reflexivity].
    exact (proj2 (hexes_ok 2 (lit "1F") eq_refl eq_refl)).
Qed.

(** ** C99: spaces, comments and letter case *)

(** Two texts with the same tokens - words in any letter case, any spaces and comments
    between - have the same effect everywhere. *)
Theorem C99_layout : forall (D : dlib) depth ds t r primary fields s1 s2 ts, written ts s1 -> written ts s2 -> ts <> [] ->
  Tokens s1 = Tokens s2 /\ EvaluateExpression D s1 = EvaluateExpression D s2 /\
  GenerateExpressionTrees depth D ds primary s1 = GenerateExpressionTrees depth D ds primary s2 /\
  EvaluateDataRowExpression depth D ds t r s1 = EvaluateDataRowExpression depth D ds t r s2 /\
  SelectDataRowsText depth D ds s1 primary fields = SelectDataRowsText depth D ds s2 primary fields /\
  SelectDataRowSetText depth D ds s1 primary fields = SelectDataRowSetText depth D ds s2 primary fields /\
  SelectSignalIDSetText depth D ds s1 primary fields = SelectSignalIDSetText depth D ds s2 primary fields.
Proof. intros D depth ds t r primary fields. exact (same_layout D depth ds t r primary fields). Qed.
(** The tokens of a layout are those it was made of. *)
Theorem C99_layout_tokens : forall ts s, written ts s -> Tokens s = ts.
Proof. exact written_tokens. Qed.
(** A comment without a space after the dashes may be taken for a measurement key, and
    a minus before a negative number for a comment. *)
Theorem C99_comment_refuted :
  Tokens (lit "--PPA:12") = [TMeasurement (lit "--PPA:12")] /\ Tokens (lit "5 --3") = [TInt (lit "5")] /\ Tokens (lit "5 - -3") = [TInt (lit "5"); TSym Minus; TSym Minus; TInt (lit "3")].
Proof. repeat split; vm_compute; reflexivity. Qed.
Lemma layout_example_1 : written [TKey KNot; TFunc FIsNull; TSym LeftParen; TIdent (lit "A"); TSym Comma; TInt (lit "1"); TSym RightParen] (lit "not isnull(A,1)").
Proof.
  exists (lit "not isnull(A,1)"). split; [vm_compute; reflexivity|]. split; [repeat constructor|].
  apply (layout_token (TKey KNot) (lit "not")); [constructor; unfold any_case; repeat constructor; cbn; lia|right; right; exists 32, (lit "isnull(A,1)"); cbn; tauto|].
  apply (layout_gap (lit " ")); [constructor; cbn; auto|].
  apply (layout_token (TFunc FIsNull) (lit "isnull")); [constructor; unfold any_case; repeat constructor; cbn; lia|right; right; exists 40, (lit "A,1)"); cbn; tauto|].
  apply (layout_token (TSym LeftParen) (lit "(")); [apply (sp_symbol LeftParen)|left; cbn; auto|].
  apply (layout_token (TIdent (lit "A")) (lit "A")); [|right; right; exists 44, (lit "1)"); cbn; tauto|].
  { apply (sp_name 65 []); [cbn; unfold name_start, latin; lia|constructor|].
    intros [(k & H)|[(f & H)|[H|H]]]; unfold any_case in H; [destruct k|destruct f| |]; vm_compute in H; repeat match goal with H : Forall2 _ _ _ |- _ => inversion H; clear H; subst; try lia end. }
  apply (layout_token (TSym Comma) (lit ",")); [apply (sp_symbol Comma)|left; cbn; auto|].
  apply (layout_token (TInt (lit "1")) (lit "1")); [|right; right; exists 41, []; cbn; tauto|].
  { apply (sp_integer [49]). split; [discriminate|]. constructor; [unfold digit; lia|constructor]. }
  apply (layout_token (TSym RightParen) (lit ")")); [apply (sp_symbol RightParen)|left; cbn; auto|constructor].
Qed.
Example C99_nonvacuous :
  written [TKey KNot; TFunc FIsNull; TSym LeftParen; TIdent (lit "A"); TSym Comma; TInt (lit "1"); TSym RightParen] (lit "not isnull(A,1)") /\
  Tokens (lit "  NOT /* here */IsNull ( A , 1 ) -- there") = Tokens (lit "not isnull(A,1)").
Proof. split; [exact layout_example_1|vm_compute; reflexivity]. Qed.

(** ** C100: texts and their results *)

(** Without data set: the value of the first expression *)
Theorem C100_evaluate : forall (D : dlib) ts s e x, ascii_tables D -> written ts s -> says LLogical ts e -> denotes D no_column e x ->
  EvaluateExpression D s = Some (Evaluate D None x).
Proof. intros D ts s e x T W. exact (evaluate_one D ts s e x T (written_tokens ts s W)). Qed.
Theorem C100_evaluate_statements : forall (D : dlib) ts s l stmts xs, ascii_tables D -> written ts s -> text_says ts l ->
  Forall2 (statement_denotes D (fun _ => no_column)) l stmts -> expressions stmts xs ->
  EvaluateExpression D s = Some (match xs with x :: _ => Evaluate D None x | [] => Err end).
Proof. intros D ts s l stmts xs T W. exact (evaluate_text D ts s l stmts xs T (written_tokens ts s W)). Qed.
(** With a data set: what C60 to C66 say about the statements *)
Theorem C100_select : forall depth (D : dlib) ds ts s l stmts primary fields, ascii_tables D -> written ts s -> text_says ts l ->
  Forall2 (statement_denotes D (column_of D ds primary)) l stmts ->
  SelectDataRowsText depth D ds s primary fields = Some (SelectDataRows depth D ds stmts primary fields) /\
  SelectDataRowSetText depth D ds s primary fields = Some (SelectDataRowSet depth D ds stmts primary fields) /\
  SelectSignalIDSetText depth D ds s primary fields = Some (SelectSignalIDSet depth D ds stmts primary fields).
Proof. intros depth D ds ts s l stmts primary fields T W. exact (select_rows_text depth D ds ts s l stmts primary fields T (written_tokens ts s W)). Qed.
(** The expression trees, one for each statement *)
Theorem C100_trees : forall depth (D : dlib) ds ts s l stmts trees primary, ascii_tables D -> written ts s -> text_says ts l ->
  Forall2 (statement_denotes D (column_of D ds primary)) l stmts -> Forall2 (tree_means D ds) stmts trees ->
  GenerateExpressionTrees depth D ds primary s = Some (Ok trees).
Proof. intros depth D ds ts s l stmts trees primary T W. exact (trees_text depth D ds ts s l stmts trees primary T (written_tokens ts s W)). Qed.
(** The value on a row is that of the first statement. *)
Theorem C100_row : forall depth (D : dlib) ds ts s l stmts tr trees t r, ascii_tables D -> written ts s -> text_says ts l ->
  Forall2 (statement_denotes D (column_of D ds (dt_name t))) l stmts -> Forall2 (tree_means D ds) stmts (tr :: trees) ->
  EvaluateDataRowExpression depth D ds t r s = Some (Evaluate D (Some (TypedValue depth D t (row_values r))) (et_root tr)).
Proof. intros depth D ds ts s l stmts tr trees t r T W. exact (row_text depth D ds ts s l stmts tr trees t r T (written_tokens ts s W)). Qed.
(** A column that is not there, anywhere in any statement, is an error; without data
    set every column is; so is a text that begins with an unexpected character. *)
Theorem C100_unknown_column : forall depth (D : dlib) ds primary fields ts s l q table n, written ts s -> text_says ts l -> In q l -> looks_up q table n ->
  (forall x, ~ column_of D ds primary table n x) ->
  SelectDataRowsText depth D ds s primary fields = Some Err /\ SelectDataRowSetText depth D ds s primary fields = Some Err /\
  SelectSignalIDSetText depth D ds s primary fields = Some Err /\ GenerateExpressionTrees depth D ds primary s = Some Err.
Proof. exact unknown_column. Qed.
Theorem C100_column_without_set : forall (D : dlib) ts s l q table n, written ts s -> text_says ts l -> In q l -> looks_up q table n -> EvaluateExpression D s = Some Err.
Proof. exact column_without_set. Qed.
Theorem C100_unexpected : forall (D : dlib) depth ds primary fields s c ts, Tokens s = TUnexpected c :: ts ->
  EvaluateExpression D s = Some Err /\ GenerateExpressionTrees depth D ds primary s = Some Err /\ SelectDataRowsText depth D ds s primary fields = Some Err /\
  SelectSignalIDSetText depth D ds s primary fields = Some Err.
Proof. exact unexpected_first. Qed.
Definition text_example : string := "FILTER TOP 3 points WHERE Size < 25 ORDER BY PointTag DESC; PointTag = 'x' ; Size IS NULL".
Example C100_nonvacuous :
  option_map ids (SelectDataRowsText 3 example_dlib example_set (lit text_example) (lit "Points") None) = Some (Ok [3; 4; 2]) /\
  EvaluateExpression example_dlib (lit "Len('abc') + 1; 7") = Some (Ok (vInt32 4)) /\
  EvaluateExpression example_dlib (lit "Size + 1") = Some Err /\
  SelectDataRowsText 3 example_dlib example_set (lit "Nothing = 1") (lit "Points") None = Some Err /\
  EvaluateExpression example_dlib (lit "?") = Some Err /\
  column_of example_dlib example_set (lit "Points") [] (lit "SIZE") size_column.
Proof.
  split; [vm_compute; reflexivity|]. split; [vm_compute; reflexivity|]. split; [vm_compute; reflexivity|]. split; [vm_compute; reflexivity|]. split; [vm_compute; reflexivity|].
  exists example_table. eexists. split; [vm_compute; reflexivity|]. split; [vm_compute; reflexivity|]. split; [reflexivity|discriminate].
Qed.
Example C100_parts : exists ts l stmts, Tokens (lit text_example) = ts /\ text_says ts l /\ length l = 3%nat /\
  listen example_dlib (new_parser example_set (lit "Points") None true false) l = Ok stmts /\ length stmts = 3%nat.
Proof.
  eexists. eexists. eexists. split; [vm_compute; reflexivity|]. split; [apply parse_iff; vm_compute; reflexivity|]. split; [reflexivity|]. split; vm_compute; reflexivity.
Qed.

Lemma size_written : written [TIdent (lit "Size"); TSym Greater; TInt (lit "7")] (lit "Size > 7").
Proof.
  exists (lit "Size > 7"). split; [vm_compute; reflexivity|]. split; [repeat constructor|].
  apply (layout_token (TIdent (lit "Size")) (lit "Size")); [|right; right; exists 32, (lit "> 7"); cbn; tauto|].
  { apply (sp_name 83 [105; 122; 101]); [unfold name_start, latin; lia|unfold name_char, name_start, latin, digit; repeat (constructor; [lia|]); constructor|].
    intros [(k & H)|[(f & H)|[H|H]]]; unfold any_case in H; [destruct k|destruct f| |]; vm_compute in H; repeat match goal with H : Forall2 _ _ _ |- _ => inversion H; clear H; subst; try lia end. }
  apply (layout_gap (lit " ")); [constructor; cbn; auto|].
  apply (layout_token (TSym Greater) (lit ">")); [apply (sp_symbol Greater)|right; right; exists 32, (lit "7"); cbn; tauto|].
  apply (layout_gap (lit " ")); [constructor; cbn; auto|].
  apply (layout_token (TInt (lit "7")) (lit "7")); [|right; left; reflexivity|constructor].
  apply (sp_integer [55]). split; [discriminate|]. constructor; [unfold digit; lia|constructor].
Qed.
Example C100_hypotheses : exists e, says LLogical [TIdent (lit "Size"); TSym Greater; TInt (lit "7")] e /\
  statement_denotes example_dlib (column_of example_dlib example_set (lit "Points")) (QExpression e) (SExpression (EOperator OGreaterThan size_column (EValue (vInt32 7)))).
Proof.
  exists (PCompare (TSym Greater) (PColumn (lit "Size")) (PLiteral (TInt (lit "7")))). split.
  - apply says_logical_up, like_not; [|intros t I E; cbn in E; inversion E; subst; cbn in I; intuition congruence].
    apply says_like_up, (says_comparison [TIdent (lit "Size")] (TSym Greater) [TInt (lit "7")]); [apply says_comparison_up, math_value, says_math_up, says_column|cbn; tauto|].
    apply math_value, says_math_up, says_literal; constructor.
  - apply sd_expression. apply d_comparison; [cbn; tauto| |].
    + apply d_column. exists example_table. eexists. split; [vm_compute; reflexivity|]. split; [vm_compute; reflexivity|]. split; [reflexivity|discriminate].
    + apply d_literal. change (vInt32 7) with (integer 7). apply ld_decimal; [|lia]. apply (FormatUint_decimal 7). unfold is_u64. lia.
Qed.

(** ** C101: DataTable.Select *)

(** The statement composed from condition, order and limit selects what the condition
    and the order mean. *)
Theorem C101_select_partial : forall depth (D : dlib) ds t condition x order terms limit, ascii_tables D -> plain_name (dt_name t) -> DataSetTable D ds (dt_name t) = Some t ->
  selects_where D ds t condition x -> sorts_by D t order terms -> limit < 2 ^ 63 ->
  TableSelectText depth D ds t condition order limit = Some (TableSelect depth D t x terms limit).
Proof. exact table_select_text. Qed.
(** A condition that ends with a comment takes the order with it. *)
Theorem C101_comment_refuted : forall depth (D : dlib) ds t condition ts e x b order limit, ascii_tables D -> plain_name (dt_name t) -> DataSetTable D ds (dt_name t) = Some t ->
  written ts condition -> says LLogical ts e -> denotes D (column_of D ds (dt_name t) (dt_name t)) e x -> limit < 2 ^ 63 ->
  is_ascii b -> ~ In 10 b -> ~ In 13 b -> is_ascii order -> ~ In 10 order -> ~ In 13 order ->
  TableSelectText depth D ds t (condition ++ lit " -- " ++ b) order limit = Some (TableSelect depth D t x [] limit).
Proof. exact table_select_comment. Qed.
(** The statement for a table whose name is a word of the language, or has a space, is
    not one of the language. *)
Theorem C101_name_refuted : forall depth (D : dlib) ds indexes columns rows,
  TableSelectText depth D ds (Table (lit "Top") indexes columns rows) [] [] (-1) = None /\
  TableSelectText depth D ds (Table (lit "Phase Angles") indexes columns rows) [] [] (-1) = None.
Proof. intros. split; vm_compute; reflexivity. Qed.
Lemma points_plain : plain_name (lit "Points").
Proof.
  exists 80, [111; 105; 110; 116; 115]. split; [reflexivity|]. split; [unfold name_start, latin; lia|]. split; [unfold name_char, name_start, latin, digit; repeat (constructor; [lia|]); constructor|].
  intros [(k & H)|[(f & H)|[H|H]]]; unfold any_case in H.
  - destruct k; vm_compute in H; repeat match goal with H : Forall2 _ _ _ |- _ => inversion H; clear H; subst; try lia end.
  - destruct f; vm_compute in H; repeat match goal with H : Forall2 _ _ _ |- _ => inversion H; clear H; subst; try lia end.
  - vm_compute in H; repeat match goal with H : Forall2 _ _ _ |- _ => inversion H; clear H; subst; try lia end.
  - vm_compute in H; repeat match goal with H : Forall2 _ _ _ |- _ => inversion H; clear H; subst; try lia end.
Qed.
Example C101_nonvacuous :
  plain_name (dt_name example_table) /\ DataSetTable example_dlib example_set (lit "Points") = Some example_table /\
  option_map ids (TableSelectText 3 example_dlib example_set example_table (lit "IsNull(Size, 0) > 5") (lit "Size DESC") 2) = Some (Ok [1; 3]) /\
  option_map ids (TableSelectText 3 example_dlib example_set example_table (lit "IsNull(Size, 0) > 5") (lit "Size") 0) = Some (Ok [3; 4; 1]) /\
  option_map ids (TableSelectText 3 example_dlib example_set example_table (lit "IsNull(Size, 0) > 5 -- all") (lit "Size") 0) = Some (Ok [1; 3; 4]) /\
  option_map ids (TableSelectText 3 example_dlib example_set example_table [] [] 0) = Some (Ok [1; 2; 3; 4]) /\
  selects_where example_dlib example_set example_table [] (EValue vTrue) /\ sorts_by example_dlib example_table [] [].
Proof.
  split; [exact points_plain|]. do 5 (split; [vm_compute; reflexivity|]). split; constructor.
Qed.

Print Assumptions C96_tokens.
Print Assumptions C96_one_token_list.
Print Assumptions C96_parse.
Print Assumptions C96_one_reading.
Print Assumptions C96_every_tree.
Print Assumptions C97_two_operators_partial.
Print Assumptions C97_documented_partial.
Print Assumptions C97_documented_refuted.
Print Assumptions C97_values_refuted.
Print Assumptions C97_is_null_refuted.
Print Assumptions C97_not.
Print Assumptions C98_literal.
Print Assumptions C98_integer.
Print Assumptions C98_string.
Print Assumptions C98_quote_refuted.
Print Assumptions C98_octal_refuted.
Print Assumptions C98_bracket_refuted.
Print Assumptions C98_hexadecimal_refuted.
Print Assumptions C98_plain_guid_refuted.
Print Assumptions C98_top_refuted.
Print Assumptions C99_layout.
Print Assumptions C99_layout_tokens.
Print Assumptions C99_comment_refuted.
Print Assumptions C100_evaluate.
Print Assumptions C100_evaluate_statements.
Print Assumptions C100_select.
Print Assumptions C100_trees.
Print Assumptions C100_row.
Print Assumptions C100_unknown_column.
Print Assumptions C100_column_without_set.
Print Assumptions C100_unexpected.
Print Assumptions C101_select_partial.
Print Assumptions C101_comment_refuted.
Print Assumptions C101_name_refuted.
