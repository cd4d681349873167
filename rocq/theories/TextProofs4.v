(** Columns that are not there; grouping with the documented order. *)
From Coq Require Import Lia ZifyBool ZifyNat String.
From Verif Require Import Base GuidModel FormatModel FormatSpec FormatProofs StrModel StrProofs CalModel NumModel ExprModel ExprSpec ExprProofs2 ExprProofs6 TableModel XmlModel XmlSpec XmlProofs6
  ParseModel ParseSpec ParseProofs ParseProofs2 ParseProofs3 ParseProofs4 LexModel LexSpec LexProofs LexProofs2 LexProofs3 LexProofs4 TextModel TextSpec TextProofs TextProofs2 TextProofs3.
Open Scope list_scope.
Open Scope Z_scope.

Definition fails {A} (r : res A) : Prop := match r with Ok _ => False | _ => True end.
Lemma bind_fails {A B} (r : res A) (k : A -> res B) : fails r -> fails (bind r k).
Proof. destruct r; [intros []|exact (fun H => H)|exact (fun H => H)]. Qed.
Lemma bind_later {A B} (r : res A) (k : A -> res B) : (forall a, fails (k a)) -> fails (bind r k).
Proof. destruct r; [intros H; apply H|intros; exact I|intros; exact I]. Qed.
Scheme mentions_mut := Induction for mentions Sort Prop with mentions_any_mut := Induction for mentions_any Sort Prop.
Lemma mentions_fails (L : lib) column n : fails (column n) -> forall e, mentions n e -> fails (build L column e).
Proof.
  intros C. refine (mentions_mut n (fun e _ => fails (build L column e)) (fun l _ => fails (build_all L column l)) _ _ _ _ _ _ _ _ _ _ _ _ _ _ _ _ _ _ _); intros; cbn [build build_all];
    rewrite ?build_calls; try assumption; try (apply bind_fails; assumption); try (apply bind_later; intros; apply bind_fails; assumption).
Qed.
Lemma listen_fails (L : lib) p l q : In q l -> fails (listen_statement L p q) -> fails (listen L p l).
Proof.
  induction l as [|a l IH]; [intros []|]. intros [->|I] F; cbn [listen]; [apply bind_fails, F|]. apply bind_later. intros x. apply bind_fails, IH; assumption.
Qed.
Lemma parse_fails (L : lib) p ts s l q : Tokens s = ts -> text_says ts l -> In q l -> fails (listen_statement L p q) -> parse_text L p s = Some Err.
Proof.
  intros W H I F. unfold parse_text. rewrite (written_statements ts s l W H). cbn [bind]. pose proof (listen_fails L p l q I F) as K. destruct (listen L p l); [destruct K|reflexivity|reflexivity].
Qed.
Lemma lookup_fails (L : lib) p q table n : looks_up q table n -> fails (find_column L p table n) -> fails (listen_statement L p q).
Proof.
  destruct q as [| | |top t e order|e]; cbn [looks_up listen_statement]; try tauto; intros (-> & M) F; apply bind_fails; eapply mentions_fails; eassumption.
Qed.
Lemma missing_column (L : lib) ds primary fields rows ids table n : (forall x, ~ column_of L ds primary table n x) -> fails (find_column L (new_parser ds primary fields rows ids) table n).
Proof.
  intros N. destruct (find_column L (new_parser ds primary fields rows ids) table n) as [x| |] eqn:E; [|exact I|exact I]. exfalso. apply (N x). revert E.
  unfold find_column, parser_table. cbn [p_primary p_dataset new_parser]. cbv zeta. intros E.
  exists (match DataSetTable L ds (match table with [] => primary | _ => table end) with Some t => t | None => Table [] [] [] [] end).
  destruct table as [|b table].
  - cbn [len length Z.of_nat Z.eqb] in E. destruct primary as [|b primary]; [discriminate|]. cbn [len length Z.of_nat Z.eqb] in E.
    destruct (DataSetTable L ds (b :: primary)) as [t|]; [|discriminate]. cbn [some_or_err] in E. destruct (ColumnByName L t n) as [c|]; [|discriminate]. exists c.
    inversion E. repeat split; congruence.
  - cbn [len length Z.of_nat Z.eqb] in E. destruct (DataSetTable L ds (b :: table)) as [t|]; [|discriminate]. cbn [some_or_err] in E. destruct (ColumnByName L t n) as [c|]; [|discriminate]. exists c.
    inversion E. repeat split; congruence.
Qed.
Lemma unknown_column depth (D : dlib) ds primary fields ts s l q table n : written ts s -> text_says ts l -> In q l -> looks_up q table n ->
  (forall x, ~ column_of D ds primary table n x) ->
  SelectDataRowsText depth D ds s primary fields = Some Err /\ SelectDataRowSetText depth D ds s primary fields = Some Err /\
  SelectSignalIDSetText depth D ds s primary fields = Some Err /\ GenerateExpressionTrees depth D ds primary s = Some Err.
Proof.
  intros W H I U N. apply written_tokens in W. pose proof (written_nonempty ts s l W H) as NE.
  assert (P : forall f rows ids, parse_text D (new_parser ds primary f rows ids) s = Some Err).
  { intros f rows ids. eapply parse_fails; [exact W|exact H|exact I|]. eapply lookup_fails; [exact U|]. apply missing_column, N. }
  unfold SelectDataRowsText, SelectDataRowSetText, SelectSignalIDSetText, select_text, GenerateExpressionTrees, ExpressionTrees. destruct s as [|b s]; [congruence|]. rewrite !P. auto.
Qed.
Lemma column_without_set (D : dlib) ts s l q table n : written ts s -> text_says ts l -> In q l -> looks_up q table n -> EvaluateExpression D s = Some Err.
Proof.
  intros W H I U. apply written_tokens in W. pose proof (written_nonempty ts s l W H) as NE.
  assert (P : parse_text D (Parser None [] [] false false) s = Some Err).
  { eapply parse_fails; [exact W|exact H|exact I|]. eapply lookup_fails; [exact U|]. unfold find_column. cbn [p_primary p_dataset parser_table]. cbv zeta. destruct table; exact Logic.I. }
  unfold EvaluateExpression, ExpressionTrees. destruct s as [|b s]; [congruence|]. rewrite P. reflexivity.
Qed.
Lemma unexpected_first (D : dlib) depth ds primary fields s c ts : Tokens s = TUnexpected c :: ts ->
  EvaluateExpression D s = Some Err /\ GenerateExpressionTrees depth D ds primary s = Some Err /\ SelectDataRowsText depth D ds s primary fields = Some Err /\
  SelectSignalIDSetText depth D ds s primary fields = Some Err.
Proof.
  intros T. unfold EvaluateExpression, GenerateExpressionTrees, ExpressionTrees, SelectDataRowsText, SelectSignalIDSetText, select_text, parse_text, statements_of. rewrite T. destruct s; auto.
Qed.

(** ** One expression *)

Lemma parse_expression ts e : says LLogical ts e -> (forall g, ts <> [TGuid g]) -> Parse ts = Some [QExpression e].
Proof. intros H N. apply parse_iff, one_statement, st_expression; assumption. Qed.
Lemma render_guid e g : render e = [TGuid g] -> e = PLiteral (TGuid g).
Proof. destruct e; cbn [render]; unfold parens; intros E; try discriminate. injection E as ->. reflexivity. Qed.
Lemma render_parse e : tree e -> (forall g, e <> PLiteral (TGuid g)) -> Parse (render e) = Some [QExpression e].
Proof.
  intros T N. destruct (tree_rendered e T) as (S & P). apply parse_expression; [apply unary_logical; assumption|].
  intros g E. apply (N g), render_guid, E.
Qed.
Lemma two_not_guid a o1 b o2 c g : a ++ o1 :: b ++ o2 :: c <> [TGuid g].
Proof. intros E. apply (f_equal (@length token)) in E. rewrite app_length in E. cbn [length] in E. rewrite app_length in E. cbn [length] in E. lia. Qed.
Lemma documented_groups o1 k1 m1 n1 o2 k2 m2 n2 : group o1 k1 m1 -> group o2 k2 m2 -> documented o1 n1 -> documented o2 n2 -> k1 <> k2 -> (n1 <=? n2)%nat = (k1 <=? k2)%nat.
Proof.
  intros G1 G2 D1 D2 N.
  assert (C : forall o k m n, group o k m -> documented o n -> k = 1%nat /\ (n = 1 \/ n = 2)%nat \/ k = 2%nat /\ n = 3%nat \/ k = 3%nat /\ (n = 4 \/ n = 5)%nat \/ k = 4%nat /\ (n = 7 \/ n = 8)%nat).
  { intros o k m n G D. destruct G as [o I|o I|o I|o I]; cbn in I; destruct D as [o J|o J|o J|o J|o J|o J|o J]; cbn in J; try (intuition congruence); intuition lia. }
  destruct (C _ _ _ _ G1 D1) as [|[|[|]]], (C _ _ _ _ G2 D2) as [|[|[|]]]; lia.
Qed.
Lemma not_groups a A o k m b B t : operand a A -> operand b B -> group o k m -> In t not_tokens ->
  says LLogical (t :: a ++ o :: b) (if (k =? 4)%nat then m (PNot A) B else PNot (m A B)).
Proof.
  intros (SA & PA) (SB & PB) G I. assert (NA : a <> []) by (eapply says_some, SA).
  assert (P : forall r, plain_start (a ++ r)) by (intros r; apply plain_app; assumption).
  assert (LA : says LNot a A) by (apply like_not; [apply up_like, SA|exact PA]).
  assert (LB : says LNot b B) by (apply like_not; [apply up_like, SB|exact PB]).
  destruct G as [o J|o J|o J|o J]; cbn [Nat.eqb].
  - apply says_logical_up, says_not; [exact I|]. apply like_not; [apply level_like|apply P]. do 3 right; left. apply says_math; [apply says_math_up, SA|exact J|exact SB].
  - apply says_logical_up, says_not; [exact I|]. apply like_not; [apply level_like|apply P]. do 2 right; left. apply says_bitwise; [apply says_bitwise_up, says_math_up, SA|exact J|apply says_math_up, SB].
  - apply says_logical_up, says_not; [exact I|]. apply like_not; [apply level_like|apply P]. left. apply says_comparison; [apply says_comparison_up, math_value, says_math_up, SA|exact J|apply math_value, says_math_up, SB].
  - change (t :: a ++ o :: b) with ((t :: a) ++ o :: b). apply says_logical; [apply says_logical_up, says_not; [exact I|exact LA]|exact J|exact LB].
Qed.
Lemma same_layout (D : dlib) depth ds t r primary fields s1 s2 ts : written ts s1 -> written ts s2 -> ts <> [] ->
  Tokens s1 = Tokens s2 /\ EvaluateExpression D s1 = EvaluateExpression D s2 /\
  GenerateExpressionTrees depth D ds primary s1 = GenerateExpressionTrees depth D ds primary s2 /\
  EvaluateDataRowExpression depth D ds t r s1 = EvaluateDataRowExpression depth D ds t r s2 /\
  SelectDataRowsText depth D ds s1 primary fields = SelectDataRowsText depth D ds s2 primary fields /\
  SelectDataRowSetText depth D ds s1 primary fields = SelectDataRowSetText depth D ds s2 primary fields /\
  SelectSignalIDSetText depth D ds s1 primary fields = SelectSignalIDSetText depth D ds s2 primary fields.
Proof.
  intros W1 W2 N. apply written_tokens in W1. apply written_tokens in W2.
  assert (N1 : s1 <> []) by (intros ->; apply N; rewrite <- W1; reflexivity). assert (N2 : s2 <> []) by (intros ->; apply N; rewrite <- W2; reflexivity).
  assert (E : Tokens s1 = Tokens s2) by congruence.
  unfold EvaluateExpression, EvaluateDataRowExpression, GenerateExpressionTree, GenerateExpressionTrees, ExpressionTrees, SelectDataRowsText, SelectDataRowSetText, SelectSignalIDSetText, select_text, parse_text, statements_of.
  destruct s1 as [|b1 s1]; [congruence|]. destruct s2 as [|b2 s2]; [congruence|]. rewrite E. repeat split.
Qed.
