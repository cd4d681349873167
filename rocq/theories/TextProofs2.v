(** Whole texts. *)
From Coq Require Import Lia ZifyBool ZifyNat String.
From Verif Require Import Base GuidModel FormatModel FormatSpec FormatProofs StrModel StrProofs CalModel NumModel ExprModel ExprSpec ExprProofs2 ExprProofs6 TableModel XmlModel XmlSpec XmlProofs6
  ParseModel ParseSpec ParseProofs ParseProofs2 ParseProofs3 ParseProofs4 LexModel LexSpec LexProofs LexProofs2 LexProofs3 LexProofs4 TextModel TextSpec TextProofs.
Open Scope list_scope.
Open Scope Z_scope.

Lemma written_tokens ts s : written ts s -> Tokens s = ts.
Proof. intros (rs & -> & V & H). unfold Tokens. rewrite runes_encode by exact V. apply layout_tokens, H. Qed.
Lemma starts_expected ts s : statement_says ts s -> match ts with TUnexpected _ :: _ => False | _ => True end.
Proof.
  intros H. destruct H as [g|k|n|tts top table ts e ots order H1 H2 H3|ts e H _]; try exact I. apply says_begins in H. destruct ts as [|t ts]; [exact I|]. destruct t; try exact I. exact H.
Qed.
Lemma says_expected ts l : text_says ts l -> match ts with TUnexpected _ :: _ => False | _ => True end.
Proof.
  intros H. destruct H as [n ts l H]. destruct n; [|exact I]. cbn [semis repeat app].
  assert (K : forall u v q, statement_says u q -> match u ++ v with TUnexpected _ :: _ => False | _ => True end).
  { intros u v q Q. destruct (statement_start u q Q) as (t & w & -> & _). apply starts_expected in Q. exact Q. }
  destruct H as [ts s m H|ts s m us l H _]; eapply K, H.
Qed.
Lemma says_text_nonempty ts l : text_says ts l -> ts <> [].
Proof. intros H. destruct H as [n ts l H]. destruct (say_start _ _ H) as (t & v & -> & _). intros E. apply app_eq_nil in E as (_ & E). discriminate. Qed.
Lemma written_nonempty ts s l : Tokens s = ts -> text_says ts l -> s <> [].
Proof. intros E H ->. apply says_text_nonempty in H. apply H. rewrite <- E. reflexivity. Qed.
Lemma written_statements ts s l : Tokens s = ts -> text_says ts l -> statements_of s = Some (Ok l).
Proof.
  intros W H. unfold statements_of. rewrite W. pose proof (says_expected ts l H) as K.
  apply parse_iff in H. destruct ts as [|[]]; try destruct K; rewrite H; reflexivity.
Qed.

(** ** Columns and statements *)

Lemma column_found (L : lib) ds primary fields rows ids table n x : column_of L ds primary table n x -> find_column L (new_parser ds primary fields rows ids) table n = Ok x.
Proof.
  intros (t & c & T & C & -> & N). unfold find_column, parser_table. cbv zeta. cbn [p_primary p_dataset new_parser]. destruct table as [|b table].
  - specialize (N eq_refl). destruct primary as [|b primary]; [congruence|]. cbn [len length Z.of_nat Z.eqb]. rewrite T. cbn [some_or_err]. rewrite C. reflexivity.
  - cbn [len length Z.of_nat Z.eqb]. rewrite T. cbn [some_or_err]. rewrite C. reflexivity.
Qed.
Lemma guid_text_value (L : lib) x g : literal_denotes L (TGuid x) (VE VGuid (Some (GGuid g))) -> parse_guid (unquote 39 x) = Some g.
Proof. intros H. inversion H; subst; [rewrite unquote_plain by assumption|rewrite unquote_quoted]; assumption. Qed.
Lemma statement_listen (L : lib) p (named : bytes -> bytes -> expr -> Prop) s x : ascii_tables L -> (forall table n x, named table n x -> find_column L p table n = Ok x) ->
  statement_denotes L named s x -> listen_statement L p s = Ok x.
Proof.
  intros T C H. destruct H as [x g G|x|x N|top table e x order D|e x D]; cbn [listen_statement].
  - rewrite (guid_text_value L x g G). reflexivity.
  - reflexivity.
  - rewrite unquote_quoted. reflexivity.
  - rewrite (denotes_build L (named table) (find_column L p table) T (C table) e x D). reflexivity.
  - rewrite (denotes_build L (named []) (find_column L p []) T (C []) e x D). reflexivity.
Qed.
Lemma statements_listen (L : lib) p (named : bytes -> bytes -> expr -> Prop) l xs : ascii_tables L -> (forall table n x, named table n x -> find_column L p table n = Ok x) ->
  Forall2 (statement_denotes L named) l xs -> listen L p l = Ok xs.
Proof. intros T C H. induction H as [|s x l xs H F IH]; [reflexivity|]. cbn [listen]. rewrite (statement_listen L p named s x T C H), IH. reflexivity. Qed.
Lemma written_parses (L : lib) p (named : bytes -> bytes -> expr -> Prop) ts s l xs : ascii_tables L -> (forall table n x, named table n x -> find_column L p table n = Ok x) ->
  Tokens s = ts -> text_says ts l -> Forall2 (statement_denotes L named) l xs -> parse_text L p s = Some (Ok xs).
Proof. intros T C W H D. unfold parse_text. rewrite (written_statements ts s l W H). cbn [bind]. rewrite (statements_listen L p named l xs T C D). reflexivity. Qed.

(** ** Evaluation without a data set *)

Definition none_parser : fparser := Parser None [] [] false false.
Lemma none_trees depth D l xs : expressions l xs -> forall st, exists st', visit_trees depth D none_parser st l = Ok st' /\
  fs_trees st' = fs_trees st ++ map (fun x => Tree [] (-1) [] x) xs.
Proof.
  induction 1 as [|x l xs H IH|g l xs H IH|k l xs H IH|k l xs H IH]; intros st.
  - exists st. split; [reflexivity|]. rewrite app_nil_r. reflexivity.
  - cbn [visit_trees]. unfold visit_untracked, visit. cbn [bind]. set (s1 := add_tree _ _). destruct (IH s1) as (st' & -> & E). exists st'. split; [reflexivity|].
    rewrite E. subst s1. cbn [add_tree fs_trees map]. rewrite <- app_assoc. destruct (_ =? 2); reflexivity.
  - cbn [visit_trees]. unfold visit_untracked. cbn [p_track_rows p_track_ids none_parser negb andb bind]. set (s1 := add_tree _ _). destruct (IH s1) as (st' & -> & E). exists st'. split; [reflexivity|].
    rewrite E. subst s1. cbn [add_tree fs_trees map]. rewrite <- app_assoc. reflexivity.
  - cbn [visit_trees]. unfold visit_untracked, visit, identifier. cbn [bind p_dataset none_parser]. set (s1 := if _ : bool then _ else _). destruct (IH s1) as (st' & E1 & E). exists st'.
    split; [exact E1|]. rewrite E. subst s1. destruct (_ =? 2); reflexivity.
  - cbn [visit_trees]. unfold visit_untracked, visit, identifier. cbn [bind p_dataset none_parser]. set (s1 := if _ : bool then _ else _). destruct (IH s1) as (st' & E1 & E). exists st'.
    split; [exact E1|]. rewrite E. subst s1. destruct (_ =? 2); reflexivity.
Qed.
Lemma evaluate_text (D : dlib) ts s l stmts xs : ascii_tables D -> Tokens s = ts -> text_says ts l ->
  Forall2 (statement_denotes D (fun _ => no_column)) l stmts -> expressions stmts xs ->
  EvaluateExpression D s = Some (match xs with x :: _ => Evaluate D None x | [] => Err end).
Proof.
  intros T W H F X. unfold EvaluateExpression. pose proof (written_nonempty ts s l W H) as N. destruct s as [|b s]; [congruence|].
  unfold ExpressionTrees. rewrite (written_parses D (Parser None [] [] false false) (fun _ => no_column) ts (b :: s) l stmts T); [|intros ? ? ? []|exact W|exact H|exact F].
  cbn [bind]. destruct (none_trees 0 D stmts xs X (FState 0 [] None [] None [])) as (st & E & TR). unfold none_parser in E. rewrite E. cbn [recovered bind first_tree]. rewrite TR. cbn [fs_trees app].
  destruct xs as [|x xs]; reflexivity.
Qed.
Lemma one_statement ts q : statement_says ts q -> text_says ts [q].
Proof. intros H. change ts with (semis 0 ++ ts). constructor. pose proof (sts_one ts q 0 H) as K. change (semis 0) with (@nil token) in K. rewrite app_nil_r in K. exact K. Qed.
Lemma lone_guid ts : (exists g, ts = [TGuid g]) \/ (forall g, ts <> [TGuid g]).
Proof. destruct ts as [|[] [|? ?]]; try (right; intros; discriminate). left. eauto. Qed.
Lemma guid_says lv g e : says lv [TGuid g] e -> e = PLiteral (TGuid g).
Proof.
  intros H. remember [TGuid g] as ts eqn:E. revert E. induction H; intros E; try discriminate; auto.
  all: try (injection E as ->; reflexivity).
  all: try (subst; match goal with H : In _ _ |- _ => cbn in H; intuition congruence end).
  all: try (injection E as -> E; match goal with H : In _ _ |- _ => cbn in H; intuition congruence end).
  all: exfalso.
  all: repeat match goal with H : says _ ?a _ |- _ => apply says_some in H | H : says_list _ _ |- _ => clear H end.
  all: match goal with E : ?a ++ _ = _ |- _ => destruct a as [|? [|? ?]]; [congruence| |discriminate] end.
  all: try (cbn in E; injection E as _ E; discriminate).
  all: match goal with H : maybe not_tokens _ ?n |- _ => destruct n; discriminate end.
Qed.
Lemma evaluate_single (D : dlib) ts s q st x : ascii_tables D -> Tokens s = ts -> statement_says ts q -> statement_denotes D (fun _ => no_column) q st -> expressions [st] [x] ->
  EvaluateExpression D s = Some (Evaluate D None x).
Proof. intros T W H F X. exact (evaluate_text D ts s [q] [st] [x] T W (one_statement ts q H) (Forall2_cons _ _ F (Forall2_nil _)) X). Qed.
Lemma evaluate_one (D : dlib) ts s e x : ascii_tables D -> Tokens s = ts -> says LLogical ts e -> denotes D no_column e x -> EvaluateExpression D s = Some (Evaluate D None x).
Proof.
  intros T W H X. destruct (lone_guid ts) as [(g & ->)|N].
  - apply guid_says in H as ->. inversion X as [t v G| | | | | | | | | | | |]; subst.
    assert (K : exists i, v = VE VGuid (Some (GGuid i))) by (inversion G; eauto). destruct K as (i & ->).
    exact (evaluate_single D [TGuid g] s _ _ _ T W (st_guid g) (sd_guid D _ g i G) (ex_guid i [] [] ex_nil)).
  - exact (evaluate_single D ts s _ _ _ T W (st_expression ts e H N) (sd_expression D _ e x X) (ex_expression x [] [] ex_nil)).
Qed.

(** ** With a data set *)

Lemma select_rows_text depth (D : dlib) ds ts s l stmts primary fields : ascii_tables D -> Tokens s = ts -> text_says ts l ->
  Forall2 (statement_denotes D (column_of D ds primary)) l stmts ->
  SelectDataRowsText depth D ds s primary fields = Some (SelectDataRows depth D ds stmts primary fields) /\
  SelectDataRowSetText depth D ds s primary fields = Some (SelectDataRowSet depth D ds stmts primary fields) /\
  SelectSignalIDSetText depth D ds s primary fields = Some (SelectSignalIDSet depth D ds stmts primary fields).
Proof.
  intros T W H F. pose proof (written_nonempty ts s l W H) as N.
  assert (P : forall rows ids, parse_text D (new_parser ds primary fields rows ids) s = Some (Ok stmts)).
  { intros rows ids. eapply written_parses; [exact T| |exact W|exact H|exact F]. intros table n x C. apply column_found, C. }
  unfold SelectDataRowsText, SelectDataRowSetText, SelectSignalIDSetText, select_text. destruct s as [|b s]; [congruence|]. rewrite !P. auto.
Qed.

Lemma Atoi_plus x : TableModel.Atoi (43 :: x) = match x with [] => None | _ => if forallb TableModel.digit_byte x then if (- 2 ^ 63 <=? digits_val 0 x) && (digits_val 0 x <? 2 ^ 63) then Some (digits_val 0 x) else None else None end.
Proof. reflexivity. Qed.
Lemma digits_val_dec x : forall a, digits_val a x = fold_left (fun a c => 10 * a + (c - 48)) x a.
Proof. induction x as [|c x IH]; intros a; [reflexivity|]. cbn [digits_val fold_left]. apply IH. Qed.
Lemma digits_bytes x : digits x -> forallb TableModel.digit_byte x = true /\ 0 <= dec_value x /\ x <> [].
Proof.
  intros (N & F). split; [|split; [|exact N]].
  - apply forallb_forall. intros c I. rewrite Forall_forall in F. specialize (F c I). unfold digit in F. unfold TableModel.digit_byte. lia.
  - unfold dec_value. apply fold_dec_mono; [|lia]. exact F.
Qed.
Lemma top_ok top limit : top_means top limit -> match top with Some x => match TableModel.Atoi x with Some n => n | None => -1 end | None => -1 end = limit.
Proof.
  intros H. destruct H as [|x D B|x D B|x D B]; [reflexivity| | |]; destruct (digits_bytes x D) as (V & P & N); unfold TableModel.Atoi.
  - destruct x as [|c x]; [congruence|]. assert (digit c) by (destruct D as (_ & F); inversion F; assumption). unfold digit in *.
    replace (c =? 45) with false by lia. replace (c =? 43) with false by lia. rewrite V, digits_val_dec. fold (dec_value (c :: x)).
    replace ((- 2 ^ 63 <=? dec_value (c :: x)) && (dec_value (c :: x) <? 2 ^ 63)) with true by lia. reflexivity.
  - replace (43 =? 45) with false by lia. replace (43 =? 43) with true by lia. rewrite V, digits_val_dec. fold (dec_value x).
    replace ((- 2 ^ 63 <=? dec_value x) && (dec_value x <? 2 ^ 63)) with true by lia. destruct x; [congruence|reflexivity].
  - replace (45 =? 45) with true by lia. rewrite V, digits_val_dec. fold (dec_value x).
    replace ((- 2 ^ 63 <=? - dec_value x) && (- dec_value x <? 2 ^ 63)) with true by lia. destruct x; [congruence|reflexivity].
Qed.
Lemma order_ok (L : lib) t order terms : Forall2 (order_means L t) order terms -> order_terms L t order = Ok terms.
Proof. induction 1 as [|o r order terms (c & C & ->) F IH]; [reflexivity|]. cbn [order_terms]. rewrite C. cbn [some_or_err bind]. rewrite IH. reflexivity. Qed.
Lemma set_trees depth (D : dlib) ds primary stmts trees : Forall2 (tree_means D ds) stmts trees -> forall st, exists st',
  visit_trees depth D (new_parser ds primary None false false) st stmts = Ok st' /\ fs_trees st' = fs_trees st ++ trees.
Proof.
  induction 1 as [|x tr stmts trees H F IH]; intros st.
  - exists st. split; [reflexivity|]. rewrite app_nil_r. reflexivity.
  - destruct H as [top limit table t x order terms T TP O|x|g].
    + cbn [visit_trees]. unfold visit_untracked, visit, filter_tree, parser_table. cbn [p_dataset new_parser]. rewrite T. cbn [some_or_err bind].
      rewrite (order_ok D t order terms O). cbn [bind]. rewrite (top_ok top limit TP). set (s1 := add_tree _ _). destruct (IH s1) as (st' & E1 & E). exists st'.
      split; [exact E1|]. rewrite E. subst s1. cbn [add_tree fs_trees]. rewrite <- app_assoc. destruct (_ =? 2); reflexivity.
    + cbn [visit_trees]. unfold visit_untracked, visit. cbn [bind]. set (s1 := add_tree _ _). destruct (IH s1) as (st' & E1 & E). exists st'.
      split; [exact E1|]. rewrite E. subst s1. cbn [add_tree fs_trees]. rewrite <- app_assoc. destruct (_ =? 2); reflexivity.
    + cbn [visit_trees]. unfold visit_untracked. cbn [p_track_rows p_track_ids new_parser negb andb bind]. set (s1 := add_tree _ _). destruct (IH s1) as (st' & E1 & E). exists st'.
      split; [exact E1|]. rewrite E. subst s1. cbn [add_tree fs_trees]. rewrite <- app_assoc. reflexivity.
Qed.
Lemma trees_text depth (D : dlib) ds ts s l stmts trees primary : ascii_tables D -> Tokens s = ts -> text_says ts l ->
  Forall2 (statement_denotes D (column_of D ds primary)) l stmts -> Forall2 (tree_means D ds) stmts trees ->
  GenerateExpressionTrees depth D ds primary s = Some (Ok trees).
Proof.
  intros T W H F X. pose proof (written_nonempty ts s l W H) as N. unfold GenerateExpressionTrees. destruct s as [|b s]; [congruence|].
  unfold ExpressionTrees. erewrite written_parses; [|exact T| |exact W|exact H|exact F]; [|intros table n x C; apply column_found, C].
  cbn [bind]. destruct (set_trees depth D ds primary stmts trees X (FState 0 [] None [] None [])) as (st & -> & E). cbn [recovered bind]. rewrite E. reflexivity.
Qed.
Lemma row_text depth (D : dlib) ds ts s l stmts tr trees t r : ascii_tables D -> Tokens s = ts -> text_says ts l ->
  Forall2 (statement_denotes D (column_of D ds (dt_name t))) l stmts -> Forall2 (tree_means D ds) stmts (tr :: trees) ->
  EvaluateDataRowExpression depth D ds t r s = Some (Evaluate D (Some (TypedValue depth D t (row_values r))) (et_root tr)).
Proof. intros T W H F X. unfold EvaluateDataRowExpression, GenerateExpressionTree. erewrite trees_text by eassumption. reflexivity. Qed.
