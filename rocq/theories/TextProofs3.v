(** Composed statements and comments. *)
From Coq Require Import Lia ZifyBool ZifyNat String.
From Verif Require Import Base GuidModel FormatModel FormatSpec FormatProofs StrModel StrProofs CalModel NumModel ExprModel ExprSpec ExprProofs2 ExprProofs6 TableModel XmlModel XmlSpec XmlProofs6
  ParseModel ParseSpec ParseProofs ParseProofs2 ParseProofs3 ParseProofs4 LexModel LexSpec LexProofs LexProofs2 LexProofs3 LexProofs4 TextModel TextSpec TextProofs TextProofs2.
Open Scope list_scope.
Open Scope Z_scope.

Definition valid (rs : list Z) : Prop := Forall (fun r => valid_rune r = true) rs.
Lemma encode_app a b : encode_runes (a ++ b) = encode_runes a ++ encode_runes b.
Proof. apply flat_map_app. Qed.
Lemma ascii_valid s : is_ascii s -> valid s.
Proof. unfold is_ascii, valid. intros H. eapply Forall_impl; [|exact H]. cbn. intros c R. unfold valid_rune. lia. Qed.
Lemma separated_app t s r : separated t s -> separated t (s ++ 32 :: r).
Proof.
  intros [P|[->|(c & q & -> & H)]]; [left; exact P| |].
  - right; right. exists 32, r. split; [reflexivity|]. left. unfold space. cbn. auto.
  - right; right. exists c, (q ++ 32 :: r). split; [reflexivity|exact H].
Qed.
(** A layout, a space, and anything that can be read *)
Lemma lexes_app a s b r : layout a s -> lexes r b -> lexes (s ++ 32 :: r) (a ++ b).
Proof.
  intros H R. assert (R' : lexes (32 :: r) b) by (apply hidden_space; [unfold space; cbn; auto|exact R]).
  induction H as [|g ts s hg h IH|t x ts s hx hs h IH].
  - exact R'.
  - destruct hg as [c hc|d c h1 h2 h3|d hb].
    + apply hidden_space; [assumption|]. apply IH.
    + change ((45 :: 45 :: 32 :: d ++ [c]) ++ s) with (45 :: 45 :: 32 :: (d ++ [c]) ++ s). rewrite <- app_assoc. cbn [app]. rewrite <- app_assoc. cbn [app].
      apply (hidden_line d c); assumption.
    + change ((47 :: 42 :: d ++ [42; 47]) ++ s) with (47 :: 42 :: (d ++ [42; 47]) ++ s). rewrite <- app_assoc. cbn [app]. rewrite <- app_assoc. cbn [app].
      apply lexes_comment; assumption.
  - cbn [app]. rewrite <- app_assoc. assert (hs' : separated t (s ++ 32 :: r)) by (apply separated_app, hs).
    destruct (spelled_reads t x (s ++ 32 :: r) hx) as (act & C1 & A); [eapply separated_stops; eassumption|].
    eapply lexes_token; [intro z; eapply no_comment; eassumption|exact C1|rewrite firstn_exact; exact A|rewrite skipn_exact; exact IH].
Qed.
(** A comment at the end of the text *)
Lemma hidden_last b : ~ In 10 b -> ~ In 13 b -> lexes (45 :: 45 :: 32 :: b) [].
Proof.
  intros h1 h2. assert (C : chosen ((45 :: 45 :: 32 :: b) ++ []) (length (45 :: 45 :: 32 :: b)) (fun _ => None)).
  { eapply (choose (firstn 94 rules) SINGLE_LINE_COMMENT _ (skipn 95 rules)).
    - reflexivity.
    - apply (m_cat _ _ [45]); [apply match_one; reflexivity |]. apply (m_cat _ _ [45]); [apply match_one; reflexivity |]. apply star_set.
      constructor; [reflexivity |]. apply Forall_forall. intros d i. destruct (Z.eqb_spec d 13); [subst; contradiction |]. destruct (Z.eqb_spec d 10); [subst; contradiction |]. reflexivity.
    - intros e hin. apply not_after_dashes_ok. assert (H : forallb (fun e => not_after_dashes (fst e)) (firstn 94 rules) = true) by (vm_compute; reflexivity).
      exact (checked not_after_dashes _ _ H hin).
    - intros e d z s' hin E m. discriminate. }
  rewrite app_nil_r in C. eapply lexes_hidden; [|exact C|reflexivity|].
  - intros r e. discriminate.
  - rewrite skipn_all. constructor.
Qed.

(** Texts that can be read, in UTF-8 *)
Definition readable (ts : list token) (s : bytes) : Prop := exists rs, s = encode_runes rs /\ valid rs /\ lexes rs ts.
Lemma readable_tokens ts s : readable ts s -> Tokens s = ts.
Proof. intros (rs & -> & V & H). unfold Tokens. rewrite runes_encode by exact V. apply tokens_iff, H. Qed.
Lemma written_readable ts s : written ts s -> readable ts s.
Proof. intros (rs & -> & V & H). exists rs. split; [reflexivity|]. split; [exact V|]. apply layout_lexes, H. Qed.
Lemma readable_app a s b r : written a s -> readable b r -> readable (a ++ b) (s ++ 32 :: r).
Proof.
  intros (rs & -> & V & H) (qs & -> & W & K). exists (rs ++ 32 :: qs). split; [|split].
  - rewrite encode_app. f_equal.
  - apply Forall_app. split; [exact V|]. constructor; [reflexivity|exact W].
  - apply lexes_app; assumption.
Qed.
Lemma written_one t x : spelled t x -> is_ascii x -> written [t] x.
Proof.
  intros S A. exists x. rewrite encode_ascii by exact A. split; [reflexivity|]. split; [apply ascii_valid, A|].
  rewrite <- (app_nil_r x). apply layout_token; [exact S|right; left; reflexivity|constructor].
Qed.
Lemma comment_readable b : is_ascii b -> ~ In 10 b -> ~ In 13 b -> readable [] (45 :: 45 :: 32 :: b).
Proof.
  intros A H1 H2. exists (45 :: 45 :: 32 :: b). assert (is_ascii (45 :: 45 :: 32 :: b)) by (repeat constructor; try lia; exact A).
  rewrite encode_ascii by assumption. split; [reflexivity|]. split; [apply ascii_valid; assumption|]. apply hidden_last; assumption.
Qed.

Lemma any_self w : any_case w (lit w).
Proof. unfold any_case. induction (lit w); constructor; auto. Qed.
Lemma keyword_ascii k : is_ascii (lit (keyword_text k)).
Proof. destruct k; repeat constructor; lia. Qed.
Lemma written_keyword k : written [TKey k] (lit (keyword_text k)).
Proof. apply written_one; [apply sp_keyword, any_self|apply keyword_ascii]. Qed.
Lemma digits_ascii x : Forall digit x -> is_ascii x.
Proof. intros H. unfold is_ascii. eapply Forall_impl; [|exact H]. unfold digit. intros c. lia. Qed.
Lemma name_ascii x : Forall name_char x -> is_ascii x.
Proof. intros H. unfold is_ascii. eapply Forall_impl; [|exact H]. unfold name_char, name_start, latin, digit. intros c. lia. Qed.
Lemma written_name n : plain_name n -> written [TIdent n] n.
Proof.
  intros (c & x & -> & C & X & R). assert (A : is_ascii (c :: x)) by (apply name_ascii; constructor; [left; exact C|exact X]).
  pose proof (sp_name c x C X R) as S. rewrite encode_ascii in S by exact A. apply written_one; assumption.
Qed.
Lemma written_int n : 0 <= n < 2 ^ 63 -> written [TInt (FormatInt n)] (FormatInt n) /\ digits (FormatInt n) /\ dec_value (FormatInt n) = n.
Proof.
  intros R. unfold FormatInt. replace (n <? 0) with false by lia. destruct (FormatUint_decimal n) as (D & V & N & _); [unfold is_u64; lia|].
  assert (G : digits (FormatUint n)) by (split; assumption). pose proof (sp_integer _ G) as S. rewrite encode_ascii in S by (apply digits_ascii, D).
  split; [|split; [exact G|exact V]]. apply written_one; [exact S|apply digits_ascii, D].
Qed.

(** ** DataTable.Select *)

Definition clause (o : ordering) : order_clause := OrderClause (o_exact o) (o_column o) (o_desc o).
Lemma true_written : written [TBool (lit "True")] (lit "True").
Proof.
  apply written_one; [|repeat constructor; lia]. apply (sp_bool (lit "True")). left. unfold any_case. repeat constructor; cbn; lia.
Qed.
Lemma where_parts (L : lib) ds t condition x : selects_where L ds t condition x ->
  exists ts e, written ts (match condition with [] => lit "True" | _ => condition end) /\ says LLogical ts e /\ denotes L (column_of L ds (dt_name t) (dt_name t)) e x.
Proof.
  intros H. destruct H as [|s ts e x W S D].
  - exists [TBool (lit "True")], (PLiteral (TBool (lit "True"))). split; [exact true_written|]. split.
    + apply unary_logical; [apply says_literal; constructor|]. intros u I E. cbn in E. inversion E; subst. cbn in I. intuition congruence.
    + apply d_literal, ld_true. unfold any_case. repeat constructor; cbn; lia.
  - exists ts, e. split; [|split; assumption]. destruct s; [|exact W]. exfalso.
    assert (E : Tokens [] = ts) by (apply written_tokens, W). subst ts. apply says_some in S. apply S. reflexivity.
Qed.
Lemma select_generic depth (D : dlib) ds t ts e x os terms limit s tts top otoks n : ascii_tables D -> dt_name t = n -> DataSetTable D ds n = Some t ->
  says LLogical ts e -> denotes D (column_of D ds n n) e x -> top_clause tts top -> top_means top (if 0 <? limit then limit else -1) -> order_by otoks os -> Forall2 (order_means D t) (map clause os) terms ->
  Tokens s = TKey KFilter :: tts ++ TIdent n :: TKey KWhere :: ts ++ otoks ->
  match GenerateExpressionTree depth D ds t s with Some e => Some (let* e := e in Select depth D e (Some t)) | None => None end = Some (TableSelect depth D t x terms limit).
Proof.
  intros T N F S X TC TM O OM TK. unfold GenerateExpressionTree. rewrite N.
  rewrite (trees_text depth D ds _ s [QFilter top n e os] [SFilter top n x (map clause os)] [Tree n (if 0 <? limit then limit else -1) terms x] n T TK).
  - cbn [first_tree bind]. unfold TableSelect. rewrite N. reflexivity.
  - apply one_statement, st_filter; assumption.
  - constructor; [|constructor]. apply sd_filter. exact X.
  - constructor; [|constructor]. eapply tm_filter; eassumption.
Qed.
Lemma statement_shape t condition order limit :
  select_statement t condition order limit =
  (lit "FILTER" ++ 32 :: ((if 0 <? limit then lit "TOP" ++ 32 :: FormatInt limit ++ [32] else []) ++ (dt_name t ++ 32 :: (lit "WHERE" ++ 32 ::
    (match condition with [] => lit "True" | _ => condition end ++ (match order with [] => [] | _ => 32 :: lit "ORDER" ++ 32 :: lit "BY" ++ 32 :: order end)))))).
Proof.
  unfold select_statement. destruct (0 <? limit), condition, order; repeat (rewrite <- app_assoc || rewrite app_nil_r || cbn [app]); reflexivity.
Qed.
Lemma select_text_tokens t condition order limit ts tail otoks : plain_name (dt_name t) -> limit < 2 ^ 63 ->
  written ts (match condition with [] => lit "True" | _ => condition end) ->
  tail = (match order with [] => [] | _ => 32 :: lit "ORDER" ++ 32 :: lit "BY" ++ 32 :: order end) ->
  (tail = [] /\ otoks = [] \/ exists r, tail = 32 :: r /\ readable otoks r) ->
  exists tts top, top_clause tts top /\ top_means top (if 0 <? limit then limit else -1) /\
    Tokens (select_statement t condition order limit) = TKey KFilter :: tts ++ TIdent (dt_name t) :: TKey KWhere :: ts ++ otoks.
Proof.
  intros PN LM W E O. rewrite statement_shape. rewrite <- E. clear E.
  assert (R1 : readable (ts ++ otoks) (match condition with [] => lit "True" | _ => condition end ++ tail)).
  { destruct O as [(-> & ->)|(r & -> & R)]; [rewrite !app_nil_r; apply written_readable, W|]. apply readable_app; assumption. }
  pose proof (readable_app _ _ _ _ (written_keyword KWhere) R1) as R2. pose proof (readable_app _ _ _ _ (written_name _ PN) R2) as R3.
  destruct (Z.ltb_spec 0 limit) as [P|P].
  - destruct (written_int limit ltac:(lia)) as (WI & DI & VI). exists [TKey KTop; TInt (FormatInt limit)], (Some (FormatInt limit)).
    split; [constructor|]. split; [rewrite <- VI at 2; apply top_number; [exact DI|lia]|].
    pose proof (readable_app _ _ _ _ WI R3) as R4. pose proof (readable_app _ _ _ _ (written_keyword KTop) R4) as R5. pose proof (readable_app _ _ _ _ (written_keyword KFilter) R5) as R6.
    apply readable_tokens in R6. etransitivity; [|exact R6]. f_equal. cbn [keyword_text]. repeat (rewrite <- app_assoc || cbn [app]). reflexivity.
  - exists [], None. split; [constructor|]. split; [constructor|]. pose proof (readable_app _ _ _ _ (written_keyword KFilter) R3) as R6. apply readable_tokens in R6. exact R6.
Qed.
Lemma table_select_text depth (D : dlib) ds t condition x order terms limit : ascii_tables D -> plain_name (dt_name t) -> DataSetTable D ds (dt_name t) = Some t ->
  selects_where D ds t condition x -> sorts_by D t order terms -> limit < 2 ^ 63 ->
  TableSelectText depth D ds t condition order limit = Some (TableSelect depth D t x terms limit).
Proof.
  intros T PN F S O LM. destruct (where_parts D ds t condition x S) as (ts & e & W & SY & DN).
  assert (Q : exists os otoks, order_by otoks os /\ Forall2 (order_means D t) (map clause os) terms /\
    let tail := match order with [] => [] | _ => 32 :: lit "ORDER" ++ 32 :: lit "BY" ++ 32 :: order end in (tail = [] /\ otoks = [] \/ exists r, tail = 32 :: r /\ readable otoks r)).
  { destruct O as [|s ots os terms WO SO MO].
    - exists [], []. split; [constructor|]. split; [constructor|]. left. auto.
    - exists os, (TKey KOrder :: TKey KBy :: ots). split; [constructor; exact SO|]. split; [exact MO|]. right. cbv zeta.
      destruct s as [|b s]; [exfalso|].
      + assert (E : Tokens [] = ots) by (apply written_tokens, WO). subst ots. change (Tokens []) with (@nil token) in SO.
        inversion SO as [u o H E|u o us l H _ E]; [subst; apply one_order_nonempty in H; apply H; reflexivity|]. destruct u; discriminate.
      + exists (lit "ORDER" ++ 32 :: lit "BY" ++ 32 :: b :: s). split; [reflexivity|].
        exact (readable_app _ _ _ _ (written_keyword KOrder) (readable_app _ _ _ _ (written_keyword KBy) (written_readable _ _ WO))). }
  destruct Q as (os & otoks & OB & OM & TL). cbv zeta in TL.
  destruct (select_text_tokens t condition order limit ts _ otoks PN LM W eq_refl TL) as (tts & top & TC & TM & TK).
  unfold TableSelectText. eapply select_generic; try eassumption; reflexivity.
Qed.
(** A condition that ends with a comment takes the order with it. *)
Lemma table_select_comment depth (D : dlib) ds t condition ts e x b order limit : ascii_tables D -> plain_name (dt_name t) -> DataSetTable D ds (dt_name t) = Some t ->
  written ts condition -> says LLogical ts e -> denotes D (column_of D ds (dt_name t) (dt_name t)) e x -> limit < 2 ^ 63 ->
  is_ascii b -> ~ In 10 b -> ~ In 13 b -> is_ascii order -> ~ In 10 order -> ~ In 13 order ->
  TableSelectText depth D ds t (condition ++ lit " -- " ++ b) order limit = Some (TableSelect depth D t x [] limit).
Proof.
  intros T PN F W SY DN LM A1 A2 A3 B1 B2 B3.
  assert (NE : condition <> []).
  { intros ->. assert (E : Tokens [] = ts) by (apply written_tokens, W). subst ts. apply says_some in SY. apply SY. reflexivity. }
  assert (TK : exists tts top, top_clause tts top /\ top_means top (if 0 <? limit then limit else -1) /\
    Tokens (select_statement t (condition ++ lit " -- " ++ b) order limit) = TKey KFilter :: tts ++ TIdent (dt_name t) :: TKey KWhere :: ts ++ []).
  { rewrite statement_shape. set (tail := match order with [] => [] | _ => 32 :: lit "ORDER" ++ 32 :: lit "BY" ++ 32 :: order end).
    assert (TA : is_ascii tail /\ ~ In 10 tail /\ ~ In 13 tail).
    { subst tail. destruct order as [|o order]; [repeat split; try constructor; intros []|].
      change (32 :: lit "ORDER" ++ 32 :: lit "BY" ++ 32 :: o :: order) with (lit " ORDER BY " ++ o :: order).
      split; [apply Forall_app; split; [repeat constructor; lia|exact B1]|]. split; rewrite in_app_iff; intros [H|H]; [vm_compute in H; intuition discriminate|tauto|vm_compute in H; intuition discriminate|tauto]. }
    destruct TA as (TA & T1 & T2).
    assert (R0 : readable [] (45 :: 45 :: 32 :: b ++ tail)).
    { apply comment_readable; [apply Forall_app; split; assumption| |]; rewrite in_app_iff; tauto. }
    pose proof (readable_app _ _ _ _ W R0) as R1.
    assert (E : match condition ++ lit " -- " ++ b with [] => lit "True" | _ => condition ++ lit " -- " ++ b end ++ tail = condition ++ 32 :: 45 :: 45 :: 32 :: b ++ tail).
    { destruct condition as [|c condition]; [congruence|]. cbn [app]. rewrite <- app_assoc. reflexivity. }
    rewrite E. clear E.
    pose proof (readable_app _ _ _ _ (written_keyword KWhere) R1) as R2. pose proof (readable_app _ _ _ _ (written_name _ PN) R2) as R3.
    destruct (Z.ltb_spec 0 limit) as [P|P].
    - destruct (written_int limit ltac:(lia)) as (WI & DI & VI). exists [TKey KTop; TInt (FormatInt limit)], (Some (FormatInt limit)).
      split; [constructor|]. split; [rewrite <- VI at 2; apply top_number; [exact DI|lia]|].
      pose proof (readable_app _ _ _ _ WI R3) as R4. pose proof (readable_app _ _ _ _ (written_keyword KTop) R4) as R5. pose proof (readable_app _ _ _ _ (written_keyword KFilter) R5) as R6.
      apply readable_tokens in R6. etransitivity; [|exact R6]. f_equal. cbn [keyword_text]. repeat (rewrite <- app_assoc || cbn [app]). reflexivity.
    - exists [], None. split; [constructor|]. split; [constructor|]. pose proof (readable_app _ _ _ _ (written_keyword KFilter) R3) as R6. apply readable_tokens in R6. exact R6. }
  destruct TK as (tts & top & TC & TM & TK).
  unfold TableSelectText. eapply (select_generic depth D ds t ts e x [] []); try eassumption; try reflexivity; constructor.
Qed.
