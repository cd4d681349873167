(** Statements are parsed by the grammar of ParseSpec. *)
From Coq Require Import Lia ZifyBool ZifyNat.
From Verif Require Import Base ExprModel ParseModel ParseSpec ParseProofs ParseProofs2 ParseProofs3.
Open Scope list_scope.
Open Scope Z_scope.

(** ** No semicolon inside a statement *)

Definition free (ts : list token) : Prop := forall t, In t ts -> t <> TSym Semicolon.
Lemma free_app a b : free a -> free b -> free (a ++ b).
Proof. unfold free. intros A B t H. apply in_app_or in H. destruct H; auto. Qed.
Lemma free_cons t a : t <> TSym Semicolon -> free a -> free (t :: a).
Proof. unfold free. intros T A u [<-|H]; auto. Qed.
Lemma free_nil : free [].
Proof. intros t []. Qed.
Lemma free_of (words : list token) o : (forall t, In t words -> t <> TSym Semicolon) -> In o words -> o <> TSym Semicolon.
Proof. auto. Qed.
Lemma maybe_free words b u : free words -> maybe words b u -> free u.
Proof. intros W [|t T]; [apply free_nil|]. apply free_cons; [apply W, T|apply free_nil]. Qed.
Lemma words_free : free not_tokens /\ free unary_tokens /\ free exact_tokens /\ free comparison_tokens /\ free logical_tokens /\ free bitwise_tokens /\ free math_tokens.
Proof. repeat split; intros t H; cbn in H; intuition (subst; discriminate). Qed.
Lemma says_free : forall l ts e, says l ts e -> free ts.
Proof.
  destruct words_free as (W1 & W2 & W3 & W4 & W5 & W6 & W7).
  intros l ts e H. revert l ts e H.
  apply (says_mut (fun _ ts _ _ => free ts) (fun ts _ _ => free ts)); intros;
    repeat first [assumption | match goal with |- free _ => first [apply free_nil | apply free_app | apply free_cons] end | discriminate
                 | match goal with H : literal ?t |- ?t <> _ => destruct H; discriminate
                   | H : In ?t not_tokens |- ?t <> _ => apply (W1 _ H) | H : In ?t unary_tokens |- ?t <> _ => apply (W2 _ H)
                   | H : In ?t comparison_tokens |- ?t <> _ => apply (W4 _ H) | H : In ?t logical_tokens |- ?t <> _ => apply (W5 _ H)
                   | H : In ?t bitwise_tokens |- ?t <> _ => apply (W6 _ H) | H : In ?t math_tokens |- ?t <> _ => apply (W7 _ H)
                   | H : maybe not_tokens _ ?n |- free ?n => apply (maybe_free _ _ _ W1 H)
                   | H : maybe exact_tokens _ ?n |- free ?n => apply (maybe_free _ _ _ W3 H) end].
Qed.

(** ** Ordering terms *)

Lemma order_sound ts o r : orderingTerm ts = Some (o, r) -> exists u, ts = u ++ r /\ one_order u o.
Proof.
  unfold orderingTerm. destruct (optional exactMatchModifier ts) as [x q] eqn:O.
  destruct (optional_sound _ _ _ _ _ exact_in O) as (y & -> & M).
  destruct q as [|t q]; [discriminate|]. tok t; try discriminate.
  assert (PL : Some (Ordering x z false, q) = Some (o, r) -> exists u, y ++ TIdent z :: q = u ++ r /\ one_order u o).
  { intros X. injection X as <- <-. exists (y ++ [TIdent z]). split; [norm; reflexivity|]. constructor. exact M. }
  destruct q as [|t q]; [exact PL|]. tok t; try exact PL; intros X; injection X as <- <-.
  - exists (y ++ [TIdent z; TKey KAsc]). split; [norm; reflexivity|]. apply order_asc, M.
  - exists (y ++ [TIdent z; TKey KDesc]). split; [norm; reflexivity|]. apply order_desc, M.
Qed.
Lemma order_complete u o r : one_order u o -> starts (fun t => match t with TKey KAsc | TKey KDesc => true | _ => false end) r = false ->
  orderingTerm (u ++ r) = Some (o, r).
Proof.
  intros H NS. unfold orderingTerm. destruct H as [x y c M|x y c M|x y c M]; norm; rewrite (maybe_optional _ _ _ _ _ exact_in M) by reflexivity; try reflexivity.
  destruct r as [|t r]; [reflexivity|]. cbn in NS. tok t; try reflexivity; discriminate.
Qed.
Lemma one_order_nonempty u o : one_order u o -> u <> [].
Proof. intros [x y c M|x y c M|x y c M]; destruct y; discriminate. Qed.
Lemma orders_sound : forall n ts l r, orderingTerms n ts = Some (l, r) -> exists u, ts = u ++ r /\ orders u l.
Proof.
  induction n as [|n IH]; intros ts l r H; [discriminate|]. cbn [orderingTerms] in H.
  destruct (orderingTerm ts) as [[o q]|] eqn:O; [|discriminate]. destruct (order_sound _ _ _ O) as (u & -> & S).
  assert (ONE : Some ([o], q) = Some (l, r) -> exists v, u ++ q = v ++ r /\ orders v l).
  { intros X. injection X as <- <-. exists u. split; [reflexivity|]. constructor. exact S. }
  destruct q as [|t q]; [exact (ONE H)|]. tok t; try exact (ONE H).
  destruct (orderingTerms n q) as [[l' r']|] eqn:E; [|discriminate]. injection H as <- <-.
  destruct (IH _ _ _ E) as (v & -> & S'). exists (u ++ TSym Comma :: v). split; [norm; reflexivity|]. constructor; assumption.
Qed.
Lemma orders_complete u l : orders u l -> forall n r, (length u <= n)%nat -> ends r = true -> orderingTerms n (u ++ r) = Some (l, r).
Proof.
  induction 1 as [ts o H|ts o us l H _ IH]; intros n r L E.
  - pose proof (one_order_nonempty _ _ H) as NE. destruct n as [|n]; [destruct ts; [congruence|cbn in L; lia]|].
    cbn [orderingTerms]. rewrite (order_complete _ _ r H).
    + destruct r as [|t r]; [reflexivity|]. tok t; try discriminate. reflexivity.
    + destruct r as [|t r]; [reflexivity|]. tok t; try discriminate. reflexivity.
  - rewrite app_length in L. cbn [length] in L. destruct n as [|n]; [lia|].
    cbn [orderingTerms]. norm. rewrite (order_complete _ _ _ H) by reflexivity. rewrite IH by (try lia; exact E). reflexivity.
Qed.

(** ** Statements *)

Lemma ends_closed r : ends r = true -> closed_by r.
Proof. destruct r as [|t r]; [intros; apply closed_nil|]. tok t; try discriminate. intros _. repeat split. Qed.

Lemma top_sound ts top r :
  match ts with TKey KTop :: r => let? (n, r) := topLimit r in Some (Some n, r) | _ => Some (None, ts) end = Some (top, r) ->
  exists u, ts = u ++ r /\ top_clause u top.
Proof.
  assert (NO : Some (@None bytes, ts) = Some (top, r) -> exists u, ts = u ++ r /\ top_clause u top).
  { intros X. injection X as <- <-. exists []. split; [reflexivity|constructor]. }
  destruct ts as [|t q]; [exact NO|]. tok t; try exact NO. intros H.
  destruct q as [|t q]; [discriminate|]. tok t; try discriminate.
  - destruct q as [|t q]; [discriminate|]. tok t; try discriminate. cbn in H. injection H as <- <-.
    exists [TKey KTop; TSym Minus; TInt z]. split; [reflexivity|constructor].
  - destruct q as [|t q]; [discriminate|]. tok t; try discriminate. cbn in H. injection H as <- <-.
    exists [TKey KTop; TSym Plus; TInt z]. split; [reflexivity|constructor].
  - cbn in H. injection H as <- <-. exists [TKey KTop; TInt z]. split; [reflexivity|constructor].
Qed.

Lemma filter_sound ts s r : filterStatement ts = Some (s, r) -> ends r = true -> exists u, TKey KFilter :: ts = u ++ r /\ statement_says u s.
Proof.
  unfold filterStatement. intros H EN.
  match type of H with match ?x with _ => _ end = _ => destruct x as [[top q]|] eqn:T; [|discriminate H] end.
  destruct (top_sound _ _ _ T) as (u & -> & TC).
  destruct q as [|t q]; [discriminate|]. tok t; try discriminate. destruct q as [|t q]; [discriminate|]. tok t; try discriminate.
  destruct (expression (enough q) 0 q) as [[e q']|] eqn:E; [|discriminate]. destruct (expression_sound _ _ _ E) as (v & -> & S).
  assert (NO : Some (QFilter top z e [], q') = Some (s, r) -> exists w, TKey KFilter :: u ++ TIdent z :: TKey KWhere :: v ++ q' = w ++ r /\ statement_says w s).
  { intros X. injection X as <- <-. exists (TKey KFilter :: u ++ TIdent z :: TKey KWhere :: v ++ []).
    split; [rewrite app_nil_r; norm; reflexivity|]. apply st_filter; [exact TC|exact S|constructor]. }
  destruct q' as [|t q']; [exact (NO H)|]. tok t; try exact (NO H).
  destruct q' as [|t q']; [exact (NO H)|]. tok t; try exact (NO H).
  destruct (orderingTerms (Datatypes.S (length q')) q') as [[o r']|] eqn:O; [|discriminate]. injection H as <- <-.
  destruct (orders_sound _ _ _ _ O) as (w & -> & OS).
  exists (TKey KFilter :: u ++ TIdent z :: TKey KWhere :: v ++ TKey KOrder :: TKey KBy :: w). split; [norm; reflexivity|].
  apply st_filter; [exact TC|exact S|constructor; exact OS].
Qed.

Lemma statement_sound ts s r : filterExpressionStatement ts = Some (s, r) -> ends r = true -> exists u, ts = u ++ r /\ statement_says u s.
Proof.
  unfold filterExpressionStatement. intros H EN.
  assert (OTHER : (let? (e, r) := expression (enough ts) 0 ts in Some (QExpression e, r)) = Some (s, r) ->
                  (forall g q, ts = TGuid g :: q -> ends q = false) -> exists u, ts = u ++ r /\ statement_says u s).
  { clear H. intros H G. destruct (expression (enough ts) 0 ts) as [[e q]|] eqn:E; [|discriminate]. injection H as <- <-.
    destruct (expression_sound _ _ _ E) as (u & -> & S). exists u. split; [reflexivity|]. apply st_expression; [exact S|].
    intros g ->. cbn in G. rewrite (G g q eq_refl) in EN. discriminate. }
  destruct ts as [|t q]; [apply OTHER; [exact H|intros; discriminate]|].
  destruct t as [y|w|f|y|y|y|y|y|y|y|y|y|y]; try (apply OTHER; [exact H|intros; discriminate]).
  - destruct w; try (apply OTHER; [exact H|intros; discriminate]). apply (filter_sound _ _ _ H EN).
  - destruct (ends q) eqn:EQ.
    + injection H as <- <-. exists [TGuid y]. split; [reflexivity|constructor].
    + apply OTHER; [exact H|]. intros g q' X. injection X as <- <-. exact EQ.
  - injection H as <- <-. exists [TMeasurement y]. split; [reflexivity|constructor].
  - injection H as <- <-. exists [TTag y]. split; [reflexivity|constructor].
Qed.

Lemma order_by_closed ots order r : order_by ots order -> ends r = true -> closed_by (ots ++ r).
Proof. intros [|ts l O] E; [apply ends_closed, E|]. repeat split. Qed.

Lemma filter_complete tts top table ts e ots order r : top_clause tts top -> says LLogical ts e -> order_by ots order -> ends r = true ->
  filterStatement (tts ++ TIdent table :: TKey KWhere :: ts ++ ots ++ r) = Some (QFilter top table e order, r).
Proof.
  intros TC S OB EN. unfold filterStatement.
  match goal with |- match ?m with _ => _ end = _ => replace m with (Some (top, TIdent table :: TKey KWhere :: ts ++ ots ++ r)) by (destruct TC; reflexivity) end.
  rewrite (expression_complete _ _ _ S (order_by_closed _ _ _ OB EN)).
  destruct OB as [|us l O]; cbn [app].
  - destruct r as [|t r]; [reflexivity|]. tok t; try discriminate. reflexivity.
  - rewrite (orders_complete _ _ O); [reflexivity|rewrite app_length; lia|exact EN].
Qed.

Lemma statement_complete u s r : statement_says u s -> ends r = true -> filterExpressionStatement (u ++ r) = Some (s, r).
Proof.
  intros H EN. unfold filterExpressionStatement. destruct H as [g|k|n|tts top table ts e ots order TC S OB|ts e S G].
  - cbn [app]. rewrite EN. reflexivity.
  - reflexivity.
  - reflexivity.
  - cbn [app]. norm. apply filter_complete; assumption.
  - rewrite (expression_complete _ _ _ S (ends_closed _ EN)).
    pose proof (says_begins _ _ _ S) as B. pose proof (says_free _ _ _ S) as F.
    destruct ts as [|t ts]; [destruct B|]. cbn [app].
    destruct t as [[]|[]|f|y|y|y|y|y|y|y|y|y|y]; try destruct B; try reflexivity.
    destruct ts as [|t ts]; [destruct (G y eq_refl)|]. cbn [app].
    assert (NS : t <> TSym Semicolon) by (apply F; cbn; auto). tok t; try reflexivity. congruence.
Qed.

Lemma statement_start u s : statement_says u s -> exists t v, u = t :: v /\ t <> TSym Semicolon.
Proof.
  intros [g|k|n|tts top table ts e ots order TC S OB|ts e S G]; try (do 2 eexists; split; [reflexivity|discriminate]).
  pose proof (says_begins _ _ _ S) as B. destruct ts as [|t ts]; [destruct B|]. exists t, ts. split; [reflexivity|].
  intros ->. destruct B.
Qed.

(** ** Lists of statements *)

Lemma semicolons_split : forall r, exists n, r = semis n ++ semicolons r /\ starts (fun t => match t with TSym Semicolon => true | _ => false end) (semicolons r) = false.
Proof.
  induction r as [|t r (n & E & S)]; [exists 0%nat; split; reflexivity|].
  tok t; try (exists 0%nat; split; reflexivity).
  exists (Datatypes.S n). cbn [semicolons semis repeat app]. split; [|exact S]. f_equal. exact E.
Qed.
Lemma semicolons_semis n r : semicolons (semis n ++ r) = semicolons r.
Proof. induction n as [|n IH]; [reflexivity|exact IH]. Qed.
Lemma semicolons_start t r : t <> TSym Semicolon -> semicolons (t :: r) = t :: r.
Proof. intros T. tok t; try reflexivity. congruence. Qed.

Lemma list_sound : forall n ts l, statementList n ts = Some l -> statements_say ts l.
Proof.
  induction n as [|n IH]; intros ts l H; [discriminate|]. cbn [statementList] in H.
  destruct (filterExpressionStatement ts) as [[s r]|] eqn:F; [|discriminate].
  destruct (ends r) eqn:EN.
  - destruct (statement_sound _ _ _ F EN) as (u & -> & S).
    destruct r as [|t r]; [injection H as <-; exact (sts_one u s 0 S)|]. tok t; try discriminate.
    destruct (semicolons_split (TSym Semicolon :: r)) as (k & E & NS).
    destruct k as [|k]; [cbn [semis repeat app] in E; rewrite <- E in NS; discriminate|].
    destruct (semicolons (TSym Semicolon :: r)) as [|t q] eqn:SM.
    + injection H as <-. rewrite E. rewrite app_nil_r. apply sts_one, S.
    + destruct (statementList n (t :: q)) as [l'|] eqn:SL; [|discriminate]. injection H as <-.
      rewrite E. apply sts_more; [exact S|]. apply IH, SL.
  - exfalso. destruct r as [|t r]; [discriminate EN|]. tok t; try discriminate H. discriminate EN.
Qed.
Lemma say_start ts l : statements_say ts l -> exists t v, ts = t :: v /\ t <> TSym Semicolon.
Proof.
  intros [ts' s n S|ts' s n us l' S _]; destruct (statement_start _ _ S) as (t & v & -> & T); exists t; eexists; split; try reflexivity; exact T.
Qed.
Lemma list_complete ts l : statements_say ts l -> forall n, (length ts <= n)%nat -> statementList n ts = Some l.
Proof.
  induction 1 as [ts s k S|ts s k us l S SS IH]; intros n L.
  - destruct (statement_start _ _ S) as (t & v & E & T). rewrite E in L. cbn [app length] in L. destruct n as [|n]; [lia|].
    cbn [statementList]. rewrite (statement_complete _ _ _ S) by (destruct k; reflexivity).
    destruct k as [|k]; [reflexivity|]. cbn [semis repeat].
    replace (semicolons (TSym Semicolon :: repeat (TSym Semicolon) k)) with (@nil token); [reflexivity|].
    change (TSym Semicolon :: repeat (TSym Semicolon) k) with (semis (Datatypes.S k)).
    rewrite <- (app_nil_r (semis (Datatypes.S k))), semicolons_semis. reflexivity.
  - destruct (statement_start _ _ S) as (t & v & E & T). rewrite !app_length in L.
    assert (L' : (length us < n)%nat) by (rewrite E in L; cbn [length] in L; lia). destruct n as [|n]; [lia|].
    cbn [statementList]. rewrite (statement_complete _ _ _ S) by reflexivity.
    rewrite semicolons_semis. cbn [semis repeat app].
    destruct (say_start _ _ SS) as (t' & v' & -> & T'). rewrite (semicolons_start _ _ T'). rewrite IH by lia. reflexivity.
Qed.

Theorem parse_iff ts l : Parse ts = Some l <-> text_says ts l.
Proof.
  unfold Parse. split.
  - intros H. apply list_sound in H. destruct (semicolons_split ts) as (n & E & _). rewrite E. constructor. exact H.
  - intros [n us l' S]. rewrite semicolons_semis. destruct (say_start _ _ S) as (t & v & E & T). rewrite E, (semicolons_start _ _ T), <- E.
    apply (list_complete _ _ S). rewrite app_length. lia.
Qed.
