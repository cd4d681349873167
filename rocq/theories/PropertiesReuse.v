(** C136: a filter expression parser may be asked more than once. *)
From Coq Require Import String Lia.
From Verif Require Import Base GuidModel StrModel ExprModel TableModel TableSpec PropertiesTable ParseModel LexModel TextModel ReuseModel ReuseSpec ReuseProofs.
Open Scope list_scope.
Open Scope Z_scope.

(** The first Evaluate, whatever results were looked at and whatever settings were
    changed before, answers as the functions that select at once do, for the data set
    and the tracking set last. *)
Theorem C136_first_partial : forall depth (D : dlib) ds text primary fields o0 h o,
  NewParserForDataSet ds text primary fields = Some (Ok o0) ->
  history depth D o0 h o -> (forall c a, In (c, a) h -> is_getter c \/ is_setting c) ->
  forall ds',
  (set_by h ds true false = (ds', true, false) ->
     (forall a b o', history depth D o [(CEvaluate true true, a); (CRows, b)] o' ->
        exists r, SelectDataRowsText depth D ds' text primary fields = Some r /\ a = evaluated r /\ forall l, r = Ok l -> b = ARows l) /\
     (forall a b o', history depth D o [(CEvaluate true false, a); (CRowSet, b)] o' ->
        exists r, SelectDataRowSetText depth D ds' text primary fields = Some r /\ a = evaluated r /\ forall l, r = Ok l -> b = ARowSet (Some l))) /\
  (set_by h ds true false = (ds', false, true) ->
     forall a b o', history depth D o [(CEvaluate true false, a); (CIDSet, b)] o' ->
        exists r, SelectSignalIDSetText depth D ds' text primary fields = Some r /\ a = evaluated r /\ forall l, r = Ok l -> b = AIDSet (Some l)).
Proof.
  intros depth D ds text primary fields o0 h o N H Q ds'. unfold NewParserForDataSet in N. destruct text as [|c0 text]; [discriminate|]. set (tx := c0 :: text) in *.
  destruct (statements_of tx) as [[l| |]|] eqn:ST; try discriminate. injection N as <-.
  pose proof (quiet_history _ _ _ _ _ _ _ _ _ _ _ H Q) as K.
  assert (TX : forall A p (k : list statement -> res A), select_text tx D p k = Some (let* l := recovered (listen D p l) in k l)).
  { intros A p k. unfold select_text, parse_text. rewrite ST. reflexivity. }
  assert (AS : forall c b x y, asked depth D x c b y -> is_getter c -> b = fst (fst (ask depth D x c))).
  { intros c b x y X G. inversion X as [? ? H0|? ? ? H0]; subst; rewrite H0; reflexivity. }
  split; [intros SB; split|intros SB]; rewrite SB in K; destruct K as [P L]; destruct o as [p lf s]; cbn [fo_parser fo_left] in P, L; subst p lf; intros a b o' X;
    apply history_cons in X as (o1 & X1 & X2); apply history_cons in X2 as (o2 & X2 & _).
  - apply evaluate_first in X1; [|discriminate|reflexivity]. destruct X1 as [X1 X3]. unfold SelectDataRowsText. rewrite TX. eexists. split; [reflexivity|].
    apply AS in X2; [|exact I]. unfold SelectDataRows. destruct (recovered (listen _ _ _)) as [l1| |]; cbn [bind] in *; try (split; [exact X1|discriminate]).
    destruct (EvaluateStatements _ _ _ _ _ _) as [s1| |]; cbn [bind evaluated] in *; split; try exact X1; try discriminate. intros l2 [= <-]. rewrite (X3 _ eq_refl) in X2. exact X2.
  - apply evaluate_first in X1; [|discriminate|reflexivity]. destruct X1 as [X1 X3]. unfold SelectDataRowSetText. rewrite TX. eexists. split; [reflexivity|].
    apply AS in X2; [|exact I]. unfold SelectDataRowSet. destruct (recovered (listen _ _ _)) as [l1| |]; cbn [bind] in *; try (split; [exact X1|discriminate]).
    destruct (EvaluateStatements _ _ _ _ _ _) as [s1| |]; cbn [bind evaluated] in *; try (split; [exact X1|discriminate]).
    rewrite (X3 _ eq_refl) in X2. cbn [ask fst fo_parser fo_state] in X2. subst b. destruct (fs_rowset (initializeSetOperations _ s1)) as [set|] eqn:E; cbn [evaluated]; (split; [exact X1|]); intros l2 [= <-]; [reflexivity|].
    unfold initializeSetOperations in E. cbn [fs_rowset new_parser p_track_rows] in E. destruct (fs_rowset s1); discriminate.
  - apply evaluate_first in X1; [|discriminate|reflexivity]. destruct X1 as [X1 X3]. unfold SelectSignalIDSetText. rewrite TX. eexists. split; [reflexivity|].
    apply AS in X2; [|exact I]. unfold SelectSignalIDSet. destruct (recovered (listen _ _ _)) as [l1| |]; cbn [bind] in *; try (split; [exact X1|discriminate]).
    destruct (EvaluateStatements _ _ _ _ _ _) as [s1| |]; cbn [bind evaluated] in *; try (split; [exact X1|discriminate]).
    rewrite (X3 _ eq_refl) in X2. cbn [ask fst fo_parser fo_state] in X2. subst b. destruct (fs_idset (initializeSetOperations _ s1)) as [set|] eqn:E; cbn [evaluated]; (split; [exact X1|]); intros l2 [= <-]; [reflexivity|].
    unfold initializeSetOperations in E. cbn [fs_idset new_parser p_track_ids] in E. destruct (fs_idset s1); discriminate.
Qed.

(** The results of an Evaluate that succeeded stand until the next Evaluate: every
    later answer shows the same rows, signal IDs, trees and number of statements, and
    the sets hold exactly what the lists hold. *)
Theorem C136_results_stand : forall depth (D : dlib) o limit sort o1 h o2,
  history depth D o [(CEvaluate limit sort, ADone)] o1 -> history depth D o1 h o2 ->
  (forall c a, In (c, a) h -> is_getter c \/ is_setting c \/ c = CTrees) ->
  exists rows signals count trees, forall c a, In (c, a) h -> shows rows signals count trees c a.
Proof.
  intros depth D o limit sort o1 h o2 E H Q. apply history_cons in E as (o3 & E & N). apply history_nil in N. subst o3.
  assert (X : fo_left o1 = None /\ sets_ok (fo_state o1)).
  { inversion E as [? ? H0|? ? ? H0]; subst; cbn [ask] in H0; destruct (p_dataset _); try discriminate; destruct (negb _); try discriminate; unfold finish in H0;
      destruct (next_statements D o) as [l| |]; cbn [bind] in H0; try discriminate; destruct (EvaluateStatements _ _ _ _ _ _) as [st| |] eqn:V; try discriminate.
    injection H0 as <-. split; [reflexivity|]. eapply both_sets, evaluate_both, V. }
  destruct X as [L S]. do 4 eexists. eapply results_stand; eassumption.
Qed.
(** ExpressionTrees answers the same each time, until an Evaluate. *)
Theorem C136_trees_stand : forall depth (D : dlib) o l o1 h o2,
  (fo_left o <> None -> fs_trees (fo_state o) = []) ->
  history depth D o [(CTrees, ATrees l)] o1 -> history depth D o1 h o2 ->
  (forall c a, In (c, a) h -> is_getter c \/ is_setting c \/ c = CTrees) ->
  forall a, In (CTrees, a) h -> a = ATrees l.
Proof.
  intros depth D o l o1 h o2 T E H Q. apply history_cons in E as (o3 & E & N). apply history_nil in N. subst o3.
  assert (X : fo_left o1 = None /\ fs_trees (fo_state o1) = l).
  { inversion E as [? ? H0|? ? ? H0]; subst; cbn [ask] in H0; destruct (fs_trees (fo_state o)) as [|e trees] eqn:F; try discriminate.
    - unfold finish in H0. destruct (let* l := _ in _) as [st| |] in H0; try discriminate. injection H0 as <- <-. split; reflexivity.
    - injection H0 as <- <-. split; [|exact F]. destruct (fo_left o); [|reflexivity]. specialize (T ltac:(discriminate)). discriminate.
    - unfold finish in H0. destruct (let* l := _ in _) as [st| |] in H0; try discriminate. }
  destruct X as [L <-]. eapply trees_stand; eassumption.
Qed.

(** The property fails: once the text has been parsed, by ExpressionTrees or by an
    Evaluate, every further Evaluate succeeds and selects nothing, whatever the text, the
    data set and the tracking are. *)
Theorem C136_again_refuted : forall depth (D : dlib) ds text primary fields o0 h o,
  NewParserForDataSet ds text primary fields = Some (Ok o0) ->
  history depth D o0 h o -> parsed h true false ->
  forall ds' rows ids, (rows = true \/ ids = true) ->
  forall limit sort a h' o', history depth D o ((CDataSet ds', ADone) :: (CTrack rows ids, ADone) :: (CEvaluate limit sort, a) :: h') o' ->
  a = ADone /\
  forall b, (In (CRows, b) (firstn 1 h') -> b = ARows []) /\ (In (CIDs, b) (firstn 1 h') -> b = AIDs []) /\
            (In (CCount, b) (firstn 1 h') -> b = ACount 0) /\ (In (CTrees, b) (firstn 1 h') -> b = ATrees []).
Proof.
  intros depth D ds text primary fields o0 h o N H P ds' rows ids TR limit sort a h' o' X. unfold NewParserForDataSet in N. destruct text as [|c0 text]; [discriminate|].
  destruct (statements_of (c0 :: text)) as [[l| |]|] eqn:ST; try discriminate. injection N as <-.
  destruct (left_history _ _ _ _ _ H) as [L _]; [discriminate|reflexivity|]. cbn [fo_parser new_parser p_track_rows p_track_ids fo_left] in L. specialize (L (or_intror P)).
  apply history_cons in X as (o1 & X1 & X). inversion X1 as [? ? H0|? ? ? H0]; subst; cbn in H0; try discriminate; injection H0 as <-.
  apply history_cons in X as (o1 & X2 & X). inversion X2 as [? ? H0|? ? ? H0]; subst; cbn in H0; try discriminate; injection H0 as <-.
  apply history_cons in X as (o1 & X3 & X). apply evaluate_again in X3; [|exact L|discriminate|unfold tracks; cbn; destruct TR as [->| ->]; [reflexivity|apply Bool.orb_true_r]].
  destruct X3 as [-> ->]. split; [reflexivity|]. intros b. destruct h' as [|[c b'] h']; [cbn; tauto|]. cbn [firstn In].
  apply history_cons in X as (o1 & X4 & _).
  repeat split; intros [E|[]]; injection E as -> ->; inversion X4 as [? ? H0|? ? ? H0]; subst; cbn in H0; try discriminate; injection H0 as <- <-; reflexivity.
Qed.

(** A parser over four points: what is asked and what is told *)
Definition example_parser (text : string) : fobject :=
  match NewParserForDataSet example_set (lit text) (lit "Points") None with Some (Ok o) => o | _ => FObject (new_parser example_set [] None true false) None no_results end.
Fixpoint told (o : fobject) (l : list fcall) : list fanswer :=
  match l with [] => [] | c :: l => let '(a, o', known) := ask 3 example_dlib o c in if known : bool then a :: told o' l else [a] end.
Definition brief (a : fanswer) : list Z :=
  match a with ARows l => map row_id l | ARowSet (Some l) => l | ACount n => [n] | ATrees l => [len l] | ADone => [100] | AFailed => [-1] | _ => [] end.
Definition briefly (text : string) (l : list fcall) : list (list Z) := map brief (told (example_parser text) l).

(** Rows the first time, none the second; and none after a look at the trees. *)
Example C136_again_example :
  briefly "FILTER Points WHERE PointTag LIKE 'PMU%'" [CEvaluate true true; CRows; CRowSet; CTrees; CCount; CEvaluate true true; CRows; CRowSet; CTrees; CCount] =
    [[100]; [1; 2; 3]; [3; 2; 1]; [1]; [1]; [100]; []; []; [0]; [0]] /\
  briefly "FILTER Points WHERE PointTag LIKE 'PMU%'" [CTrees; CEvaluate true true; CRows] = [[1]; [100]; []].
Proof. split; reflexivity. Qed.
(** These calls and answers are a history, so the theorems speak of it. *)
Lemma told_history o c a o' h o2 : ask 3 example_dlib o c = (a, o', true) -> history 3 example_dlib o' h o2 -> history 3 example_dlib o ((c, a) :: h) o2.
Proof. intros A H. econstructor; [left; exact A|exact H]. Qed.
Example C136_nonvacuous :
  NewParserForDataSet example_set (lit "FILTER Points WHERE PointTag LIKE 'PMU%'") (lit "Points") None = Some (Ok (example_parser "FILTER Points WHERE PointTag LIKE 'PMU%'")) /\
  exists l o, map row_id l = [1; 2; 3] /\
    history 3 example_dlib (example_parser "FILTER Points WHERE PointTag LIKE 'PMU%'")
      [(CRows, ARows []); (CDataSet example_set, ADone); (CEvaluate true true, ADone); (CRows, ARows l); (CTrack true true, ADone); (CEvaluate true true, ADone); (CRows, ARows [])] o.
Proof.
  split; [reflexivity|]. eexists. eexists. split; [|repeat (eapply told_history; [reflexivity|]); constructor]. reflexivity.
Qed.

(** The set need not hold what the list holds when it was asked for before the text was
    parsed: ExpressionTrees does not empty it, and does not fill it. *)
Theorem C136_set_refuted :
  briefly "'00000000-0000-0000-0000-000000000002'; FILTER Points WHERE True" [CTrees; CRows; CRowSet] = [[1]; [2]; [2]] /\
  briefly "'00000000-0000-0000-0000-000000000002'; FILTER Points WHERE True" [CRowSet; CTrees; CRows; CRowSet] = [[]; [1]; [2]; []].
Proof. split; reflexivity. Qed.

Print Assumptions C136_first_partial.
Print Assumptions C136_results_stand.
Print Assumptions C136_trees_stand.
Print Assumptions C136_again_refuted.
Print Assumptions C136_set_refuted.
