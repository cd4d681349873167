(** Proofs about a parser that is asked more than once. *)
From Coq Require Import String QArith Permutation Lia ZifyBool ZifyNat.
From Verif Require Import Base BaseProofs GuidModel GuidSpec StrModel NumModel ExprModel StrProofs ExprSpec ExprProofs2 TableModel TableSpec TableProofs TableProofs2 TableProofs3 TableProofs4 TableProofs5 TableProofs7 ParseModel LexModel TextModel ReuseModel ReuseSpec.
Close Scope Q_scope.
Open Scope Z_scope.

(** ** The sets hold what the lists hold *)

Definition rlisted (s : fstate) : Prop :=
  match fs_rowset s with
  | Some set => 2 <= fs_count s /\ forall x, In x (map row_id (fs_rows s)) <-> In x set
  | None => fs_count s <= 1
  end.
Definition ilisted (s : fstate) : Prop :=
  match fs_idset s with
  | Some set => 2 <= fs_count s /\ forall x, In x (fs_ids s) <-> In x set
  | None => fs_count s <= 1
  end.
(** What is tracked is listed. *)
Definition both (p : fparser) (s : fstate) : Prop := (p_track_rows p = true -> rlisted s) /\ (p_track_ids p = true -> ilisted s) /\
  (p_track_rows p = false -> fs_rowset s = None) /\ (p_track_ids p = false -> fs_idset s = None).

Lemma add_row_both p s r s' : both p s -> add_row p s r = Ok s' -> both p s' /\ fs_count s' = fs_count s.
Proof.
  intros (R & I & R0 & I0). unfold add_row. destruct (p_track_rows p) eqn:T; cbn [negb]; [|intros [= <-]; split; [|reflexivity]; unfold both; rewrite T; auto].
  specialize (R eq_refl). unfold rlisted in R. destruct (Z.ltb_spec 1 (fs_count s)) as [C|C].
  - destruct (fs_rowset s) as [set|] eqn:S; cbn [set_add bind]; [|discriminate]. destruct R as (_ & R).
    destruct (existsb (Z.eqb (row_id r)) set) eqn:X; cbn [bind]; intros H; injection H as <-; (split; [|reflexivity]); unfold both, rlisted, ilisted; cbn [fs_count fs_rowset fs_rows fs_ids fs_idset];
      (split; [|split; [exact I|split; [congruence|exact I0]]]); intros _.
    + split; [lia|exact R].
    + split; [lia|]. intros x. rewrite map_app, in_app_iff, R. cbn [map In]. tauto.
  - intros H. injection H as <-. split; [|reflexivity]. unfold both, rlisted, ilisted. cbn [fs_count fs_rowset fs_rows fs_ids fs_idset].
    split; [|split; [exact I|split; [congruence|exact I0]]]. intros _. destruct (fs_rowset s); [lia|exact R].
Qed.
Lemma add_id_both p s g s' : p_track_ids p = true -> both p s -> add_id s g = Ok s' -> both p s' /\ fs_count s' = fs_count s.
Proof.
  intros T (R & I & R0 & I0). unfold add_id. destruct (IsZero g); [intros [= <-]; split; [|reflexivity]; unfold both; auto|].
  specialize (I T). unfold ilisted in I. destruct (Z.ltb_spec 1 (fs_count s)) as [C|C].
  - destruct (fs_idset s) as [set|] eqn:S; cbn [set_add bind]; [|discriminate]. destruct I as (_ & I).
    destruct (existsb (Equal g) set) eqn:X; cbn [bind]; intros H; injection H as <-; (split; [|reflexivity]); unfold both, rlisted, ilisted; cbn [fs_count fs_rowset fs_rows fs_ids fs_idset];
      (split; [exact R|split; [|split; [exact R0|congruence]]]); intros _.
    + split; [lia|exact I].
    + split; [lia|]. intros x. rewrite in_app_iff, I. cbn [In]. tauto.
  - intros H. injection H as <-. split; [|reflexivity]. unfold both, rlisted, ilisted. cbn [fs_count fs_rowset fs_rows fs_ids fs_idset].
    split; [exact R|split; [|split; [exact R0|congruence]]]. intros _. destruct (fs_idset s); [lia|exact I].
Qed.
Lemma matched_both depth D p t s r i s' : both p s -> addMatchedRow depth D p t s r i = Ok s' -> both p s' /\ fs_count s' = fs_count s.
Proof.
  intros B. unfold addMatchedRow. destruct (add_row p s r) as [s1| |] eqn:A; cbn [bind]; try discriminate.
  apply (add_row_both _ _ _ _ B) in A as [B1 C1]. destruct (p_track_ids p) eqn:T; [|intros [= <-]; auto].
  destruct (signal_id depth D t r i) as [[g|]| |]; cbn [bind]; try discriminate; [|intros [= <-]; auto].
  intros H. apply (add_id_both _ _ _ _ T B1) in H as [B2 C2]. split; [exact B2|congruence].
Qed.
Lemma field_both depth D p t s column text i s' : both p s -> mapMatchedFieldRow depth D p t s column text i = Ok s' -> both p s' /\ fs_count s' = fs_count s.
Proof.
  intros B. unfold mapMatchedFieldRow. destruct (ColumnByName D t column); [|intros [= <-]; auto].
  destruct (map_field_loop _ _ _ _ _ _) as [[r|]| |]; cbn [bind]; try discriminate; [|intros [= <-]; auto]. apply matched_both, B.
Qed.
Lemma identifier_both depth D p s x s' : both p s -> identifier depth D p s x = Ok s' -> both p s' /\ fs_count s' = fs_count s.
Proof.
  intros B. unfold identifier.
  destruct (match x with SGuidLiteral g => if p_track_ids p then add_id s g else Ok s | _ => Ok s end) as [s1| |] eqn:E; cbn [bind]; try discriminate.
  assert (X : both p s1 /\ fs_count s1 = fs_count s).
  { destruct x; try (injection E as <-; auto). destruct (p_track_ids p) eqn:T; [exact (add_id_both _ _ _ _ T B E)|injection E as <-; auto]. }
  clear E B. destruct X as [B C]. destruct (match x with SGuidLiteral _ => negb (p_track_rows p) | _ => false end); [intros [= <-]; auto|].
  destruct (p_dataset p) as [ds|]; [|intros [= <-]; auto]. destruct (DataSetTable D ds (p_primary p)) as [t|]; [|intros [= <-]; auto].
  destruct (map_get (p_fields p) (p_primary p)) as [[f|]|]; try (intros [= <-]; auto; fail).
  destruct (ColumnByName D t (f_signal_id f)) as [c|]; [|intros [= <-]; auto].
  destruct x; try (intros [= <-]; auto; fail).
  - destruct (IsZero g); [intros [= <-]; auto|]. destruct (map_guid_loop _ _ _ _ _ _) as [[r|]| |]; cbn [bind]; try discriminate; [|intros [= <-]; auto].
    intros H. apply (add_row_both _ _ _ _ B) in H as [B2 C2]. split; [exact B2|congruence].
  - intros H. apply (field_both _ _ _ _ _ _ _ _ _ B) in H as [B2 C2]. split; [exact B2|congruence].
  - intros H. apply (field_both _ _ _ _ _ _ _ _ _ B) in H as [B2 C2]. split; [exact B2|congruence].
Qed.
Lemma visit_both depth D p s x s' : 0 <= fs_count s -> both p s -> visit depth D p s x = Ok s' -> both p s' /\ fs_count s' = fs_count s + 1.
Proof.
  intros C0 B. unfold visit. cbn [fs_count].
  set (s1 := if fs_count s + 1 =? 2 then _ else _).
  assert (X : both p s1 /\ fs_count s1 = fs_count s + 1).
  { subst s1. destruct B as (R & I & R0 & I0). destruct (Z.eqb_spec (fs_count s + 1) 2) as [E|E].
    - split; [|reflexivity]. unfold both, rlisted, ilisted, initializeSetOperations in *. cbn [fs_count fs_rowset fs_rows fs_ids fs_idset].
      split; [|split; [|split]]; intros T.
      + specialize (R T). destruct (fs_rowset s) as [set|]; [destruct R; lia|]. rewrite T. split; [lia|]. intros y. rewrite (proj2 (set_of_spec Z.eqb (map row_id (fs_rows s)) Z.eqb_eq)). tauto.
      + specialize (I T). destruct (fs_idset s) as [set|]; [destruct I; lia|]. rewrite T. split; [lia|]. intros y. rewrite (proj2 (set_of_spec Equal (fs_ids s) Equal_iff)). tauto.
      + rewrite (R0 T), T. reflexivity.
      + rewrite (I0 T), T. reflexivity.
    - split; [|reflexivity]. unfold both, rlisted, ilisted in *. cbn [fs_count fs_rowset fs_rows fs_ids fs_idset].
      split; [|split; [|split; assumption]]; intros T.
      + specialize (R T). destruct (fs_rowset s) as [set|]; [destruct R; split; [lia|assumption]|lia].
      + specialize (I T). destruct (fs_idset s) as [set|]; [destruct I; split; [lia|assumption]|lia]. }
  clearbody s1. clear B. destruct X as [B C].
  destruct x.
  1-3: intros H; apply (identifier_both _ _ _ _ _ _ B) in H as [B2 C2]; split; [exact B2|congruence].
  - destruct (filter_tree _ _ _ _ _ _) as [e| |]; cbn [bind]; try discriminate. intros H. injection H as <-. split; [exact B|exact C].
  - intros H. injection H as <-. split; [exact B|exact C].
Qed.
Lemma visit_all_both depth D p l : forall s s', 0 <= fs_count s -> both p s -> visit_all depth D p s l = Ok s' -> both p s'.
Proof.
  induction l as [|x l IH]; cbn [visit_all]; intros s s' C B; [intros [= <-]; exact B|].
  destruct (visit depth D p s x) as [s1| |] eqn:E; cbn [bind]; try discriminate. apply (visit_both _ _ _ _ _ _ C B) in E as [B1 C1].
  apply IH; [lia|exact B1].
Qed.
Lemma trees_both depth D p limit sort l : forall s s', both p s -> evaluate_trees depth D p limit sort s l = Ok s' -> both p s'.
Proof.
  assert (R : forall t i rows s s', both p s -> add_matched depth D p t i s rows = Ok s' -> both p s').
  { intros t i. induction rows as [|r rows IH]; cbn [add_matched]; intros s s' B; [intros [= <-]; auto|].
    destruct (addMatchedRow depth D p t s r i) as [s1| |] eqn:A; cbn [bind]; try discriminate.
    apply (matched_both _ _ _ _ _ _ _ _ B) in A as [B1 _]. apply IH, B1. }
  induction l as [|e l IH]; cbn [evaluate_trees]; intros s s' B; [intros [= <-]; auto|].
  destruct (evaluate_tree depth D p limit sort s e) as [s1| |] eqn:A; cbn [bind]; try discriminate.
  apply IH. unfold evaluate_tree in A. repeat (match type of A with bind ?m _ = _ => destruct m; cbn [bind] in A; try discriminate end). eapply R; eassumption.
Qed.
Lemma evaluate_both depth D p l limit sort s : EvaluateStatements depth D p l limit sort = Ok s -> both p s.
Proof.
  unfold EvaluateStatements. destruct (p_dataset p); [|discriminate]. destruct (negb _ && negb _); [discriminate|].
  destruct (visit_all depth D p (FState 0 [] None [] None []) l) as [s1| |] eqn:V; cbn [recovered bind]; try discriminate. intros H.
  apply visit_all_both in V; [|cbn; lia|unfold both, rlisted, ilisted; cbn; repeat split; auto; lia]. eapply trees_both; eassumption.
Qed.

(** ** Histories *)

Lemma history_cons depth D o c a h o2 : history depth D o ((c, a) :: h) o2 -> exists o1, asked depth D o c a o1 /\ history depth D o1 h o2.
Proof. intros H. inversion H; subst. eauto. Qed.
Lemma history_nil depth D o o2 : history depth D o [] o2 -> o2 = o.
Proof. intros H. inversion H; subst. reflexivity. Qed.
Lemma history_app depth D h1 h2 : forall o o2, history depth D o (h1 ++ h2) o2 -> exists o1, history depth D o h1 o1 /\ history depth D o1 h2 o2.
Proof.
  induction h1 as [|[c a] h1 IH]; cbn [app]; intros o o2 H; [exists o; split; [constructor|exact H]|].
  apply history_cons in H as (o1 & H4 & H6). destruct (IH _ _ H6) as (o3 & A & B). exists o3. split; [econstructor; eassumption|exact B].
Qed.

(** A getter changes neither the settings, the text left nor the lists. *)
Lemma getter_same depth D o c a o' : is_getter c -> asked depth D o c a o' ->
  fo_parser o' = fo_parser o /\ fo_left o' = fo_left o /\ fs_rows (fo_state o') = fs_rows (fo_state o) /\ fs_ids (fo_state o') = fs_ids (fo_state o) /\
  fs_trees (fo_state o') = fs_trees (fo_state o) /\ fs_count (fo_state o') = fs_count (fo_state o).
Proof.
  intros G H. destruct c; try destruct G; inversion H as [? ? H0|? ? ? H0]; subst; cbn in H0; try discriminate; injection H0 as <- <-; repeat split; reflexivity.
Qed.

(** The settings after a history that does not parse *)
Definition settings (ds : dset) (primary : bytes) (fields : option id_fields) (rows ids : bool) : fparser := new_parser ds primary fields rows ids.
Lemma quiet_history depth D primary fields l h : forall ds rows ids s o,
  history depth D (FObject (new_parser ds primary fields rows ids) (Some l) s) h o ->
  (forall c a, In (c, a) h -> is_getter c \/ is_setting c) ->
  let '(ds', rows', ids') := set_by h ds rows ids in
  fo_parser o = new_parser ds' primary fields rows' ids' /\ fo_left o = Some l.
Proof.
  induction h as [|[c a] h IH]; intros ds rows ids s o H Q; [apply history_nil in H; subst o; split; reflexivity|]. apply history_cons in H as (o1 & H4 & H6).
  assert (Q' : forall c a, In (c, a) h -> is_getter c \/ is_setting c) by (intros; eapply Q; right; eassumption).
  destruct (Q c a (or_introl eq_refl)) as [G|G].
  - pose proof (getter_same _ _ _ _ _ _ G H4) as (P & L & _). destruct o1 as [p1 l1 s1]. cbn [fo_parser fo_left] in P, L. subst p1 l1.
    specialize (IH _ _ _ _ _ H6 Q'). destruct c; try destruct G; exact IH.
  - destruct c; try destruct G; inversion H4 as [? ? H0|? ? ? H0]; subst; cbn in H0; try discriminate; injection H0 as <- <-; exact (IH _ _ _ _ _ H6 Q').
Qed.

(** Whether the text is left, through a history *)
Lemma left_history depth D h : forall o o', history depth D o h o' -> p_dataset (fo_parser o) <> None ->
  (fo_left o <> None -> fs_trees (fo_state o) = []) ->
  (fo_left o = None \/ parsed h (p_track_rows (fo_parser o)) (p_track_ids (fo_parser o)) -> fo_left o' = None) /\ p_dataset (fo_parser o') <> None.
Proof.
  induction h as [|[c a] h IH]; intros o o' H P T; [apply history_nil in H; subst o'; split; [intros [X|[]]; exact X|exact P]|]. apply history_cons in H as (o1 & H4 & H6).
  assert (X : p_dataset (fo_parser o1) <> None /\ (fo_left o1 <> None -> fs_trees (fo_state o1) = []) /\
              (fo_left o = None \/ parsed ((c, a) :: h) (p_track_rows (fo_parser o)) (p_track_ids (fo_parser o)) ->
               fo_left o1 = None \/ parsed h (p_track_rows (fo_parser o1)) (p_track_ids (fo_parser o1)))).
  { clear IH H6. destruct c; cbn [parsed].
    - (* CTrees *)
      assert (L : fo_left o1 = None /\ fo_parser o1 = fo_parser o).
      { inversion H4 as [? ? H0|? ? ? H0]; subst; cbn [ask] in H0; destruct (fs_trees (fo_state o)) as [|e trees] eqn:E.
        - unfold finish in H0. destruct (let* l := _ in _) in H0; try discriminate; injection H0 as <- <-; split; reflexivity.
        - injection H0 as <- <-. destruct (fo_left o); [exfalso; specialize (T ltac:(discriminate)); discriminate|split; reflexivity].
        - unfold finish in H0. destruct (let* l := _ in _) in H0; try discriminate; injection H0 as <- <-; split; reflexivity.
        - discriminate. }
      destruct L as [L ->]. split; [exact P|]. split; [congruence|]. auto.
    - (* CEvaluate *)
      assert (L : fo_parser o1 = fo_parser o /\ (o1 = o /\ tracks (fo_parser o) = false \/ fo_left o1 = None)).
      { inversion H4 as [? ? H0|? ? ? H0]; subst; cbn [ask] in H0; destruct (p_dataset (fo_parser o)); try contradiction; destruct (tracks (fo_parser o)); cbn [negb] in H0; try discriminate.
        1,3: unfold finish in H0; destruct (let* l := _ in _) in H0; try discriminate; injection H0 as <- <-; split; try reflexivity; right; reflexivity.
        injection H0 as <- <-. split; [reflexivity|left; split; reflexivity]. }
      destruct L as [L [[-> K]|K]].
      + split; [exact P|]. split; [exact T|]. unfold tracks in K. apply Bool.orb_false_iff in K as [K1 K2]. rewrite K1, K2. intuition discriminate.
      + rewrite L. split; [exact P|]. split; [congruence|]. auto.
    - pose proof (getter_same _ _ _ CRows _ _ I H4) as (A & B & _ & _ & C & _). rewrite A, B, C. auto.
    - pose proof (getter_same _ _ _ CRowSet _ _ I H4) as (A & B & _ & _ & C & _). rewrite A, B, C. auto.
    - pose proof (getter_same _ _ _ CIDs _ _ I H4) as (A & B & _ & _ & C & _). rewrite A, B, C. auto.
    - pose proof (getter_same _ _ _ CIDSet _ _ I H4) as (A & B & _ & _ & C & _). rewrite A, B, C. auto.
    - pose proof (getter_same _ _ _ CCount _ _ I H4) as (A & B & _ & _ & C & _). rewrite A, B, C. auto.
    - inversion H4 as [? ? H0|? ? ? H0]; subst; cbn in H0; try discriminate; injection H0 as <- <-. split; [discriminate|]. auto.
    - inversion H4 as [? ? H0|? ? ? H0]; subst; cbn in H0; try discriminate; injection H0 as <- <-. split; [exact P|]. auto. }
  destruct X as (P1 & T1 & X). destruct (IH _ _ H6 P1 T1) as [A B]. split; [|exact B]. intros Y. apply A, X, Y.
Qed.

Lemma evaluate_nothing depth D p limit sort : p_dataset p <> None -> tracks p = true -> EvaluateStatements depth D p [] limit sort = Ok no_results.
Proof.
  intros P T. unfold EvaluateStatements. destruct (p_dataset p); [|contradiction]. unfold tracks in T.
  replace (negb (p_track_rows p) && negb (p_track_ids p)) with false by (destruct (p_track_rows p), (p_track_ids p); cbn in *; congruence).
  reflexivity.
Qed.
Lemma evaluate_again depth D o limit sort a o' : fo_left o = None -> p_dataset (fo_parser o) <> None -> tracks (fo_parser o) = true ->
  asked depth D o (CEvaluate limit sort) a o' -> a = ADone /\ o' = FObject (fo_parser o) None no_results.
Proof.
  intros L P T H. assert (X : ask depth D o (CEvaluate limit sort) = (ADone, FObject (fo_parser o) None no_results, true)).
  { cbn [ask]. unfold next_statements. rewrite T, L. cbn [negb bind]. rewrite evaluate_nothing by assumption. destruct (p_dataset (fo_parser o)); [reflexivity|contradiction]. }
  inversion H as [? ? H0|? ? ? H0]; subst; rewrite X in H0; [|discriminate]. injection H0 as <- <-. split; reflexivity.
Qed.

(** ** Asking for the results *)

Definition same_results (s s' : fstate) : Prop :=
  fs_rows s' = fs_rows s /\ fs_ids s' = fs_ids s /\ fs_count s' = fs_count s /\ fs_trees s' = fs_trees s.
(** The sets, as far as they are made, hold what the lists hold. *)
Definition sets_ok (s : fstate) : Prop :=
  (forall set, fs_rowset s = Some set -> forall i, In i set <-> In i (map row_id (fs_rows s))) /\
  (forall set, fs_idset s = Some set -> forall g, In g set <-> In g (fs_ids s)).
Lemma both_sets p s : both p s -> sets_ok s.
Proof.
  intros (R & I & R0 & I0). split; intros set E x.
  - destruct (p_track_rows p); [|rewrite R0 in E by reflexivity; discriminate]. specialize (R eq_refl). unfold rlisted in R. rewrite E in R. symmetry. apply R.
  - destruct (p_track_ids p); [|rewrite I0 in E by reflexivity; discriminate]. specialize (I eq_refl). unfold ilisted in I. rewrite E in I. symmetry. apply I.
Qed.
Lemma initialize_sets p s : sets_ok s -> sets_ok (initializeSetOperations p s).
Proof.
  intros [R I]. unfold sets_ok, initializeSetOperations. cbn [fs_rowset fs_idset fs_rows fs_ids]. split; intros set E x.
  - destruct (fs_rowset s); [injection E as <-; apply (R _ eq_refl)|]. destruct (p_track_rows p); [|discriminate]. injection E as <-. apply (proj2 (set_of_spec Z.eqb (map row_id (fs_rows s)) Z.eqb_eq)).
  - destruct (fs_idset s); [injection E as <-; apply (I _ eq_refl)|]. destruct (p_track_ids p); [|discriminate]. injection E as <-. apply (proj2 (set_of_spec Equal (fs_ids s) Equal_iff)).
Qed.

Lemma results_stand depth D h : forall o o', history depth D o h o' -> fo_left o = None -> sets_ok (fo_state o) ->
  (forall c a, In (c, a) h -> is_getter c \/ is_setting c \/ c = CTrees) ->
  (forall c a, In (c, a) h -> shows (fs_rows (fo_state o)) (fs_ids (fo_state o)) (fs_count (fo_state o)) (fs_trees (fo_state o)) c a).
Proof.
  induction h as [|[c a] h IH]; intros o o' H L B Q c1 a1 HI; [destruct HI|]. apply history_cons in H as (o1 & H4 & H6).
  assert (X : shows (fs_rows (fo_state o)) (fs_ids (fo_state o)) (fs_count (fo_state o)) (fs_trees (fo_state o)) c a /\ fo_left o1 = None /\ same_results (fo_state o) (fo_state o1) /\ sets_ok (fo_state o1)).
  { assert (SR : same_results (fo_state o) (fo_state o)) by (repeat split).
    destruct (Q c a (or_introl eq_refl)) as [G|[G|G]].
    - pose proof (getter_same _ _ _ _ _ _ G H4) as (A1 & A2 & A3 & A4 & A5 & A6).
      assert (S1 : sets_ok (fo_state o1) /\ shows (fs_rows (fo_state o)) (fs_ids (fo_state o)) (fs_count (fo_state o)) (fs_trees (fo_state o)) c a).
      { destruct c; try destruct G; inversion H4 as [? ? H0|? ? ? H0]; subst; cbn in H0; try discriminate; injection H0 as <- <-; cbn [fo_state shows]; try (split; [exact B|reflexivity]).
        - pose proof (initialize_sets (fo_parser o) _ B) as [R I]. split; [split; [exact R|exact I]|]. eexists. split; [reflexivity|]. exact R.
        - pose proof (initialize_sets (fo_parser o) _ B) as [R I]. split; [split; [exact R|exact I]|]. eexists. split; [reflexivity|]. exact I. }
      destruct S1 as [S1 S2]. split; [exact S2|]. split; [congruence|]. split; [repeat split; assumption|exact S1].
    - destruct c; try destruct G; inversion H4 as [? ? H0|? ? ? H0]; subst; cbn in H0; try discriminate; injection H0 as <- <-; cbn [shows fo_left fo_state]; auto.
    - subst c. inversion H4 as [? ? H0|? ? ? H0]; subst; cbn [ask] in H0; destruct (fs_trees (fo_state o)) as [|e trees] eqn:E; unfold next_statements in H0; rewrite ?L in H0; cbn [bind visit_trees recovered finish] in H0; try discriminate;
        injection H0 as <- <-; cbn [shows fo_left fo_state]; rewrite ?E; auto. }
  destruct X as (X & L1 & (R1 & R2 & R3 & R4) & B1). destruct HI as [HI|HI]; [injection HI as <- <-; exact X|].
  rewrite <- R1, <- R2, <- R3, <- R4. eapply IH; [exact H6|exact L1|exact B1| |exact HI]. intros; eapply Q; right; eassumption.
Qed.

Lemma trees_stand depth D h : forall o o', history depth D o h o' -> fo_left o = None ->
  (forall c a, In (c, a) h -> is_getter c \/ is_setting c \/ c = CTrees) ->
  forall a, In (CTrees, a) h -> a = ATrees (fs_trees (fo_state o)).
Proof.
  induction h as [|[c a] h IH]; intros o o' H L Q a1 HI; [destruct HI|]. apply history_cons in H as (o1 & H4 & H6).
  assert (X : (c = CTrees -> a = ATrees (fs_trees (fo_state o))) /\ fo_left o1 = None /\ fs_trees (fo_state o1) = fs_trees (fo_state o)).
  { destruct (Q c a (or_introl eq_refl)) as [G|[G|G]].
    - pose proof (getter_same _ _ _ _ _ _ G H4) as (A1 & A2 & A3 & A4 & A5 & A6). split; [intros ->; destruct G|]. split; congruence.
    - destruct c; try destruct G; inversion H4 as [? ? H0|? ? ? H0]; subst; cbn in H0; try discriminate; injection H0 as <- <-; (split; [discriminate|]); split; [exact L|reflexivity|exact L|reflexivity].
    - subst c. inversion H4 as [? ? H0|? ? ? H0]; subst; cbn [ask] in H0; destruct (fs_trees (fo_state o)) as [|e trees] eqn:E; unfold next_statements in H0; rewrite ?L in H0; cbn [bind visit_trees recovered finish] in H0; try discriminate;
        injection H0 as <- <-; cbn [fo_left fo_state]; rewrite ?E; auto. }
  destruct X as (X & L1 & T1). destruct HI as [HI|HI]; [injection HI as -> <-; apply X; reflexivity|].
  rewrite <- T1. eapply IH; [exact H6|exact L1| |exact HI]. intros; eapply Q; right; eassumption.
Qed.

(** The answer to Evaluate when the text is left *)
Lemma evaluate_first depth D p l s limit sort a o' : p_dataset p <> None -> tracks p = true ->
  asked depth D (FObject p (Some l) s) (CEvaluate limit sort) a o' ->
  let r := let* l := recovered (listen D p l) in EvaluateStatements depth D p l limit sort in
  a = evaluated r /\ forall s', r = Ok s' -> o' = FObject p None s'.
Proof.
  intros P T H r.
  assert (X : ask depth D (FObject p (Some l) s) (CEvaluate limit sort) = finish (FObject p (Some l) s) r (fun _ => ADone)).
  { cbn [ask fo_parser]. rewrite T. destruct (p_dataset p); [|contradiction]. reflexivity. }
  inversion H as [? ? H0|? ? ? H0]; subst; rewrite X in H0; unfold finish in H0; destruct r; try discriminate; injection H0 as <- <-; (split; [reflexivity|]); intros s'; try discriminate; intros [= <-]; reflexivity.
Qed.
