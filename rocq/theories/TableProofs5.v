(** Proofs about the selection of signal IDs (C79). *)
From Coq Require Import String QArith Permutation Lia ZifyBool ZifyNat.
From Verif Require Import Base GuidModel GuidSpec StrModel NumModel ExprModel StrProofs ExprSpec ExprProofs2 TableModel TableSpec TableProofs TableProofs2 TableProofs3 TableProofs4.
Close Scope Q_scope.
Open Scope Z_scope.

Definition kept_ids (s : fstate) (all : list guid) : Prop :=
  (fs_count s <= 1 /\ fs_idset s = None /\ fs_ids s = all) \/
  (2 <= fs_count s /\ exists set, fs_idset s = Some set /\ NoDup set /\ (forall x, In x set <-> In x all)).

Lemma add_id_kept s g s' all : kept_ids s all -> add_id s g = Ok s' ->
  kept_ids s' (all ++ (if IsZero g then [] else [g])) /\ fs_count s' = fs_count s /\ fs_trees s' = fs_trees s.
Proof.
  intros K. unfold add_id. destruct (IsZero g); [intros [= <-]; rewrite app_nil_r; auto|].
  destruct K as [(K1 & K2 & K3)|(K1 & set & K2 & K4 & K3)].
  - destruct (1 <? fs_count s) eqn:E; [lia|]. intros H; inversion H; subst s'. cbn. repeat split; auto. left. cbn. rewrite K3. auto.
  - destruct (1 <? fs_count s) eqn:E; [|lia]. rewrite K2. unfold set_add. destruct (existsb (Equal g) set) eqn:X; cbn [bind];
      intros H; inversion H; subst s'; cbn; (repeat split; auto); right; cbn; (split; [exact K1|]).
    + exists set. repeat split; auto; intros Hy.
      * apply in_app_iff. left. apply K3. exact Hy.
      * apply in_app_iff in Hy as [Hy|[<-|[]]]; [apply K3; exact Hy|]. apply existsb_exists in X as (z & Hz & X). apply Equal_iff in X. subst. exact Hz.
    + exists (g :: set). repeat split.
      * constructor; [|exact K4]. intros Y. assert (existsb (Equal g) set = true) by (apply existsb_exists; exists g; split; [exact Y|apply Equal_iff; reflexivity]). congruence.
      * intros [<-|Hy]; apply in_app_iff; [right; left; reflexivity|left; apply K3; exact Hy].
      * intros Hy. apply in_app_iff in Hy as [Hy|[<-|[]]]; [right; apply K3; exact Hy|left; reflexivity].
Qed.

Section Ids.
Variables (depth : nat) (D : dlib) (ds : dset) (primary : bytes) (fields : option id_fields).
Hypothesis primary_ok : primary <> [].
Let f := match fields with None => DefaultTableIDFields | Some f => f end.
Let p := new_parser ds primary fields false true.

Lemma ids_fields_get name : map_get (p_fields p) name = if str_eqb primary name then Some (Some f) else None.
Proof.
  unfold p, new_parser. cbn [p_fields]. destruct (0 <? len primary) eqn:E; [reflexivity|].
  pose proof (len_nonempty primary primary_ok). unfold len in *. lia.
Qed.

Lemma addMatched_ids t c s r s' all : ColumnByName D t (f_signal_id f) = Some c -> kept_ids s all ->
  addMatchedRow depth D p t s r (dc_index c) = Ok s' ->
  kept_ids s' (all ++ option_list (table_signal depth D f t r)) /\ fs_count s' = fs_count s /\ fs_trees s' = fs_trees s.
Proof.
  intros Hc K. unfold addMatchedRow, add_row. cbn [p p_track_rows p_track_ids new_parser negb bind].
  unfold table_signal, row_signal, signal_id. rewrite Hc.
  destruct (TypedValue depth D t (row_values r) (dc_index c) DGuid) as [[x|]| |]; cbn [value_or_none bind option_list]; try discriminate;
    try (intros [= <-]; rewrite app_nil_r; auto).
  destruct x; try (intros [= <-]; cbn [option_list]; rewrite app_nil_r; auto).
  intros H. apply (add_id_kept _ _ _ _ K) in H. destruct (IsZero g); exact H.
Qed.

Lemma identifier_ids s x s' all : is_identifier x = true -> kept_ids s all ->
  identifier depth D p s x = Ok s' ->
  kept_ids s' (all ++ option_list (identifier_signal depth D ds primary f x)) /\ fs_count s' = fs_count s /\ fs_trees s' = fs_trees s.
Proof.
  intros Hx K. unfold identifier. cbn [p_track_ids p_track_rows p new_parser negb].
  assert (Z : forall s'', s'' = s -> kept_ids s'' (all ++ option_list None) /\ fs_count s'' = fs_count s /\ fs_trees s'' = fs_trees s).
  { intros s'' ->. cbn [option_list]. rewrite app_nil_r. auto. }
  destruct x; try discriminate Hx; cbn [identifier_signal].
  - destruct (add_id s g) as [s1| |] eqn:E; cbn [bind]; try discriminate. intros [= <-].
    apply (add_id_kept _ _ _ _ K) in E. destruct (IsZero g); exact E.
  - cbn [bind]. change (p_dataset p) with (Some ds). change (p_primary p) with primary. unfold identifier_row. destruct (DataSetTable D ds primary) as [t|]; [|intros [= <-]; apply Z; reflexivity].
    rewrite ids_fields_get, str_eqb_refl.
    destruct (ColumnByName D t (f_signal_id f)) as [c|] eqn:Ec; [|intros [= <-]; apply Z; reflexivity].
    unfold mapMatchedFieldRow, find_text. destruct (ColumnByName D t (f_key f)) as [k|]; [|intros [= <-]; apply Z; reflexivity].
    destruct (map_field_loop _ _ _ _ _ _) as [r| |] eqn:E; cbn [bind]; try discriminate. apply map_field_find in E. rewrite rows_of_live. rewrite <- E.
    destruct r as [r|]; [|intros [= <-]; apply Z; reflexivity]. intros H. eapply addMatched_ids; eassumption.
  - cbn [bind]. change (p_dataset p) with (Some ds). change (p_primary p) with primary. unfold identifier_row. destruct (DataSetTable D ds primary) as [t|]; [|intros [= <-]; apply Z; reflexivity].
    rewrite ids_fields_get, str_eqb_refl.
    destruct (ColumnByName D t (f_signal_id f)) as [c|] eqn:Ec; [|intros [= <-]; apply Z; reflexivity].
    unfold mapMatchedFieldRow, find_text. destruct (ColumnByName D t (f_tag f)) as [k|]; [|intros [= <-]; apply Z; reflexivity].
    destruct (map_field_loop _ _ _ _ _ _) as [r| |] eqn:E; cbn [bind]; try discriminate. apply map_field_find in E. rewrite rows_of_live. rewrite <- E.
    destruct r as [r|]; [|intros [= <-]; apply Z; reflexivity]. intros H. eapply addMatched_ids; eassumption.
Qed.

Definition id_tree_of (x : statement) (e : etree) : Prop :=
  match x with
  | SFilter n table condition order => filter_tree D p n table condition order = Ok e
  | SExpression condition => e = Tree [] (-1) [] condition
  | _ => False
  end.
Definition identifier_signals (l : list statement) : list guid :=
  flat_map (fun x => option_list (identifier_signal depth D ds primary f x)) l.

Lemma identifier_signal_other x : is_identifier x = false -> identifier_signal depth D ds primary f x = None.
Proof.
  intros H. unfold identifier_signal, identifier_row.
  destruct x; try discriminate H; (destruct (DataSetTable D ds primary) as [t|]; [|reflexivity]; destruct (ColumnByName _ _ _); reflexivity).
Qed.

Lemma visit_ids s x s' all : 0 <= fs_count s -> kept_ids s all ->
  visit depth D p s x = Ok s' ->
  kept_ids s' (all ++ option_list (identifier_signal depth D ds primary f x)) /\ fs_count s' = fs_count s + 1 /\
  (if is_identifier x then fs_trees s' = fs_trees s else exists e, id_tree_of x e /\ fs_trees s' = fs_trees s ++ [e]).
Proof.
  intros H0 K. unfold visit. cbn [fs_count].
  set (s1 := if fs_count s + 1 =? 2 then _ else _).
  assert (K1 : kept_ids s1 all /\ fs_count s1 = fs_count s + 1 /\ fs_trees s1 = fs_trees s).
  { unfold s1. destruct (Z.eqb_spec (fs_count s + 1) 2) as [E|E].
    - destruct K as [(K1 & K2 & K3)|(K1 & _)]; [|lia]. unfold initializeSetOperations. cbn [fs_rowset fs_idset fs_rows fs_ids fs_count fs_trees]. rewrite K2. cbn [p p_track_rows p_track_ids new_parser].
      split; [|split; reflexivity]. right. cbn [fs_idset fs_count fs_ids]. split; [lia|].
      destruct (set_of_spec Equal (fs_ids s) Equal_iff) as [N I]. exists (set_of Equal (fs_ids s)). rewrite <- K3. auto.
    - split; [|split; reflexivity]. destruct K as [(K1 & K2 & K3)|(K1 & set & K2 & K3 & K4)].
      + left. cbn. repeat split; auto. lia.
      + right. cbn. split; [lia|]. exists set. auto. }
  destruct K1 as (K1 & K2 & K3). clearbody s1. intros H.
  assert (R : is_identifier x = true -> identifier depth D p s1 x = Ok s' -> kept_ids s' (all ++ option_list (identifier_signal depth D ds primary f x)) /\ fs_count s' = fs_count s + 1 /\ fs_trees s' = fs_trees s).
  { intros Hx Hi. destruct (identifier_ids _ _ _ _ Hx K1 Hi) as (A & B & C). repeat split; congruence. }
  destruct x; cbn [is_identifier] in *; try (apply R; [reflexivity|exact H]).
  - destruct (filter_tree _ _ _ _ _ _) as [e| |] eqn:E; cbn [bind] in H; try discriminate. inversion H; subst s'.
    rewrite identifier_signal_other by reflexivity. cbn [option_list]. rewrite app_nil_r. cbn [add_tree fs_count fs_trees]. repeat split; try congruence.
    + exact K1.
    + exists e. split; [exact E|congruence].
  - inversion H; subst s'. rewrite identifier_signal_other by reflexivity. cbn [option_list]. rewrite app_nil_r. cbn [add_tree fs_count fs_trees]. repeat split; try congruence.
    + exact K1.
    + eexists. split; [reflexivity|congruence].
Qed.

Lemma visit_all_ids l s s' all : 0 <= fs_count s -> kept_ids s all ->
  visit_all depth D p s l = Ok s' ->
  kept_ids s' (all ++ identifier_signals l) /\ fs_count s' = fs_count s + len l /\
  exists trees, Forall2 id_tree_of (filter (fun x => negb (is_identifier x)) l) trees /\ fs_trees s' = fs_trees s ++ trees.
Proof.
  revert s all. induction l as [|x l IH]; intros s all H0 K; cbn [visit_all identifier_signals flat_map filter].
  - intros [= <-]. rewrite app_nil_r. repeat split; [exact K|unfold len; cbn; lia|]. exists []. rewrite app_nil_r. split; [constructor|reflexivity].
  - destruct (visit depth D p s x) as [s1| |] eqn:E; cbn [bind]; try discriminate. intros H.
    apply visit_ids with (all := all) in E; [|assumption|assumption]. destruct E as (K1 & C1 & T1).
    apply IH with (all := all ++ option_list (identifier_signal depth D ds primary f x)) in H; [|lia|exact K1].
    destruct H as (K2 & C2 & trees & F & T2). rewrite <- app_assoc in K2. repeat split.
    + exact K2.
    + rewrite C2, C1. unfold len. cbn [length]. lia.
    + destruct (is_identifier x); cbn [negb].
      * exists trees. split; [exact F|congruence].
      * destruct T1 as (e & Te & T1). exists (e :: trees). split; [constructor; assumption|]. rewrite T2, T1, <- app_assoc. reflexivity.
Qed.

Lemma add_matched_ids t c rows s s' all : ColumnByName D t (f_signal_id f) = Some c -> kept_ids s all ->
  add_matched depth D p t (dc_index c) s rows = Ok s' ->
  kept_ids s' (all ++ flat_map (fun r => option_list (table_signal depth D f t r)) rows) /\ fs_count s' = fs_count s.
Proof.
  intros Hc. revert s all. induction rows as [|r rows IH]; intros s all K; cbn [add_matched flat_map].
  - intros [= <-]. rewrite app_nil_r. auto.
  - destruct (addMatchedRow depth D p t s r (dc_index c)) as [s1| |] eqn:E; cbn [bind]; try discriminate.
    apply (addMatched_ids _ _ _ _ _ all Hc K) in E as (K1 & C1 & _). intros H. apply (IH _ _ K1) in H as [K2 C2].
    rewrite <- app_assoc in K2. split; [exact K2|congruence].
Qed.

Lemma evaluate_tree_ids s x e s' all : kept_ids s all -> id_tree_of x e ->
  (match x with SFilter _ table _ _ => table <> [] | _ => True end) ->
  evaluate_tree depth D p true false s e = Ok s' ->
  exists out, filter_signals depth D ds primary f x out /\ kept_ids s' (all ++ out) /\ fs_count s' = fs_count s.
Proof.
  intros K Tx Nx. unfold evaluate_tree. cbn [p p_primary p_track_ids new_parser]. fold p.
  rewrite (len_nonempty primary primary_ok).
  assert (G : forall t m, (let* i := match map_get (p_fields p) (dt_name t) with
     | Some (Some f0) => let* c := some_or_err (ColumnByName D t (f_signal_id f0)) in Ok (dc_index c) | _ => Err end in add_matched depth D p t i s m) = Ok s' ->
     kept_ids s' (all ++ flat_map (fun r => option_list (table_signal depth D f t r)) m) /\ fs_count s' = fs_count s).
  { intros t m. rewrite ids_fields_get. destruct (str_eqb primary (dt_name t)); [|discriminate].
    destruct (ColumnByName D t (f_signal_id f)) as [c|] eqn:Ec; cbn [some_or_err bind]; [|discriminate].
    apply add_matched_ids; assumption. }
  change (if 0 <? len primary then [(primary, Some (match fields with Some f => f | None => DefaultTableIDFields end))] else []) with (p_fields p).
  destruct x as [g|text|text|n table condition order|condition]; cbn [id_tree_of] in Tx; try contradiction.
  - unfold filter_tree in Tx. unfold parser_table in *. cbn [p p_dataset new_parser] in *.
    destruct (DataSetTable D ds table) as [t|] eqn:Et; cbn [some_or_err bind] in Tx; try discriminate.
    destruct (order_terms D t order) as [terms| |] eqn:Eo; cbn [bind] in Tx; try discriminate. inversion Tx; subst e. clear Tx. cbn [et_table].
    rewrite (len_nonempty table Nx). cbn [bind]. rewrite Et. cbn [some_or_err bind].
    destruct (SelectWhere _ _ _ _ _ _ _) as [m| |] eqn:E; cbn [bind]; try discriminate. intros H.
    apply G in H as [K1 C1]. eexists. split; [constructor; exact Et|].
    apply SelectWhere_hits in E. cbn [et_top et_root et_order] in E. cbv zeta in E. fold (top_value n) in E.
    destruct E as [[E _]|[E _]]; [|discriminate]. rewrite <- E. split; assumption.
  - subst e. cbn [et_table]. change (len [] =? 0) with true. cbn [bind]. unfold parser_table. cbn [p p_dataset new_parser].
    destruct (DataSetTable D ds primary) as [t|] eqn:Et; cbn [some_or_err bind]; try discriminate.
    destruct (SelectWhere _ _ _ _ _ _ _) as [m| |] eqn:E; cbn [bind]; try discriminate. intros H.
    apply G in H as [K1 C1]. eexists. split; [constructor; exact Et|].
    apply SelectWhere_hits in E. cbn [et_top et_root et_order] in E. cbv zeta in E. rewrite top_neg in E by lia.
    destruct E as [[E _]|[E _]]; [|discriminate]. rewrite <- E. split; assumption.
Qed.

Lemma evaluate_trees_ids l trees s s' all : kept_ids s all -> Forall2 id_tree_of l trees -> tables_named l ->
  evaluate_trees depth D p true false s trees = Ok s' ->
  exists outs, Forall2 (filter_signals depth D ds primary f) l outs /\ kept_ids s' (all ++ List.concat outs) /\ fs_count s' = fs_count s.
Proof.
  intros K F. revert s all K. induction F as [|x e l trees Tx F IH]; intros s all K N; cbn [evaluate_trees].
  - intros [= <-]. exists []. cbn [List.concat]. rewrite app_nil_r. repeat split; [constructor|exact K].
  - inversion N as [|? ? N1 N2]; subst. destruct (evaluate_tree depth D p true false s e) as [s1| |] eqn:E; cbn [bind]; try discriminate.
    apply (evaluate_tree_ids _ x _ _ all) in E as (out & R & K1 & C1); try assumption. intros H.
    apply (IH _ _ K1 N2) in H as (outs & Fo & K2 & C2). exists (out :: outs). cbn [List.concat]. rewrite app_assoc.
    repeat split; [|exact K2|congruence]. constructor; [exact R|exact Fo].
Qed.

Lemma SelectSignalIDSet_spec l ids : tables_named l ->
  SelectSignalIDSet depth D ds l primary fields = Ok ids ->
  exists outs, Forall2 (filter_signals depth D ds primary f) (filter (fun x => negb (is_identifier x)) l) outs /\
    NoDup ids /\ forall g, In g ids <-> In g (identifier_signals l ++ List.concat outs).
Proof.
  intros N. unfold SelectSignalIDSet, EvaluateStatements. cbn zeta. cbn [p_dataset p_track_rows p_track_ids new_parser negb andb]. fold p.
  destruct (visit_all depth D p (FState 0 [] None [] None []) l) as [s| |] eqn:E; cbn [recovered bind]; try discriminate.
  apply (visit_all_ids _ _ _ []) in E; [|cbn; lia|left; cbn; repeat split; lia].
  destruct E as (K & C & trees & F & T). cbn [fs_trees fs_count app] in *. rewrite T.
  destruct (evaluate_trees depth D p true false s trees) as [s1| |] eqn:E1; cbn [bind]; try discriminate.
  apply (evaluate_trees_ids (filter (fun x => negb (is_identifier x)) l) _ _ _ _ K F) in E1; [|apply tables_named_filter; exact N].
  destruct E1 as (outs & Fo & K1 & C1). intros H. exists outs. split; [exact Fo|]. revert H.
  unfold initializeSetOperations. cbn [fs_idset p p_track_ids new_parser].
  destruct K1 as [(A & A2 & B)|(A & set & A2 & B1 & B2)].
  - rewrite A2, B. intros [= <-]. apply set_of_spec. apply Equal_iff.
  - rewrite A2. intros [= <-]. split; assumption.
Qed.

(** A FILTER on a table that is not named exactly as the primary table fails. *)
Lemma SelectSignalIDSet_other_table n table condition order t : table <> [] ->
  DataSetTable D ds table = Some t -> dt_name t <> primary ->
  forall ids, SelectSignalIDSet depth D ds [SFilter n table condition order] primary fields <> Ok ids.
Proof.
  intros Nt Et Np ids. unfold SelectSignalIDSet, EvaluateStatements. cbn zeta. cbn [p_dataset p_track_rows p_track_ids new_parser negb andb]. fold p.
  cbn [visit_all visit fs_count]. change (0 + 1 =? 2) with false. cbv iota beta.
  destruct (filter_tree D p n table condition order) as [e| |] eqn:E; cbn [bind recovered]; try discriminate.
  cbn [add_tree fs_trees evaluate_trees app].
  assert (X : forall s, evaluate_tree depth D p true false s e = Err \/ evaluate_tree depth D p true false s e = Panic).
  { intros s. unfold evaluate_tree. cbn [p p_primary p_track_ids new_parser]. fold p.
    change (if 0 <? len primary then [(primary, Some (match fields with Some f => f | None => DefaultTableIDFields end))] else []) with (p_fields p).
    unfold filter_tree in E. unfold parser_table in *. cbn [p p_dataset new_parser] in *. rewrite Et in E. cbn [some_or_err bind] in E.
    destruct (order_terms D t order) as [terms| |]; cbn [bind] in E; try discriminate. inversion E; subst e. cbn [et_table].
    rewrite (len_nonempty table Nt). cbn [bind]. rewrite Et. cbn [some_or_err bind].
    destruct (SelectWhere _ _ _ _ _ _ _) as [m| |]; cbn [bind]; auto.
    rewrite ids_fields_get. replace (str_eqb primary (dt_name t)) with false by (symmetry; apply str_eqb_neq; congruence). auto. }
  match goal with |- context [evaluate_tree depth D p true false ?s0 e] => destruct (X s0) as [Y|Y]; rewrite Y end; discriminate.
Qed.
End Ids.
