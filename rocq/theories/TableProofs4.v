(** Proofs about filter expressions of several statements: C63 and the sets of
    signal IDs. *)
From Coq Require Import String QArith Permutation Lia ZifyBool ZifyNat.
From Verif Require Import Base GuidModel GuidSpec StrModel NumModel ExprModel StrProofs ExprSpec ExprProofs2 TableModel TableSpec TableProofs TableProofs2 TableProofs3.
Close Scope Q_scope.
Open Scope Z_scope.

(** ** Distinct rows *)
Lemma existsb_in (x : Z) l : existsb (Z.eqb x) l = true <-> In x l.
Proof. rewrite existsb_exists. split; [intros (y & H & E); apply Z.eqb_eq in E; subst; exact H|intros H; exists x; split; [exact H|apply Z.eqb_refl]]. Qed.
Lemma existsb_notin (x : Z) l : existsb (Z.eqb x) l = false <-> ~ In x l.
Proof. rewrite <- existsb_in. destruct (existsb _ _); split; congruence. Qed.

Lemma distinct_ext seen seen' l : (forall x, In x seen <-> In x seen') -> distinct seen l = distinct seen' l.
Proof.
  revert seen seen'. induction l as [|r l IH]; intros seen seen' H; cbn [distinct]; [reflexivity|].
  replace (existsb (Z.eqb (row_id r)) seen') with (existsb (Z.eqb (row_id r)) seen).
  - destruct (existsb _ _); [apply IH; exact H|]. f_equal. apply IH. intros x. cbn [In]. rewrite H. reflexivity.
  - apply eq_true_iff_eq. rewrite !existsb_in. apply H.
Qed.
Lemma distinct_app seen l k : distinct seen (l ++ k) = distinct seen l ++ distinct (map row_id l ++ seen) k.
Proof.
  revert seen. induction l as [|r l IH]; intros seen; [reflexivity|]. cbn [app distinct map].
  destruct (existsb (Z.eqb (row_id r)) seen) eqn:E.
  - rewrite IH. f_equal. apply distinct_ext. intros x. cbn [In app]. rewrite !in_app_iff. apply existsb_in in E. intuition congruence.
  - cbn [app]. f_equal. rewrite IH. f_equal. apply distinct_ext. intros x. cbn [In app]. rewrite !in_app_iff. cbn [In]. tauto.
Qed.
Lemma distinct_snoc l r : distinct [] (l ++ [r]) = if existsb (Z.eqb (row_id r)) (map row_id l) then distinct [] l else distinct [] l ++ [r].
Proof.
  rewrite distinct_app. cbn [distinct]. rewrite app_nil_r. destruct (existsb _ _); [apply app_nil_r|reflexivity].
Qed.
Lemma distinct_ids seen l x : In x (map row_id (distinct seen l)) <-> In x (map row_id l) /\ ~ In x seen.
Proof.
  revert seen. induction l as [|r l IH]; intros seen; cbn [distinct map In]; [tauto|].
  destruct (existsb (Z.eqb (row_id r)) seen) eqn:E.
  - apply existsb_in in E. rewrite IH. intuition congruence.
  - apply existsb_notin in E. cbn [map In]. rewrite IH. cbn [In]. destruct (Z.eq_dec (row_id r) x); [subst; tauto|tauto].
Qed.
Lemma distinct_nodup seen l : NoDup (map row_id (distinct seen l)).
Proof.
  revert seen. induction l as [|r l IH]; intros seen; cbn [distinct]; [constructor|].
  destruct (existsb _ _); [apply IH|]. cbn [map]. constructor; [|apply IH]. rewrite distinct_ids. cbn [In]. tauto.
Qed.
Lemma distinct_sub seen l r : In r (distinct seen l) -> In r l.
Proof. revert seen. induction l as [|x l IH]; intros seen; cbn [distinct In]; [tauto|]. destruct (existsb _ _); cbn [In]; firstorder. Qed.

(** ** Sets *)
Lemma set_add_spec {A} (eqb : A -> A -> bool) (set : list A) x : (forall a b, eqb a b = true <-> a = b) ->
  exists set', set_add eqb (Some set) x = Ok (Some set', negb (existsb (eqb x) set)) /\ forall y, In y set' <-> In y (set ++ [x]).
Proof.
  intros H. unfold set_add. destruct (existsb (eqb x) set) eqn:E.
  - exists set. split; [reflexivity|]. intros y. rewrite in_app_iff. cbn [In]. apply existsb_exists in E as (z & Hz & E). apply H in E. subst. intuition congruence.
  - exists (x :: set). split; [reflexivity|]. intros y. rewrite in_app_iff. cbn [In]. tauto.
Qed.
Lemma set_of_spec {A} (eqb : A -> A -> bool) (l : list A) : (forall a b, eqb a b = true <-> a = b) ->
  NoDup (set_of eqb l) /\ forall y, In y (set_of eqb l) <-> In y l.
Proof.
  intros H. unfold set_of.
  assert (G : forall s, NoDup s -> NoDup (fold_left (fun s x => if existsb (eqb x) s then s else x :: s) l s) /\
              forall y, In y (fold_left (fun s x => if existsb (eqb x) s then s else x :: s) l s) <-> In y l \/ In y s).
  { induction l as [|x l IH]; intros s Hs; cbn [fold_left In]; [split; [exact Hs|tauto]|].
    destruct (existsb (eqb x) s) eqn:E.
    - destruct (IH s Hs) as [I1 I2]. split; [exact I1|]. intros y. rewrite I2. apply existsb_exists in E as (z & Hz & E). apply H in E. subst. intuition congruence.
    - assert (N : ~ In x s).
      { intros X. assert (existsb (eqb x) s = true) by (apply existsb_exists; exists x; split; [exact X|apply H; reflexivity]). congruence. }
      destruct (IH (x :: s)) as [I1 I2]; [constructor; assumption|]. split; [exact I1|]. intros y. rewrite I2. cbn [In]. tauto. }
  destruct (G [] (NoDup_nil _)) as [G1 G2]. split; [exact G1|]. intros y. rewrite G2. cbn [In]. tauto.
Qed.
Lemma Zeqb_iff (a b : Z) : (a =? b) = true <-> a = b.
Proof. apply Z.eqb_eq. Qed.
Lemma bytes_eqb_iff (a b : bytes) : bytes_eqb a b = true <-> a = b.
Proof.
  rewrite bytes_eqb_lex. pose proof (GuidProofs.lex_eq a b) as H. destruct (lex a b); split; intros X; try congruence; try (apply H; reflexivity); apply H in X; congruence.
Qed.
Lemma Equal_iff (a b : guid) : Equal a b = true <-> a = b.
Proof. apply bytes_eqb_iff. Qed.

(** ** Rows kept by the parser *)
Definition kept (s : fstate) (all : list drow) : Prop :=
  (fs_count s <= 1 /\ fs_rowset s = None /\ fs_rows s = all) \/
  (2 <= fs_count s /\ exists set, fs_rowset s = Some set /\ (forall x, In x set <-> In x (map row_id all)) /\ fs_rows s = distinct [] all).

Lemma add_row_kept p s r s' all : p_track_rows p = true -> kept s all ->
  add_row p s r = Ok s' -> kept s' (all ++ [r]) /\ fs_count s' = fs_count s /\ fs_trees s' = fs_trees s.
Proof.
  intros Hp K. unfold add_row. rewrite Hp. cbn [negb]. destruct K as [(K1 & K2 & K3)|(K1 & set & K2 & K3 & K4)].
  - destruct (1 <? fs_count s) eqn:E; [lia|]. intros H; inversion H; subst s'. cbn. repeat split; auto. left. cbn. rewrite K3. auto.
  - destruct (1 <? fs_count s) eqn:E; [|lia]. rewrite K2.
    destruct (set_add_spec Z.eqb set (row_id r) Zeqb_iff) as (set' & E2 & I2). rewrite E2. cbn [bind].
    intros H; inversion H; subst s'. cbn. repeat split; auto. right. cbn. split; [exact K1|]. exists set'. split; [reflexivity|]. split.
    + intros x. rewrite I2, map_app, !in_app_iff, K3. reflexivity.
    + rewrite distinct_snoc. replace (existsb (Z.eqb (row_id r)) (map row_id all)) with (existsb (Z.eqb (row_id r)) set).
      * rewrite K4. destruct (existsb _ _); reflexivity.
      * apply eq_true_iff_eq. rewrite !existsb_in. apply K3.
Qed.
Lemma add_row_total p s r all : p_track_rows p = true -> kept s all -> exists s', add_row p s r = Ok s'.
Proof.
  intros Hp K. unfold add_row. rewrite Hp. cbn [negb]. destruct K as [(K1 & K2 & K3)|(K1 & set & K2 & K3 & K4)].
  - destruct (1 <? fs_count s) eqn:E; [lia|]. eauto.
  - destruct (1 <? fs_count s) eqn:E; [|lia]. rewrite K2. destruct (set_add_spec Z.eqb set (row_id r) Zeqb_iff) as (set' & E2 & I2). rewrite E2. cbn [bind]. eauto.
Qed.

(** What SelectWhere returns for a filter statement. *)
Lemma SelectWhere_hits depth (D : dlib) e t limit sort out :
  SelectWhere depth D e (Some t) evaluate_predicate limit sort = Ok out ->
  let hits := top (if limit : bool then et_top e else -1) (filter (is_true depth D t (et_root e)) (rows_of t)) in
  (out = hits /\ (hits = [] \/ et_order e = [] \/ sort = false)) \/
  (sort = true /\ et_order e <> [] /\ sort_rows D (row_less depth D t (et_order e)) hits = Ok out).
Proof.
  unfold SelectWhere. destruct (select_loop _ _ _ _ _ _) as [m| |] eqn:E; cbn [bind]; try discriminate.
  apply select_loop_spec in E; [|unfold len; cbn; lia].
  assert (Em : m = top (if limit then et_top e else -1) (filter (is_true depth D t (et_root e)) (rows_of t))).
  { rewrite E. cbn [app]. rewrite rows_of_live. f_equal. apply filter_ext. apply hit_evaluate. }
  rewrite <- Em. cbv zeta. clear E Em.
  destruct (sort && (0 <? len m) && (0 <? len (et_order e))) eqn:E2; intros H.
  - right. split; [destruct sort; [reflexivity|discriminate]|]. split; [|exact H]. intros X. rewrite X in E2. cbn in E2. lia.
  - left. inversion H; subst. split; [reflexivity|].
    unfold len in E2. destruct sort; [|auto]. match goal with |- ?o = [] \/ _ => destruct o end; [auto|]. destruct (et_order e); [auto|cbn in E2; lia].
Qed.

Lemma len_nonempty {A} (l : list A) : l <> [] -> (len l =? 0) = false.
Proof. unfold len. destruct l; [congruence|]. cbn [length]. lia. Qed.

Section Rows.
Variables (depth : nat) (D : dlib) (ds : dset) (primary : bytes) (fields : option id_fields).
Hypothesis primary_ok : primary <> [].
Let f := match fields with None => DefaultTableIDFields | Some f => f end.
Let p := new_parser ds primary fields true false.

Lemma fields_get : map_get (p_fields p) primary = Some (Some f).
Proof.
  unfold p, new_parser. cbn [p_fields]. destruct (0 <? len primary) eqn:E.
  - cbn [map_get]. rewrite str_eqb_refl. reflexivity.
  - pose proof (len_nonempty primary primary_ok). unfold len in *. lia.
Qed.

Lemma map_field_find t i text rows r : map_field_loop depth D t i (ToUpper D text) rows = Ok r ->
  r = find (text_at depth D t i text) (live rows).
Proof.
  induction rows as [|[x|] rows IH]; cbn [map_field_loop live flat_map app find]; [intros [= <-]; reflexivity| |exact IH].
  unfold text_at at 1. destruct (TypedValue depth D t (row_values x) i DString) as [[c|]| |]; cbn [value_or_none bind]; try discriminate; try exact IH.
  destruct c; try exact IH. destruct (str_eqb _ _); [intros [= <-]; reflexivity|exact IH].
Qed.
Lemma map_guid_find t i g rows r : map_guid_loop depth D t i g rows = Ok r ->
  r = find (guid_at depth D t i g) (live rows).
Proof.
  induction rows as [|[x|] rows IH]; cbn [map_guid_loop live flat_map app find]; [intros [= <-]; reflexivity| |exact IH].
  unfold guid_at at 1. unfold signal_id. destruct (TypedValue depth D t (row_values x) i DGuid) as [[c|]| |]; cbn [value_or_none bind]; try discriminate; try exact IH.
  destruct c; try exact IH. destruct (Equal _ _); [intros [= <-]; reflexivity|exact IH].
Qed.

Lemma identifier_kept s x s' all : is_identifier x = true -> kept s all ->
  identifier depth D p s x = Ok s' ->
  kept s' (all ++ option_list (identifier_row depth D ds primary f x)) /\ fs_count s' = fs_count s /\ fs_trees s' = fs_trees s.
Proof.
  intros Hx K. unfold identifier, identifier_row. cbn [p_dataset p p_track_ids p_track_rows p_primary new_parser].
  replace (match x with SGuidLiteral g => if false then add_id s g else Ok s | _ => Ok s end) with (Ok s) by (destruct x; reflexivity).
  cbn [bind]. replace (match x with SGuidLiteral _ => negb true | _ => false end) with false by (destruct x; reflexivity).
  assert (Z : forall s'', s'' = s -> kept s'' (all ++ option_list None) /\ fs_count s'' = fs_count s /\ fs_trees s'' = fs_trees s).
  { intros s'' ->. cbn [option_list]. rewrite app_nil_r. auto. }
  destruct (DataSetTable D ds primary) as [t|]; [|intros [= <-]; apply Z; reflexivity].
  change (if 0 <? len primary then [(primary, Some (match fields with Some f => f | None => DefaultTableIDFields end))] else []) with (p_fields p).
  rewrite fields_get.
  destruct (ColumnByName D t (f_signal_id f)) as [c|]; [|intros [= <-]; apply Z; reflexivity].
  assert (M : forall column text, mapMatchedFieldRow depth D p t s column text (dc_index c) = Ok s' ->
    kept s' (all ++ option_list (find_text depth D t column text)) /\ fs_count s' = fs_count s /\ fs_trees s' = fs_trees s).
  { intros column text. unfold mapMatchedFieldRow, find_text. destruct (ColumnByName D t column) as [k|]; [|intros [= <-]; apply Z; reflexivity].
    destruct (map_field_loop _ _ _ _ _ _) as [r| |] eqn:E; cbn [bind]; try discriminate. apply map_field_find in E. rewrite rows_of_live. rewrite <- E.
    destruct r as [r|]; [|intros [= <-]; apply Z; reflexivity]. unfold addMatchedRow. cbn [p p_track_ids new_parser].
    destruct (add_row _ _ _) as [s1| |] eqn:E1; cbn [bind]; try discriminate. intros [= <-]. eapply add_row_kept; [|exact K|exact E1]. reflexivity. }
  destruct x; try discriminate Hx.
  - destruct (IsZero g); [intros [= <-]; apply Z; reflexivity|].
    destruct (map_guid_loop _ _ _ _ _ _) as [r| |] eqn:E; cbn [bind]; try discriminate. apply map_guid_find in E. rewrite rows_of_live. rewrite <- E.
    destruct r as [r|]; [|intros [= <-]; apply Z; reflexivity]. intros E1. eapply add_row_kept; [|exact K|exact E1]. reflexivity.
  - apply M.
  - apply M.
Qed.

Definition tree_of (x : statement) (e : etree) : Prop :=
  match x with
  | SFilter n table condition order => filter_tree D p n table condition order = Ok e
  | SExpression condition => e = Tree [] (-1) [] condition
  | _ => False
  end.
Definition identifier_rows (l : list statement) : list drow := flat_map (fun x => option_list (identifier_row depth D ds primary f x)) l.

Lemma identifier_row_other x : is_identifier x = false -> identifier_row depth D ds primary f x = None.
Proof. intros H. unfold identifier_row. destruct (DataSetTable D ds primary); [|reflexivity]. destruct (ColumnByName _ _ _); [|reflexivity]. destruct x; discriminate H || reflexivity. Qed.

Lemma visit_kept s x s' all : 0 <= fs_count s -> len all <= fs_count s \/ 2 <= fs_count s -> kept s all ->
  visit depth D p s x = Ok s' ->
  kept s' (all ++ option_list (identifier_row depth D ds primary f x)) /\ fs_count s' = fs_count s + 1 /\
  (if is_identifier x then fs_trees s' = fs_trees s else exists e, tree_of x e /\ fs_trees s' = fs_trees s ++ [e]).
Proof.
  intros H0 Hlen K. unfold visit. cbn [fs_count].
  set (s1 := if fs_count s + 1 =? 2 then _ else _).
  assert (K1 : kept s1 all /\ fs_count s1 = fs_count s + 1 /\ fs_trees s1 = fs_trees s).
  { unfold s1. destruct (Z.eqb_spec (fs_count s + 1) 2) as [E|E].
    - destruct K as [(K1 & K2 & K3)|(K1 & _)]; [|lia]. unfold initializeSetOperations. cbn [fs_rowset fs_idset fs_rows fs_ids fs_count fs_trees]. rewrite K2. cbn [p p_track_rows p_track_ids new_parser].
      split; [|split; reflexivity]. right. cbn [fs_rowset fs_count fs_rows]. split; [lia|].
      destruct (set_of_spec Z.eqb (map row_id (fs_rows s)) Zeqb_iff) as [N I]. exists (set_of Z.eqb (map row_id (fs_rows s))). split; [reflexivity|]. split.
      + rewrite <- K3. exact I.
      + rewrite K3. destruct Hlen as [Hlen|Hlen]; [|lia]. unfold len in Hlen. destruct all as [|r [|r' all]]; [reflexivity|reflexivity|cbn [length] in Hlen; lia].
    - split; [|split; reflexivity]. destruct K as [(K1 & K2 & K3)|(K1 & set & K2 & K3 & K4)].
      + left. cbn. repeat split; auto. lia.
      + right. cbn. split; [lia|]. exists set. auto. }
  destruct K1 as (K1 & K2 & K3). clearbody s1. intros H.
  assert (R : is_identifier x = true -> identifier depth D p s1 x = Ok s' -> kept s' (all ++ option_list (identifier_row depth D ds primary f x)) /\ fs_count s' = fs_count s + 1 /\ fs_trees s' = fs_trees s).
  { intros Hx Hi. destruct (identifier_kept _ _ _ _ Hx K1 Hi) as (A & B & C). repeat split; congruence. }
  destruct x; cbn [is_identifier] in *; try (apply R; [reflexivity|exact H]).
  - destruct (filter_tree _ _ _ _ _ _) as [e| |] eqn:E; cbn [bind] in H; try discriminate. inversion H; subst s'.
    rewrite identifier_row_other by reflexivity. cbn [option_list]. rewrite app_nil_r. cbn [add_tree fs_count fs_trees]. repeat split; try congruence.
    + exact K1.
    + exists e. split; [exact E|congruence].
  - inversion H; subst s'. rewrite identifier_row_other by reflexivity. cbn [option_list]. rewrite app_nil_r. cbn [add_tree fs_count fs_trees]. repeat split; try congruence.
    + exact K1.
    + eexists. split; [reflexivity|congruence].
Qed.

Lemma option_list_len {A} (o : option A) : len (option_list o) <= 1.
Proof. destruct o; cbn; lia. Qed.

Lemma visit_all_kept l s s' all : 0 <= fs_count s -> len all <= fs_count s \/ 2 <= fs_count s -> kept s all ->
  visit_all depth D p s l = Ok s' ->
  kept s' (all ++ identifier_rows l) /\ fs_count s' = fs_count s + len l /\
  exists trees, Forall2 tree_of (filter (fun x => negb (is_identifier x)) l) trees /\ fs_trees s' = fs_trees s ++ trees.
Proof.
  revert s all. induction l as [|x l IH]; intros s all H0 Hlen K; cbn [visit_all identifier_rows flat_map filter].
  - intros [= <-]. rewrite app_nil_r. repeat split; [exact K|unfold len; cbn; lia|]. exists []. rewrite app_nil_r. split; [constructor|reflexivity].
  - destruct (visit depth D p s x) as [s1| |] eqn:E; cbn [bind]; try discriminate. intros H.
    apply visit_kept with (all := all) in E; [|assumption|assumption|assumption]. destruct E as (K1 & C1 & T1).
    apply IH with (all := all ++ option_list (identifier_row depth D ds primary f x)) in H; [|lia| |exact K1].
    2:{ rewrite C1. unfold len in *. rewrite app_length. pose proof (option_list_len (identifier_row depth D ds primary f x)). unfold len in H1. lia. }
    destruct H as (K2 & C2 & trees & F & T2). rewrite <- app_assoc in K2. repeat split.
    + exact K2.
    + rewrite C2, C1. unfold len. cbn [length]. lia.
    + destruct (is_identifier x); cbn [negb].
      * exists trees. split; [exact F|congruence].
      * destruct T1 as (e & Te & T1). exists (e :: trees). split; [constructor; assumption|]. rewrite T2, T1, <- app_assoc. reflexivity.
Qed.

Lemma add_matched_kept t i rows s s' all : kept s all -> add_matched depth D p t i s rows = Ok s' ->
  kept s' (all ++ rows) /\ fs_count s' = fs_count s.
Proof.
  revert s all. induction rows as [|r rows IH]; intros s all K; cbn [add_matched].
  - intros [= <-]. rewrite app_nil_r. auto.
  - unfold addMatchedRow. cbn [p p_track_ids new_parser]. destruct (add_row _ s r) as [s1| |] eqn:E; cbn [bind]; try discriminate.
    apply (add_row_kept _ _ _ _ all) in E as (K1 & C1 & _); [|reflexivity|exact K]. intros H. apply (IH _ _ K1) in H as [K2 C2].
    rewrite <- app_assoc in K2. split; [exact K2|congruence].
Qed.

Hypothesis sort_ok : sorts (go_sort D).

Lemma evaluate_tree_kept s x e s' all : kept s all -> tree_of x e ->
  (match x with SFilter _ table _ _ => table <> [] | _ => True end) ->
  evaluate_tree depth D p true true s e = Ok s' ->
  exists t out, filter_rows depth D ds primary x t out /\ kept s' (all ++ out) /\ fs_count s' = fs_count s.
Proof.
  intros K Tx Nx. unfold evaluate_tree. cbn [p p_primary p_track_ids new_parser]. fold p.
  rewrite (len_nonempty primary primary_ok).
  destruct x as [g|text|text|n table condition order|condition]; cbn [tree_of] in Tx; try contradiction.
  - unfold filter_tree in Tx. unfold parser_table in *. cbn [p p_dataset new_parser] in *.
    destruct (DataSetTable D ds table) as [t|] eqn:Et; cbn [some_or_err bind] in Tx; try discriminate.
    destruct (order_terms D t order) as [terms| |] eqn:Eo; cbn [bind] in Tx; try discriminate. inversion Tx; subst e. clear Tx. cbn [et_table].
    rewrite (len_nonempty table Nx). cbn [bind]. rewrite Et. cbn [some_or_err bind].
    destruct (SelectWhere _ _ _ _ _ _ _) as [m| |] eqn:E; cbn [bind]; try discriminate. intros H.
    apply (add_matched_kept _ _ _ _ _ _ K) in H as [K1 C1]. exists t, m. repeat split; try assumption.
    apply SelectWhere_hits in E. cbn [et_top et_root et_order] in E. cbv zeta in E. fold (top_value n) in E.
    assert (Ot : order = [] -> terms = []) by (intros ->; cbn in Eo; congruence).
    assert (P : Permutation (top (top_value n) (filter (is_true depth D t condition) (rows_of t))) m).
    { destruct E as [[-> _]|(_ & _ & E)]; [reflexivity|]. eapply sort_rows_permutation; eassumption. }
    eapply (filter_rows_filter depth D ds primary n table condition order t terms m); try assumption.
    + intros Ho. specialize (Ot Ho). destruct E as [[-> _]|(_ & E & _)]; [reflexivity|contradiction].
    + intros Hf. destruct E as [[-> [E|[E|E]]]|(_ & _ & E)]; [| |discriminate|].
      * rewrite E. intros l1 a l2 b l3 X. destruct l1; discriminate X.
      * rewrite E. intros l1 a l2 b l3 X. reflexivity.
      * destruct (sort_rows_sorted depth D t terms _ sort_ok Hf) as (o & Ho & _ & S). rewrite Ho in E. inversion E; subst. exact S.
  - subst e. cbn [et_table]. change (len [] =? 0) with true. cbn [bind]. unfold parser_table. cbn [p p_dataset new_parser].
    destruct (DataSetTable D ds primary) as [t|] eqn:Et; cbn [some_or_err bind]; try discriminate.
    destruct (SelectWhere _ _ _ _ _ _ _) as [m| |] eqn:E; cbn [bind]; try discriminate. intros H.
    apply (add_matched_kept _ _ _ _ _ _ K) in H as [K1 C1]. exists t, m. repeat split; try assumption.
    apply SelectWhere_hits in E. cbn [et_top et_root et_order] in E. cbv zeta in E. rewrite top_neg in E by lia.
    destruct E as [[-> _]|(_ & E & _)]; [constructor; exact Et|contradiction].
Qed.

Definition tables_named (l : list statement) : Prop :=
  Forall (fun x => match x with SFilter _ table _ _ => table <> [] | _ => True end) l.

Lemma evaluate_trees_kept l trees s s' all : kept s all -> Forall2 tree_of l trees -> tables_named l ->
  evaluate_trees depth D p true true s trees = Ok s' ->
  exists outs, Forall2 (fun x out => exists t, filter_rows depth D ds primary x t out) l outs /\ kept s' (all ++ List.concat outs) /\ fs_count s' = fs_count s.
Proof.
  intros K F. revert s all K. induction F as [|x e l trees Tx F IH]; intros s all K N; cbn [evaluate_trees].
  - intros [= <-]. exists []. cbn [List.concat]. rewrite app_nil_r. repeat split; [constructor|exact K].
  - inversion N as [|? ? N1 N2]; subst. destruct (evaluate_tree depth D p true true s e) as [s1| |] eqn:E; cbn [bind]; try discriminate.
    apply (evaluate_tree_kept _ x _ _ all) in E as (t & out & R & K1 & C1); try assumption. intros H.
    apply (IH _ _ K1 N2) in H as (outs & Fo & K2 & C2). exists (out :: outs). cbn [List.concat]. rewrite app_assoc.
    repeat split; [|exact K2|congruence]. constructor; [exists t; exact R|exact Fo].
Qed.

Lemma tables_named_filter l g : tables_named l -> tables_named (filter g l).
Proof. unfold tables_named. rewrite !List.Forall_forall. intros H x Hx. apply filter_In in Hx as [Hx _]. apply H. exact Hx. Qed.

Lemma SelectDataRows_spec l rows : tables_named l ->
  SelectDataRows depth D ds l primary fields = Ok rows ->
  exists outs, Forall2 (fun x out => exists t, filter_rows depth D ds primary x t out) (filter (fun x => negb (is_identifier x)) l) outs /\ rows = (if 2 <=? len l then distinct [] else fun r => r) (identifier_rows l ++ List.concat outs).
Proof.
  intros N. unfold SelectDataRows, EvaluateStatements. fold p. cbn [p p_dataset p_track_rows p_track_ids new_parser]. fold p. cbn [negb andb].
  destruct (visit_all depth D p (FState 0 [] None [] None []) l) as [s| |] eqn:E; cbn [recovered bind]; try discriminate.
  apply (visit_all_kept _ _ _ []) in E; [|cbn; lia|left; cbn; lia|left; cbn; repeat split; lia].
  destruct E as (K & C & trees & F & T). cbn [fs_trees fs_count app] in *. rewrite T.
  destruct (evaluate_trees depth D p true true s trees) as [s1| |] eqn:E1; cbn [bind]; try discriminate.
  apply (evaluate_trees_kept (filter (fun x => negb (is_identifier x)) l) _ _ _ _ K F) in E1; [|apply tables_named_filter; exact N].
  destruct E1 as (outs & Fo & K1 & C1). intros [= <-]. exists outs. split; [exact Fo|].
  destruct K1 as [(A & _ & B)|(A & set & _ & _ & B)].
  - destruct (2 <=? len l) eqn:X; [lia|exact B].
  - destruct (2 <=? len l) eqn:X; [exact B|lia].
Qed.
End Rows.
