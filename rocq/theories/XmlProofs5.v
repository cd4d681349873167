(** The DataSet a document describes. *)
From Coq Require Import Lia ZifyBool ZifyNat String Sorting.Sorted Permutation.
From Verif Require Import Base GuidModel FormatModel StrModel CalModel NumModel ExprModel ExprSpec StrProofs TableModel TableSpec TableProofs3 XmlModel XmlSpec XmlProofs XmlProofs2 XmlProofs3 XmlProofs4.
Open Scope list_scope.
Open Scope Z_scope.

(** ** The nodes of the schema *)
Lemma one_step a x e1 e2 rest : step_match e1 x = Ok true -> select_steps [(a, x)] (e1 :: e2 :: rest) = select_steps (child_refs a 0 (x_children x)) (e2 :: rest).
Proof.
  intros H. change (select_steps [(a, x)] (e1 :: e2 :: rest)) with
    (bind (step_results e1 [(a, x)]) (fun r => match r, e2 :: rest with [], _ | _, [] => Ok r | _, _ => select_steps (flat_map GetChildNodes r) (e2 :: rest) end)).
  cbn [step_results snd]. rewrite H. cbn [bind flat_map]. unfold GetChildNodes. cbn [fst snd]. rewrite app_nil_r. reflexivity.
Qed.
Lemma last_step expr nodes : Forall (fun n => step_match expr (snd n) = Ok true) nodes -> select_steps nodes [expr] = Ok nodes.
Proof.
  intros F. cbn [select_steps]. assert (step_results expr nodes = Ok nodes) as ->.
  { induction F as [|n l H F IH]; [reflexivity|]. cbn [step_results]. rewrite H, IH. reflexivity. }
  cbn [bind]. destruct nodes; reflexivity.
Qed.
Lemma child_refs_snd a : forall l k, map snd (child_refs a k l) = l.
Proof. induction l as [|c l IH]; intros k; [reflexivity|]. cbn [child_refs map snd]. rewrite IH. reflexivity. Qed.
Lemma is_element s at_ i cs : step_match (lit "element") (XElem (lit "element") s at_ i cs) = Ok true. Proof. vm_compute. reflexivity. Qed.
Lemma is_complexType s at_ i cs : step_match (lit "complexType") (XElem (lit "complexType") s at_ i cs) = Ok true. Proof. vm_compute. reflexivity. Qed.
Lemma is_choice s at_ i cs : step_match (lit "choice") (XElem (lit "choice") s at_ i cs) = Ok true. Proof. vm_compute. reflexivity. Qed.
Lemma is_sequence s at_ i cs : step_match (lit "sequence") (XElem (lit "sequence") s at_ i cs) = Ok true. Proof. vm_compute. reflexivity. Qed.
Lemma tables_path : split_byte 47 (lit "element/complexType/choice/element") = [lit "element"; lit "complexType"; lit "choice"; lit "element"]. Proof. vm_compute. reflexivity. Qed.
Lemma fields_path : split_byte 47 (lit "complexType/sequence/element") = [lit "complexType"; lit "sequence"; lit "element"]. Proof. vm_compute. reflexivity. Qed.
Lemma all_elements a (f : nat -> Prop) l : Forall (fun c => exists s at_ i cs, c = XElem (lit "element") s at_ i cs) l -> forall k, Forall (fun n : xref => step_match (lit "element") (snd n) = Ok true) (child_refs a k l).
Proof. induction 1 as [|c l (s & at_ & i & cs & ->) F IH]; intros k; constructor; [apply is_element|apply IH]. Qed.
Lemma document_tables a prefix name tables : exists refs, SelectNodes (a, schema_element prefix name tables) (lit "element/complexType/choice/element") = Ok refs /\
  map snd refs = map (table_element prefix) tables.
Proof.
  unfold SelectNodes. rewrite tables_path. unfold GetChildNodes, schema_element, element. cbn [fst snd x_children child_refs].
  rewrite (one_step _ _ _ _ _ (is_element _ _ _ _)). cbn [x_children child_refs]. rewrite (one_step _ _ _ _ _ (is_complexType _ _ _ _)). cbn [x_children child_refs].
  rewrite (one_step _ _ _ _ _ (is_choice _ _ _ _)). cbn [x_children]. eexists. split; [apply last_step|apply child_refs_snd].
  apply (all_elements _ (fun _ => True)). rewrite List.Forall_forall. intros c H. apply in_map_iff in H as (t & <- & _). unfold table_element, element. eauto 10.
Qed.
Lemma document_fields a prefix t : exists refs, SelectNodes (a, table_element prefix t) (lit "complexType/sequence/element") = Ok refs /\
  map snd refs = map (column_element prefix) (td_columns t).
Proof.
  unfold SelectNodes. rewrite fields_path. unfold GetChildNodes, table_element, element. cbn [fst snd x_children child_refs].
  rewrite (one_step _ _ _ _ _ (is_complexType _ _ _ _)). cbn [x_children child_refs]. rewrite (one_step _ _ _ _ _ (is_sequence _ _ _ _)). cbn [x_children child_refs].
  eexists. split; [apply last_step|apply child_refs_snd].
  apply (all_elements _ (fun _ => True)). rewrite List.Forall_forall. intros c H. apply in_map_iff in H as (((n & ty) & ex) & <- & _). unfold column_element, element. eauto 10.
Qed.

(** ** Attributes *)
Lemma attributes_last e n : map_get (Attributes e) n = last_attr n (x_attrs e).
Proof. unfold Attributes. rewrite attributes_get. destruct (last_attr n (x_attrs e)); reflexivity. Qed.
Definition last_space (n : bytes) (l : list xattr) : option bytes :=
  match find (fun a => str_eqb (at_local a) n) (rev l) with Some a => Some (at_space a) | None => None end.
Lemma spaces_last e n : map_get (AttributeNamespaces e) n = last_space n (x_attrs e).
Proof.
  unfold AttributeNamespaces. assert (G : forall l m, map_get (fold_left (fun m a => map_put m (at_local a) (at_space a)) l m) n = match last_space n l with Some v => Some v | None => map_get m n end).
  { induction l as [|a l IH]; intros m; [reflexivity|]. cbn [fold_left]. rewrite IH. unfold last_space. cbn [rev]. rewrite map_get_put.
    assert (FA : forall (p : xattr -> bool) x y, find p (x ++ y) = match find p x with Some z => Some z | None => find p y end).
    { intros p x y. induction x as [|z x J]; [reflexivity|]. cbn [app find]. destruct (p z); auto. }
    rewrite FA. destruct (find _ (rev l)); [reflexivity|]. cbn [find]. destruct (str_eqb (at_local a) n); reflexivity. }
  rewrite G. destruct (last_space n (x_attrs e)); reflexivity.
Qed.
Lemma attr_text_some e n v : last_attr n (x_attrs e) = Some v -> v <> [] -> attr_text e n = Some v.
Proof. unfold attr_text. rewrite attributes_last. intros -> H. destruct v; [congruence|reflexivity]. Qed.
Lemma attr_text_none e n : last_attr n (x_attrs e) = None -> attr_text e n = None.
Proof. unfold attr_text. rewrite attributes_last. intros ->. reflexivity. Qed.
Lemma ext_text_some e n v : last_attr n (x_attrs e) = Some v -> v <> [] -> last_space n (x_attrs e) = Some msdata -> ext_text e n = v.
Proof. intros H N S. unfold ext_text. rewrite (attr_text_some _ _ _ H N), spaces_last, S. change ExtXmlSchemaDataNamespace with msdata. rewrite str_eqb_refl. reflexivity. Qed.
Lemma ext_text_none e n : last_attr n (x_attrs e) = None -> ext_text e n = [].
Proof. intros H. unfold ext_text. rewrite (attr_text_none _ _ H). reflexivity. Qed.
Lemma TrimPrefix_app p s : TrimPrefix (p ++ s) p = s.
Proof.
  unfold TrimPrefix. replace (HasPrefix (p ++ s) p) with true by (symmetry; apply HasPrefix_spec; eauto).
  rewrite skipn_app, Nat.sub_diag, skipn_all. reflexivity.
Qed.
Lemma xsd_name_parses t : ParseXsdDataType (xsd_name t) (match t with DGuid => lit "System.Guid" | _ => [] end) = Some t.
Proof. destruct t; vm_compute; reflexivity. Qed.
Lemma column_parsed (X : xlib) prefix table n t ex : n <> [] ->
  schema_column X (prefix ++ [58]) table (column_element prefix (n, t, ex)) = Some (newDataColumn n t (column_tree X table ex)).
Proof.
  intros N. set (f := column_element prefix (n, t, ex)).
  assert (A1 : last_attr (lit "name") (x_attrs f) = Some n) by (unfold f; destruct t, ex; reflexivity).
  assert (A2 : last_attr (lit "type") (x_attrs f) = Some (prefix ++ [58] ++ xsd_name t)) by (unfold f; destruct t, ex; reflexivity).
  assert (A3 : ext_text f (lit "DataType") = match t with DGuid => lit "System.Guid" | _ => [] end).
  { unfold f. destruct t; try (apply ext_text_none; destruct ex; reflexivity). apply ext_text_some; [destruct ex; reflexivity|discriminate|destruct ex; reflexivity]. }
  assert (A4 : ext_text f (lit "Expression") = ex).
  { unfold f. destruct ex as [|b r]; [apply ext_text_none; destruct t; reflexivity|]. apply ext_text_some; [destruct t; reflexivity|discriminate|destruct t; reflexivity]. }
  unfold schema_column. rewrite (attr_text_some _ _ _ A1 N), (attr_text_some _ _ _ A2) by (destruct prefix; discriminate).
  rewrite A3, A4. rewrite app_assoc, TrimPrefix_app, xsd_name_parses. destruct ex; reflexivity.
Qed.
Definition column_defs (X : xlib) (t : table_def) : list dcol :=
  map (fun c => newDataColumn (fst (fst c)) (snd (fst c)) (column_tree X (td_name t) (snd c))) (td_columns t).
Lemma table_parsed (X : xlib) prefix a t : td_name t <> [] -> Forall (fun c => fst (fst c) <> []) (td_columns t) ->
  table_from X (prefix ++ [58]) (a, table_element prefix t) = [columns_history X (td_name t) (column_defs X t)].
Proof.
  intros N F. destruct (document_fields a prefix t) as (refs & R1 & R2).
  assert (S : sel (a, table_element prefix t) (lit "complexType/sequence/element") = refs) by (unfold sel; rewrite R1; reflexivity).
  assert (A : attr_text (table_element prefix t) (lit "name") = Some (td_name t)) by (apply attr_text_some; [reflexivity|exact N]).
  unfold table_from. cbn [snd]. rewrite A, S. do 2 f_equal. unfold columns_from, column_defs.
  rewrite flat_map_concat_map. rewrite <- (map_map snd (fun e => option_list (schema_column X (prefix ++ [58]) (td_name t) e))). rewrite R2, map_map, <- flat_map_concat_map.
  clear - F. induction F as [|[[n ty] ex] l H F IH]; [reflexivity|]. cbn [flat_map map fst snd] in *. rewrite column_parsed by exact H. rewrite IH. reflexivity.
Qed.
Lemma schema_parsed (X : xlib) a prefix name tables : Prefix X (schema_element prefix name tables) = prefix -> prefix <> [] ->
  Forall (fun t => td_name t <> [] /\ Forall (fun c => fst (fst c) <> []) (td_columns t)) tables ->
  schema_list X (a, schema_element prefix name tables) = map (fun t => columns_history X (td_name t) (column_defs X t)) tables.
Proof.
  intros P N F. destruct (document_tables a prefix name tables) as (refs & R1 & R2).
  assert (S : sel (a, schema_element prefix name tables) (lit "element/complexType/choice/element") = refs) by (unfold sel; rewrite R1; reflexivity).
  assert (Q : schema_prefix X (schema_element prefix name tables) = prefix ++ [58]) by (unfold schema_prefix; rewrite P; destruct prefix; [congruence|reflexivity]).
  unfold schema_list. cbn [snd]. rewrite S, Q. clear S Q R1 P. revert refs R2. induction F as [|t l (H1 & H2) F IH]; intros refs R2.
  - destruct refs; [reflexivity|discriminate].
  - destruct refs as [|[b e] refs]; [discriminate|]. cbn [map] in R2. injection R2 as E R2. cbn [snd] in E. subst e. cbn [flat_map map]. rewrite table_parsed by assumption. rewrite (IH refs R2). reflexivity.
Qed.
Lemma prefix_found (X : xlib) prefix name tables : ranges X -> good_prefix prefix -> name <> xs -> Prefix X (schema_element prefix name tables) = prefix.
Proof.
  intros R (G1 & G2) N. unfold Prefix. set (e := schema_element prefix name tables). specialize (R (Attributes e)).
  assert (A : forall k v, In (k, v) (Attributes e) -> v = xs -> k = prefix).
  { intros k v H ->. apply nodup_get in H; [|apply attributes_nodup]. rewrite attributes_last in H. unfold last_attr, e in H. cbn [x_attrs schema_element element rev app find at_local at_value] in H.
    destruct (str_eqb (lit "msdata") k) eqn:E1; [discriminate|]. destruct (str_eqb prefix k) eqn:E2; [apply str_eqb_spec in E2; congruence|].
    destruct (str_eqb (lit "id") k); [injection H as H; congruence|discriminate]. }
  assert (B : In (prefix, xs) (Attributes e)).
  { apply map_get_In. rewrite attributes_last. unfold last_attr, e. cbn [x_attrs schema_element element rev app find at_local at_value].
    destruct (str_eqb (lit "msdata") prefix) eqn:E1; [apply str_eqb_spec in E1; congruence|]. rewrite str_eqb_refl. reflexivity. }
  change (x_space e) with xs. destruct (find _ _) as [[k v]|] eqn:Fd.
  - apply find_some in Fd as (F1 & F2). cbn [snd] in F2. apply str_eqb_spec in F2. apply (A k v); [|exact F2]. eapply Permutation_in; [apply Permutation_sym, R|exact F1].
  - exfalso. assert (I : In (prefix, xs) (attr_order X (Attributes e))) by (eapply Permutation_in; [apply R|exact B]).
    pose proof (find_none _ _ Fd _ I) as Q. cbn [snd] in Q. rewrite str_eqb_refl in Q. discriminate.
Qed.

(** ** Records *)
Lemma records_document prefix name tables records table : table <> lit "schema" ->
  records_of (document prefix name tables records) table = map record_element (filter (fun r => str_eqb (fst r) table) records).
Proof.
  intros N. unfold records_of, document, element. cbn [x_children filter]. assert (str_eqb (x_local (schema_element prefix name tables)) table = false) as ->.
  { apply str_eqb_neq. intros E. apply N. symmetry. exact E. }
  induction records as [|r l IH]; [reflexivity|]. cbn [map filter]. change (x_local (record_element r)) with (fst r). destruct (str_eqb (fst r) table); cbn [map]; rewrite IH; reflexivity.
Qed.
Lemma nth_unique {A B} (f : A -> B) l : NoDup (map f l) -> forall i j x y, nth_error l i = Some x -> nth_error l j = Some y -> f x = f y -> i = j.
Proof.
  intros H i j x y Hi Hj E. assert (nth_error (map f l) i = Some (f x)) by (rewrite nth_error_map, Hi; reflexivity).
  assert (nth_error (map f l) j = Some (f y)) by (rewrite nth_error_map, Hj; reflexivity). eapply (proj1 (NoDup_nth_error (map f l))); [exact H| |congruence].
  apply nth_error_Some. congruence.
Qed.
Section Rows.
Variables (X : xlib) (td : table_def).
Hypothesis Hd : NoDup (map (fun c => ToUpper X (fst (fst c))) (td_columns td)).
Let t := columns_history X (td_name td) (column_defs X td).
Lemma def_column i n ty ex : nth_error (td_columns td) i = Some (n, ty, ex) -> Column t (Z.of_nat i) = Some (DCol n ty (column_tree X (td_name td) ex) (Z.of_nat i)).
Proof.
  intros H. destruct (columns_spec X (td_name td) (column_defs X td)) as (_ & C). fold t in C. rewrite C. replace (Z.of_nat i <? 0) with false by lia. rewrite Nat2Z.id.
  unfold column_defs. rewrite nth_error_map, H. reflexivity.
Qed.
Lemma column_def i c : Column t i = Some c -> exists n ty ex, nth_error (td_columns td) (Z.to_nat i) = Some (n, ty, ex) /\ dc_name c = n /\ dc_index c = i /\ 0 <= i.
Proof.
  intros H. destruct (columns_spec X (td_name td) (column_defs X td)) as (_ & C). fold t in C. rewrite C in H. destruct (i <? 0) eqn:E; [discriminate|].
  unfold column_defs in H. rewrite nth_error_map in H. destruct (nth_error (td_columns td) (Z.to_nat i)) as [[[n ty] ex]|]; [|discriminate]. cbn in H. injection H as <-.
  exists n, ty, ex. cbn. split; [reflexivity|]. split; [reflexivity|]. split; [reflexivity|lia].
Qed.
Lemma found_iff i n ty ex name : nth_error (td_columns td) i = Some (n, ty, ex) ->
  match ColumnByName X t name with Some c => dc_index c =? Z.of_nat i | None => false end = str_eqb (ToUpper X name) (ToUpper X n).
Proof.
  intros H. pose proof (def_column i n ty ex H) as D. destruct (ColumnByName X t name) as [c|] eqn:E.
  - apply ColumnByName_spec in E as (E1 & E2 & _). destruct (column_def _ _ E1) as (n' & ty' & ex' & H' & Hn & _ & Hp). unfold same_name in E2.
    destruct (Z.eqb_spec (dc_index c) (Z.of_nat i)) as [Q|Q].
    + symmetry. apply str_eqb_spec. rewrite Q, Nat2Z.id in H'. congruence.
    + symmetry. apply str_eqb_neq. intros G. assert (Z.to_nat (dc_index c) = i); [|lia].
      eapply (nth_unique (fun c => ToUpper X (fst (fst c))) _ Hd); [exact H'|exact H|]. cbn [fst]. congruence.
  - symmetry. apply str_eqb_neq. intros G. pose proof (proj1 (ColumnByName_none X (td_name td) (column_defs X td) name) E _ _ D) as Q. apply Q. unfold same_name. cbn [dc_name]. congruence.
Qed.
Lemma last_for_text i n ty ex fields : nth_error (td_columns td) i = Some (n, ty, ex) ->
  last_for X (td_name td) (column_defs X td) (map (fun f => XElem (fst f) [] [] (snd f) []) fields) (Z.of_nat i) = field_text X fields n.
Proof.
  intros H. induction fields as [|[m v] r IH]; [reflexivity|]. cbn [map last_for field_text fst snd x_local x_inner]. rewrite IH. destruct (field_text X r n); [reflexivity|].
  rewrite <- (found_iff i n ty ex m H). fold t. destruct (ColumnByName X t m) as [c|]; reflexivity.
Qed.
End Rows.
Lemma xml_cell_type (X : xlib) t v : cell_type (xml_cell X t v) = t. Proof. destruct t; reflexivity. Qed.

(** ** The loaded set *)
Lemma added_tables (L : lib) l : NoDup (map (fun t => ToUpper L (dt_name t)) l) -> forall name t,
  DataSetTable L (set_history L (map SetAdd l)) name = Some t <-> In t l /\ same_name L (dt_name t) name.
Proof.
  induction l as [|u l IH] using rev_ind; intros N name t.
  - split; [discriminate|intros ([] & _)].
  - rewrite map_app. cbn [map]. rewrite history_snoc, set_step_table. rewrite map_app in N. cbn [map] in N. 
    assert (N1 : NoDup (map (fun t => ToUpper L (dt_name t)) l)) by (apply NoDup_remove_1 in N; rewrite app_nil_r in N; exact N).
    assert (N2 : ~ In (ToUpper L (dt_name u)) (map (fun t => ToUpper L (dt_name t)) l)) by (apply NoDup_remove_2 in N; rewrite app_nil_r in N; exact N).
    destruct (str_eqb _ _) eqn:E.
    + apply str_eqb_spec in E. split.
      * intros [= ->]. split; [apply in_or_app; right; left; reflexivity|exact E].
      * intros (H & S). apply in_app_or in H as [H|[->|[]]]; [|reflexivity]. exfalso. apply N2. rewrite E, <- S. apply in_map_iff. exists t. auto.
    + apply str_eqb_neq in E. rewrite (IH N1). split.
      * intros (H & S). split; [apply in_or_app; left; exact H|exact S].
      * intros (H & S). apply in_app_or in H as [H|[->|[]]]; [auto|contradiction].
Qed.
Lemma get_related {A B} (R : (bytes * A) -> (bytes * B) -> Prop) l m k : (forall x y, R x y -> fst y = fst x) -> Forall2 R l m ->
  match map_get l k, map_get m k with Some a, Some b => R (k, a) (k, b) | None, None => True | _, _ => False end.
Proof.
  intros HR F. induction F as [|[k1 a] [k2 b] l m H F IH]; [exact I|]. cbn [map_get]. pose proof (HR _ _ H) as E. cbn in E. subst k2.
  destruct (str_eqb k1 k) eqn:Q; [apply str_eqb_spec in Q; subst; exact H|exact IH].
Qed.
Definition row_holds (X : xlib) (td : table_def) (t : dtable) (r : drow) (rec : record_def) : Prop :=
  length (row_values r) = length (td_columns td) /\
  forall i n ty ex, nth_error (td_columns td) i = Some (n, ty, ex) ->
    nth_error (row_values r) i = Some (match ex with [] => option_map (fun v => SCell (xml_cell X ty v)) (field_text X (snd rec) n) | _ => None end) /\
    (ex = [] -> forall depth, TypedValue (S depth) X t (row_values r) (Z.of_nat i) ty = Ok (option_map (xml_cell X ty) (field_text X (snd rec) n))).
Lemma document_loads (X : xlib) prefix name tables records : ranges X -> good_prefix prefix -> prefix <> [] -> name <> xs -> good_tables X tables ->
  exists ds, ParseXml X NewDataSet (Some (document prefix name tables records)) = Ok ds /\
    (forall n t, DataSetTable X ds n = Some t -> exists td, In td tables /\ same_name X (td_name td) n /\ DataSetTable X ds (td_name td) = Some t) /\
    forall td, In td tables -> exists t rows, DataSetTable X ds (td_name td) = Some t /\ dt_name t = td_name td /\ ColumnCount t = len (td_columns td) /\
      (forall i n ty ex, nth_error (td_columns td) i = Some (n, ty, ex) -> Column t (Z.of_nat i) = Some (DCol n ty (column_tree X (td_name td) ex) (Z.of_nat i)) /\
                                                                       ColumnByName X t n = Column t (Z.of_nat i)) /\
      dt_rows t = map Some rows /\ Forall2 (row_holds X td t) rows (filter (fun r => str_eqb (fst r) (td_name td)) records).
Proof.
  intros R G P N (G1 & G2). 
  assert (S : schema_of (document prefix name tables records) = Some (schema_element prefix name tables)) by reflexivity.
  assert (Id : map_get (Attributes (schema_element prefix name tables)) (lit "id") = Some name).
  { rewrite attributes_last. unfold last_attr. cbn [x_attrs schema_element element rev app find at_local at_value].
    change (str_eqb (lit "msdata") (lit "id")) with false. cbv iota. destruct (str_eqb prefix (lit "id")) eqn:E; [apply str_eqb_spec in E; destruct G; congruence|].
    change (str_eqb (lit "id") (lit "id")) with true. reflexivity. }
  destruct (ParseXml_ok X (document prefix name tables records) _ (conj S (conj Id eq_refl))) as ([a s] & ds & E & Ld & F). cbn [snd] in E. subst s.
  assert (SL : schema_list X (a, schema_element prefix name tables) = map (fun t => columns_history X (td_name t) (column_defs X t)) tables).
  { apply schema_parsed; [apply prefix_found; assumption|exact P|]. rewrite List.Forall_forall in *. intros t Ht. destruct (G2 t Ht) as (A1 & _ & _ & A2). auto. }
  rewrite SL in F. clear SL. set (l := map _ tables) in F.
  assert (Nl : NoDup (map (fun t => ToUpper X (dt_name t)) l)).
  { unfold l. rewrite map_map. erewrite map_ext; [exact G1|]. intros td. cbn. rewrite (proj1 (columns_history_name _ _ _)). reflexivity. }
  assert (Fk : forall x y, table_ok X (document prefix name tables records) x y -> fst y = fst x) by (intros x y (cs & rows & _ & Q & _); exact Q).
  exists ds. split; [exact Ld|]. split.
  - intros n t Ht. pose proof (get_related _ _ _ (ToUpper X n) Fk F) as Q. unfold DataSetTable in Ht. rewrite Ht in Q.
    destruct (map_get (set_history X (map SetAdd l)) (ToUpper X n)) as [t0|] eqn:E0; [|contradiction]. apply (added_tables X l Nl n t0) in E0 as (I0 & S0).
    unfold l in I0. apply in_map_iff in I0 as (td & <- & It). rewrite (proj1 (columns_history_name _ _ _)) in S0. exists td. split; [exact It|]. split; [exact S0|].
    unfold DataSetTable. unfold same_name in S0. rewrite S0. exact Ht.
  - intros td It. pose proof (get_related _ _ _ (ToUpper X (td_name td)) Fk F) as Q. set (t0 := columns_history X (td_name td) (column_defs X td)).
    assert (I0 : map_get (set_history X (map SetAdd l)) (ToUpper X (td_name td)) = Some t0).
    { apply (added_tables X l Nl (td_name td) t0). split; [unfold l; apply in_map_iff; exists td; auto|]. unfold t0. rewrite (proj1 (columns_history_name _ _ _)). reflexivity. }
    rewrite I0 in Q. destruct (map_get ds (ToUpper X (td_name td))) as [t|] eqn:Et; [|contradiction]. destruct Q as (cs & rows & E1 & _ & E3 & Rw). cbn [snd] in E1, E3, Rw.
    assert (Nt : dt_name t0 = td_name td) by apply columns_history_name. rewrite Nt in E1, E3, Rw.
    assert (Cc : forall i, Column t i = Column t0 i) by (intros i; rewrite E3; reflexivity).
    assert (Cn : forall n, ColumnByName X t n = ColumnByName X t0 n) by (intros n; rewrite E3; reflexivity).
    rewrite List.Forall_forall in G2. destruct (G2 td It) as (_ & T2 & T3 & _).
    rewrite records_document in Rw by exact T2.
    exists t, rows. split; [exact Et|]. split; [rewrite E3; reflexivity|]. split.
    { unfold ColumnCount. rewrite E3. cbn [dt_columns]. unfold t0. rewrite (proj1 (columns_spec _ _ _)). unfold column_defs, len. rewrite map_length. reflexivity. }
    split.
    { intros i n ty ex Hi. rewrite Cc. split; [apply def_column; exact Hi|]. rewrite Cn. pose proof (def_column X td i n ty ex Hi) as D. fold t0 in D.
      pose proof (found_iff X td T3 i n ty ex n Hi) as Fi. fold t0 in Fi. rewrite str_eqb_refl in Fi.
      destruct (ColumnByName X t0 n) as [c|] eqn:Ec; [|discriminate]. apply Z.eqb_eq in Fi. apply ColumnByName_spec in Ec as (Ec & _). rewrite Fi in Ec. fold t0 in Ec. congruence. }
    split; [rewrite E3; reflexivity|].
    assert (Lc : length cs = length (td_columns td)).
    { pose proof (proj1 (columns_spec X (td_name td) cs)) as Q1. pose proof (proj1 (columns_spec X (td_name td) (column_defs X td))) as Q2. rewrite <- E1 in Q1. fold t0 in Q2.
      unfold column_defs, len in *. rewrite map_length in Q2. lia. }
    assert (LF : forall fs i, last_for X (td_name td) cs fs i = last_for X (td_name td) (column_defs X td) fs i).
    { intros fs i. induction fs as [|f fs IH]; [reflexivity|]. cbn [last_for]. rewrite IH. rewrite <- E1. fold t0. reflexivity. }
    assert (RS : forall r rec, row_ok X (td_name td) cs r (record_element rec) -> row_holds X td t r rec).
    { intros r rec (L & V). split; [congruence|]. intros i n ty ex Hi. pose proof (def_column X td i n ty ex Hi) as D. fold t0 in D.
      rewrite <- E1 in V. specialize (V (Z.of_nat i) _ D). rewrite Nat2Z.id in V.
      assert (V' : nth_error (row_values r) i = Some match ex with [] => option_map (fun v => SCell (xml_cell X ty v)) (field_text X (snd rec) n) | _ :: _ => None end).
      { rewrite V. f_equal. unfold slot_for. cbn [dc_tree dc_type]. destruct ex as [|b ex]; cbn [column_tree]; [|reflexivity].
        rewrite LF. change (x_children (record_element rec)) with (map (fun f : bytes * bytes => XElem (fst f) [] [] (snd f) []) (snd rec)). rewrite (last_for_text X td T3 i n ty [] _ Hi).
        destruct (field_text X (snd rec) n); reflexivity. }
      split; [exact V'|]. intros -> depth. cbn [TypedValue]. unfold validateColumnType. rewrite Cc, D. cbn [dc_type negb andb dc_tree column_tree].
      assert (dtype_eqb ty ty = true) as DE by (destruct ty; reflexivity). rewrite DE. cbn [negb bind dc_tree]. unfold idx. 
      replace (Z.of_nat i <? 0) with false by lia. rewrite Nat2Z.id, V'. cbn [bind].
      destruct (field_text X (snd rec) n) as [v|]; cbn [option_map assert_type]; [|reflexivity]. rewrite xml_cell_type, DE. reflexivity. }
    clear - Rw RS. remember (map record_element _) as q eqn:Q. revert Q. generalize (filter (fun r => str_eqb (fst r) (td_name td)) records) as l'.
    induction Rw as [|r rec rows q H Rw IH]; intros [|rc l'] Q; try discriminate; constructor.
    + apply RS. cbn [map] in Q. injection Q as -> _. exact H.
    + apply IH. cbn [map] in Q. injection Q as _ Q. exact Q.
Qed.
