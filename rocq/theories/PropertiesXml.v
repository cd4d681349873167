(** XML documents and the DataSets loaded from them (C67, C68, C83, C84).
    [X] stands for the behaviour of other packages. *)
From Coq Require Import Lia ZifyBool ZifyNat String Sorting.Sorted Permutation.
From Verif Require Import Base GuidModel GuidSpec FormatModel StrModel CalModel NumModel ExprModel ExprSpec StrProofs
  TableModel TableSpec TableProofs3 XmlModel XmlSpec XmlProofs XmlProofs2 XmlProofs3 XmlProofs4 XmlProofs5 XmlProofs6 PropertiesExpr PropertiesTable.
Open Scope list_scope.
Open Scope Z_scope.

(** A document for the examples: [<r><a n="1"><b>x</b></a><c/><a n="2"/></r>] *)
Definition at_n (v : string) : list xattr := [XAttr (lit "n") [] (lit v)].
Definition leaf (n : string) (v : string) : xelem := XElem (lit n) [] [] (lit v) [].
Definition example_xml : xelem :=
  XElem (lit "r") [] [] [] [XElem (lit "a") [] (at_n "1") (lit "<b>x</b>") [leaf "b" "x"]; leaf "c" ""; XElem (lit "a") [] (at_n "2") [] []].

(** ** C67: selection *)

(** A path of names, wildcards and conditions selects exactly the descendants
    it leads to, each once and in document order.  Missing: the conditions and
    paths of the theorems below that do not behave. *)
Theorem C67_selection_partial : forall a e steps, steps <> [] -> Forall good_step steps ->
  exists r, SelectNodes (a, e) (path_text steps) = Ok r /\
    StronglySorted (fun x y => doc_before (fst x) (fst y)) r /\ NoDup r /\
    forall b f, In (b, f) r <-> leads a e steps b f.
Proof. exact SelectNodes_spec. Qed.
Print Assumptions C67_selection_partial.

(** No path panics unless it has an empty predicate. *)
Theorem C67_no_panic_partial : forall n path, ~ empty_predicate path -> exists r, SelectNodes n path = Ok r.
Proof. exact SelectNodes_total. Qed.
Print Assumptions C67_no_panic_partial.
Theorem C67_panic_refuted : exists e, SelectNodes ([], e) (lit "a[]") = Panic.
Proof. exists example_xml. vm_compute. reflexivity. Qed.
(** [@*] holds of an element without attributes. *)
Theorem C67_any_attribute_refuted : exists e b f, x_attrs f = [] /\ SelectNodes ([], e) (lit "c[@*]") = Ok [(b, f)].
Proof. exists example_xml, [1%nat], (leaf "c" ""). split; vm_compute; reflexivity. Qed.
(** [@n='v'] with "=" in the value holds of elements with other values. *)
Theorem C67_equals_in_value_refuted : exists e b f, SelectNodes ([], e) (lit "a[@n='x=y']") = Ok [(b, f); ([2%nat], XElem (lit "a") [] (at_n "2") [] [])] /\
  ~ has_attribute f (lit "n") (lit "x=y").
Proof.
  exists example_xml, [0%nat], (XElem (lit "a") [] (at_n "1") (lit "<b>x</b>") [leaf "b" "x"]). split; [vm_compute; reflexivity|].
  intros H. apply has_attribute_get in H. vm_compute in H. discriminate.
Qed.
(** [@n=''] does not hold of an element whose n is empty. *)
Theorem C67_empty_value_refuted : exists e, (exists f, nth_error (x_children e) 0 = Some f /\ has_attribute f (lit "n") []) /\ SelectNodes ([], e) (lit "a[@n='']") = Ok [].
Proof.
  exists (XElem (lit "r") [] [] [] [XElem (lit "a") [] (at_n "") [] []]). split; [|vm_compute; reflexivity].
  eexists. split; [reflexivity|]. apply has_attribute_get. vm_compute. reflexivity.
Qed.

(** The path of a node, given to the document, selects the nodes whose names
    from the root down are the same, this one among them. *)
Theorem C67_path_of_node : forall e d a f fuel, LoadXml NewXmlDocument (Some e) = Ok d -> element_at e a = Some f -> a <> [] -> (length a < fuel)%nat ->
  Forall (fun n => good_name (Named n)) (tl (names_down e a)) ->
  exists path r, Path fuel d a = Some path /\ DocumentSelectNodes e path = Ok r /\ In (a, f) r /\
    forall b g, In (b, g) r <-> element_at e b = Some g /\ names_down e b = names_down e a.
Proof. exact select_path. Qed.
Print Assumptions C67_path_of_node.
(** The root is not found by its own path. *)
Theorem C67_path_of_root_refuted : exists e d path, LoadXml NewXmlDocument (Some e) = Ok d /\ Path 1 d [] = Some path /\ DocumentSelectNodes e path = Ok [].
Proof.
  destruct (LoadXml NewXmlDocument (Some example_xml)) as [d| |] eqn:E; [|discriminate|discriminate]. exists example_xml, d, (lit "//r").
  split; [exact E|]. split; [|vm_compute; reflexivity]. rewrite (loaded_path example_xml d [] example_xml E eq_refl 1) by (cbn; lia). vm_compute. reflexivity.
Qed.

Example C67_nonvacuous :
  let attr := PathStep (Named (lit "a")) (AttributeIs (Named (lit "n")) (lit "2")) in
  let child := PathStep (Named (lit "a")) (ChildIs AnyName (lit "x")) in
  Forall good_step [attr] /\ Forall good_step [child; PathStep AnyName NoCondition] /\ path_text [child; PathStep AnyName NoCondition] = lit "a[*='x']/*" /\
  leads [] example_xml [attr] [2%nat] (XElem (lit "a") [] (at_n "2") [] []) /\
  SelectNodes ([], example_xml) (path_text [attr]) = Ok [([2%nat], XElem (lit "a") [] (at_n "2") [] [])] /\
  SelectNodes ([], example_xml) (lit "a[*='x']/*") = Ok [([0%nat; 0%nat], leaf "b" "x")] /\
  SelectNodes ([], example_xml) (lit "*") = Ok (GetChildNodes ([], example_xml)).
Proof.
  cbv zeta. assert (NC : forall s, s <> [] -> forallb (fun b => (33 <=? b) && (b <=? 126) && negb (existsb (Z.eqb b) (lit "/[]=*@'"))) s = true -> good_name (Named s)) by exact name_chars.
  assert (GV : forall b, (48 <= b <= 122) -> b <> 93 -> b <> 61 -> good_value [b]).
  { intros b H H1 H2. split; [discriminate|]. constructor; [|constructor]. split; [lia|]. intros I. cbn in I. lia. }
  split. { apply Forall_cons; [|apply Forall_nil]. split; [apply NC; [discriminate|reflexivity]|]. split; [apply NC; [discriminate|reflexivity]|]. apply (GV 50); lia. }
  split. { apply Forall_cons; [split; [apply NC; [discriminate|reflexivity]|]; split; [exact I|apply (GV 120); lia]|]. apply Forall_cons; [split; exact I|]. apply Forall_nil. }
  split; [reflexivity|]. split.
  - eapply (leads_down _ _ _ _ 2); [reflexivity| |apply leads_here]. split; [reflexivity|]. exists (lit "n"). split; [reflexivity|]. apply has_attribute_get. reflexivity.
  - split; [|split]; vm_compute; reflexivity.
Qed.

(** ** C68: links *)

(** After the first load of a document: every node has its names, depth and
    owner, its parent, the siblings next to it, and its children by name in
    order; MaxDepth is the height. *)
Theorem C68_links_partial : forall e, exists d, LoadXml NewXmlDocument (Some e) = Ok d /\ MaxDepth d = height e /\
  forall a f, element_at e a = Some f -> let n := d_node d a in
    n_name n = x_local f /\ n_space n = x_space f /\ n_level n = Z.of_nat (length a) /\ n_owned n = true /\
    n_parent n = parent_of a /\ n_prev n = sibling_before a /\ n_next n = sibling_after e a /\
    forall name, map_get (n_items n) name = match named_children f a name with [] => None | m => Some m end /\
                 map_get (n_item n) name = hd_error (named_children f a name).
Proof. exact loaded_links. Qed.
Print Assumptions C68_links_partial.
Theorem C68_path : forall e d a f, LoadXml NewXmlDocument (Some e) = Ok d -> element_at e a = Some f -> forall fuel, (length a < fuel)%nat ->
  Path fuel d a = Some (47 :: flat_map (fun n => 47 :: n) (names_down e a)).
Proof. exact loaded_path. Qed.
Print Assumptions C68_path.
(** Loading a second document keeps the children of the first and its depth. *)
Theorem C68_reload_refuted : exists e1 e2, x_children e2 = [] /\ height e2 = 1 /\
  (let* d1 := LoadXml NewXmlDocument (Some e1) in let* d2 := LoadXml d1 (Some e2) in Ok (MaxDepth d2, map_get (n_item (d_node d2 [])) (lit "c"))) = Ok (3, Some [1%nat]).
Proof. exists example_xml, (leaf "r" ""). split; [reflexivity|]. split; vm_compute; reflexivity. Qed.
Example C68_nonvacuous :
  match LoadXml NewXmlDocument (Some example_xml) with
  | Ok d => let n := d_node d [1%nat] in
    MaxDepth d = 3 /\ n_prev n = Some [0%nat] /\ n_next n = Some [2%nat] /\ n_parent n = Some [] /\ n_level n = 1 /\
    map_get (n_items (d_node d [])) (lit "a") = Some [[0%nat]; [2%nat]] /\ Path 3 d [0%nat; 0%nat] = Some (lit "//r/a/b")
  | _ => False
  end.
Proof. vm_compute. auto 10. Qed.

(** ** C83: loading a DataSet *)

(** A DataSet is loaded exactly from documents with a schema element of the
    schema namespace whose id is the name of the root; loading never panics. *)
Theorem C83_loadable : forall X decoded,
  ((exists root, decoded = Some root /\ loadable root) /\ exists ds, ParseXml X NewDataSet decoded = Ok ds) \/
  (~ (exists root, decoded = Some root /\ loadable root) /\ ParseXml X NewDataSet decoded = Err).
Proof.
  intros X decoded. destruct decoded as [root|].
  - destruct (loadable_by_dec root) as [(s & H)|H].
    + left. split; [exists root; split; [reflexivity|]; apply loadable_iff; eauto|]. destruct (ParseXml_ok X root s H) as (_ & ds & _ & D & _). eauto.
    + right. split; [|apply ParseXml_err; intros (r & s & [= <-] & Q); exact (H s Q)]. intros (r & [= <-] & Q). apply loadable_iff in Q as (s & Q). exact (H s Q).
  - right. split; [intros (r & Q & _); discriminate|reflexivity].
Qed.
Print Assumptions C83_loadable.

(** The document of a schema and records gives its tables, found by name in any
    letter case, with its columns and types in order and one row per record. *)
Theorem C83_document : forall X prefix name tables records, ranges X -> good_prefix prefix -> prefix <> [] -> name <> xs -> good_tables X tables ->
  exists ds, ParseXml X NewDataSet (Some (document prefix name tables records)) = Ok ds /\
    (forall n t, DataSetTable X ds n = Some t -> exists td, In td tables /\ same_name X (td_name td) n /\ DataSetTable X ds (td_name td) = Some t) /\
    forall td, In td tables -> exists t rows, DataSetTable X ds (td_name td) = Some t /\ dt_name t = td_name td /\ ColumnCount t = len (td_columns td) /\
      (forall i n ty ex, nth_error (td_columns td) i = Some (n, ty, ex) ->
         Column t (Z.of_nat i) = Some (DCol n ty (column_tree X (td_name td) ex) (Z.of_nat i)) /\ ColumnByName X t n = Column t (Z.of_nat i)) /\
      dt_rows t = map Some rows /\ Forall2 (row_says X td t) rows (filter (fun r => str_eqb (fst r) (td_name td)) records).
Proof.
  intros X prefix name tables records R G P N T. destruct (document_loads X prefix name tables records R G P N T) as (ds & D1 & D2 & D3).
  exists ds. split; [exact D1|]. split; [exact D2|]. intros td It. destruct (D3 td It) as (t & rows & H1 & H2 & H3 & H4 & H5 & H6). exists t, rows.
  split; [exact H1|]. split; [exact H2|]. split; [exact H3|]. split; [exact H4|]. split; [exact H5|]. clear - H6. induction H6 as [|r rec rs recs Q _ IH]; [constructor|]. constructor; [|exact IH]. clear IH.
  destruct Q as (_ & Q). intros i n ty Hi depth. destruct (Q i n ty [] Hi) as (_ & V). rewrite (V eq_refl depth). destruct (field_text X (snd rec) n) as [v|]; [|reflexivity].
  eexists. split; [reflexivity|]. intros c' Rc. apply xml_cell_reads, Rc.
Qed.
Print Assumptions C83_document.

(** Attributes of a field definition called DataType or Expression count only in
    the msdata namespace. *)
Theorem C83_foreign_attributes : forall X prefix table name ty space dt ex, space <> msdata ->
  let field attrs := element (lit "element") xs ([XAttr (lit "name") [] name; XAttr (lit "type") [] ty] ++ attrs) [] in
  schema_column X prefix table (field [XAttr (lit "DataType") space dt; XAttr (lit "Expression") space ex]) =
  schema_column X prefix table (field []).
Proof.
  intros X prefix table name ty space dt ex N field.
  assert (E : forall n attrs, map_get (AttributeNamespaces (field attrs)) n = Some space -> ext_text (field attrs) n = []).
  { intros n attrs M. unfold ext_text. destruct (attr_text (field attrs) n); [|reflexivity]. rewrite M.
    replace (str_eqb space ExtXmlSchemaDataNamespace) with false; [reflexivity|]. symmetry. apply str_eqb_neq. exact N. }
  unfold schema_column. rewrite !E by reflexivity. reflexivity.
Qed.
Print Assumptions C83_foreign_attributes.

(** A table called "schema" gets a row for the schema itself. *)
Definition example_xlib : xlib := {|
  xbase := example_dlib;
  compile := fun _ _ => Err; attr_order := fun m => m |}.
Theorem C83_schema_table_refuted : exists X name t, ranges X /\
  (let* ds := ParseXml X NewDataSet (Some (document (lit "xs") name [TableDef (lit "schema") [(lit "A", DString, [])]] [])) in Ok (DataSetTable X ds (lit "schema"))) = Ok (Some t) /\ RowCount t = 1.
Proof. exists example_xlib, (lit "Set"). eexists. split; [intros m; apply Permutation_refl|]. split; [vm_compute; reflexivity|reflexivity]. Qed.

Definition example_tables : list table_def :=
  [TableDef (lit "Points") [(lit "ID", DGuid, []); (lit "Tag", DString, []); (lit "Size", DInt32, []); (lit "Twice", DInt32, lit "Size*2")];
   TableDef (lit "Empty") [(lit "A", DBoolean, [])]].
Definition example_records : list record_def :=
  [(lit "Points", [(lit "Tag", lit "PMU"); (lit "SIZE", lit "-30")]); (lit "Other", []); (lit "Points", [(lit "Size", lit "1"); (lit "Size", lit "2")])].
Example C83_nonvacuous : ranges example_xlib /\ good_prefix (lit "xs") /\ good_tables example_xlib example_tables /\
  match ParseXml example_xlib NewDataSet (Some (document (lit "xs") (lit "Set") example_tables example_records)) with
  | Ok ds => TableCount ds = 2 /\
    match DataSetTable example_xlib ds (lit "points") with
    | Some t => map (option_map row_values) (dt_rows t) =
        [Some [None; Some (SCell (CStr (lit "PMU"))); Some (SCell (CInt32 (-30))); None]; Some [None; None; Some (SCell (CInt32 2)); None]]
    | None => False
    end
  | _ => False
  end.
Proof.
  split; [intros m; apply Permutation_refl|]. split; [split; discriminate|]. split.
  - split; [vm_compute; repeat constructor; cbn; intuition discriminate|].
    constructor; [|constructor; [|constructor]]; (split; [discriminate|]; split; [discriminate|]; split; [vm_compute; repeat constructor; cbn; intuition discriminate|repeat constructor; discriminate]).
  - vm_compute. auto.
Qed.

(** ** C84: field texts *)

(** Integers in decimal, "true" and "false", and strings without markup are
    read as the values written; the other types as their parsers say. *)
Theorem C84_field_values_partial : forall X t v c, reads_as X t v c -> xml_cell X t v = c.
Proof. exact xml_cell_reads. Qed.
Print Assumptions C84_field_values_partial.
Theorem C84_plain_strings_partial : forall X s, Forall (fun b => b <> 38 /\ b <> 60 /\ b <> 62) s -> xml_cell X DString (escape s) = CStr s.
Proof.
  intros X s F. cbn [xml_cell]. f_equal. induction F as [|b s (H1 & H2 & H3) F IH]; [reflexivity|]. unfold escape in *. cbn [flat_map]. rewrite IH.
  unfold escape_byte. apply Z.eqb_neq in H1, H2, H3. rewrite H1, H2, H3. reflexivity.
Qed.
Print Assumptions C84_plain_strings_partial.
(** Escaped characters stay escaped. *)
Theorem C84_escaped_string_refuted : forall X, exists s, xml_cell X DString (escape s) <> CStr s.
Proof. intros X. exists (lit "a&b"). vm_compute. discriminate. Qed.
(** Texts that are valid in XML Schema and read as another value. *)
Theorem C84_boolean_one_refuted : forall X, xml_cell X DBoolean (lit "1") = CBool false.
Proof. reflexivity. Qed.
Theorem C84_leading_zero_refuted : forall X, xml_cell X DInt32 (lit "010") = CInt32 8.
Proof. reflexivity. Qed.
(** Texts that are no values read as values, not as NULL. *)
Theorem C84_no_value_refuted : forall X, xml_cell X DInt32 (lit "x") = CInt32 0 /\ xml_cell X DInt8 (lit "300") = CInt8 127 /\ xml_cell X DBoolean (lit "yes") = CBool false /\
  xml_cell X DInt16 (lit "-40000") = CInt16 (-32768) /\ xml_cell X DInt32 (lit "3000000000") = CInt32 2147483647 /\
  xml_cell X DInt64 (lit "10000000000000000000") = CInt64 9223372036854775807 /\ xml_cell X DUInt8 (lit "256") = CUInt8 255 /\
  xml_cell X DUInt16 (lit "65536") = CUInt16 65535 /\ xml_cell X DUInt32 (lit "4294967296") = CUInt32 4294967295 /\
  xml_cell X DUInt64 (lit "18446744073709551616") = CUInt64 18446744073709551615.
Proof. intros X. repeat split; reflexivity. Qed.
Example C84_nonvacuous : reads_as example_xlib DInt8 (lit "-128") (CInt8 (-128)) /\ reads_as example_xlib DUInt64 (lit "18446744073709551615") (CUInt64 18446744073709551615) /\
  reads_as example_xlib DBoolean (lit "true") (CBool true).
Proof. split; [|split]; [exists (-128)|exists 18446744073709551615|left]; vm_compute; intuition congruence. Qed.
