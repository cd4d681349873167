(** XML trees (xml/XmlDocument.go, xml/XmlNode.go) and loading a DataSet from
    one (data/DataSet.go:153-343).  The tokenizer and decoder of encoding/xml
    are not modelled: a document is the tree of elements they produce. *)
From Coq Require Import String.
From Verif Require StampModel.
From Verif Require Import Base GuidModel FormatModel StrModel CalModel NumModel GoTextModel ExprModel TableModel.
Open Scope list_scope.
Open Scope Z_scope.

(** encoding/xml Attr: local name, namespace, value. *)
Record xattr := XAttr { at_local : bytes; at_space : bytes; at_value : bytes }.
(** What encoding/xml stores of an element in an XmlNode (XmlNode.go:32-43):
    XMLName, the start element's attributes, the bytes between the tags
    (",innerxml", not unescaped), the child elements (",any"). *)
Inductive xelem := XElem (local space : bytes) (attrs : list xattr) (inner : bytes) (children : list xelem).
Definition x_local (e : xelem) : bytes := let 'XElem l _ _ _ _ := e in l.
Definition x_space (e : xelem) : bytes := let 'XElem _ s _ _ _ := e in s.
Definition x_attrs (e : xelem) : list xattr := let 'XElem _ _ a _ _ := e in a.
Definition x_inner (e : xelem) : bytes := let 'XElem _ _ _ i _ := e in i.
Definition x_children (e : xelem) : list xelem := let 'XElem _ _ _ _ c := e in c.

(** XmlDocument.go:80-87 UnmarshalXML: the maps Attributes and
    AttributeNamespaces, keyed by local name. *)
Definition Attributes (e : xelem) : list (bytes * bytes) :=
  fold_left (fun m a => map_put m (at_local a) (at_value a)) (x_attrs e) [].
Definition AttributeNamespaces (e : xelem) : list (bytes * bytes) :=
  fold_left (fun m a => map_put m (at_local a) (at_space a)) (x_attrs e) [].

(** ** The links between nodes *)

(** The address of a node: the positions of its ancestors and itself among
    their siblings; the root is []. *)
Definition addr := list nat.
Definition addr_eqb (a b : addr) : bool := if list_eq_dec Nat.eq_dec a b then true else false.
(** XmlNode.go:44-62: the fields traverse fills in. *)
Record xnode := XNode {
  n_name : bytes; n_space : bytes; n_parent : option addr; n_next : option addr; n_prev : option addr;
  n_item : list (bytes * addr); n_items : list (bytes * list addr); n_level : Z; n_owned : bool }.
Definition zero_node : xnode := XNode [] [] None None None [] [] 0 false.
(** XmlDocument.go:33-39.  [d_tree] is None before the first LoadXml. *)
Record xdoc := XDoc { d_tree : option xelem; d_node : addr -> xnode; d_maxLevel : Z }.
Definition NewXmlDocument : xdoc := XDoc None (fun _ => zero_node) 0.

Definition set_node (d : xdoc) (a : addr) (f : xnode -> xnode) : xdoc :=
  XDoc (d_tree d) (fun b => if addr_eqb b a then f (d_node d b) else d_node d b) (d_maxLevel d).

(** XmlDocument.go:47-73: one iteration of the loop of traverse, before the
    recursive call, for the child number [i] of [parent]. *)
Definition visit_child (d : xdoc) (parent : addr) (i : nat) (c : xelem) : xdoc :=
  let level := n_level (d_node d parent) + 1 in
  let d := if d_maxLevel d <? level then XDoc (d_tree d) (d_node d) level else d in
  let node := parent ++ [i] in
  let d := set_node d node (fun n => XNode (x_local c) (x_space c) (Some parent) (n_next n) (n_prev n) (n_item n) (n_items n) level true) in
  let name := x_local c in
  let d := set_node d parent (fun p =>
    match map_get (n_item p) name with
    | None => XNode (n_name p) (n_space p) (n_parent p) (n_next p) (n_prev p)
                (map_put (n_item p) name node) (map_put (n_items p) name [node]) (n_level p) (n_owned p)
    | Some _ => XNode (n_name p) (n_space p) (n_parent p) (n_next p) (n_prev p) (n_item p)
                (map_put (n_items p) name (match map_get (n_items p) name with Some l => l | None => [] end ++ [node])) (n_level p) (n_owned p)
    end) in
  match i with
  | O => d
  | S j =>
    let previous := parent ++ [j] in
    let d := set_node d node (fun n => XNode (n_name n) (n_space n) (n_parent n) (n_next n) (Some previous) (n_item n) (n_items n) (n_level n) (n_owned n)) in
    set_node d previous (fun n => XNode (n_name n) (n_space n) (n_parent n) (Some node) (n_prev n) (n_item n) (n_items n) (n_level n) (n_owned n))
  end.
(** XmlDocument.go:42-45: the maps are created before the loop. *)
Definition init_maps (n : xnode) : xnode :=
  XNode (n_name n) (n_space n) (n_parent n) (n_next n) (n_prev n) [] [] (n_level n) (n_owned n).
(** XmlDocument.go:42-75 traverse(e.ChildNodes, e), [e] at address [a]. *)
Fixpoint traverse (e : xelem) (a : addr) (d : xdoc) : xdoc :=
  let d := set_node d a init_maps in
  (fix loop (nodes : list xelem) (i : nat) (d : xdoc) : xdoc :=
     match nodes with
     | [] => d
     | c :: rest => loop rest (S i) (traverse c (a ++ [i]) (visit_child d a i c))
     end) (x_children e) O d.

(** XmlDocument.go:95-112 LoadXml.  [decoded] is the root element of the data,
    None if decoding fails.  encoding/xml appends elements to the slice it
    finds: the children of a root loaded before stay in front, with their
    fields.  (A failing Decode may leave a partly filled root: not modelled.) *)
Definition LoadXml (d : xdoc) (decoded : option xelem) : res xdoc :=
  match decoded with
  | None => Err
  | Some e =>
    let kept := match d_tree d with Some old => x_children old | None => [] end in
    let e := XElem (x_local e) (x_space e) (x_attrs e) (x_inner e) (kept ++ x_children e) in
    let d := XDoc (Some e) (d_node d) (d_maxLevel d) in
    let d := set_node d [] (fun n => XNode (x_local e) (x_space e) (n_parent n) (n_next n) (n_prev n) (n_item n) (n_items n) (n_level n) true) in
    Ok (traverse e [] d)
  end.
(** XmlDocument.go:126-128 *)
Definition MaxDepth (d : xdoc) : Z := d_maxLevel d + 1.

(** XmlNode.go:64-82 Path.  The loop follows Parent to the root; [fuel] is the
    number of iterations allowed, None if they do not suffice. *)
Fixpoint ancestor_names (fuel : nat) (d : xdoc) (node : option addr) : option (list bytes) :=
  match node with
  | None => Some []
  | Some a =>
    match fuel with
    | O => None
    | S fuel => match ancestor_names fuel d (n_parent (d_node d a)) with
                | Some l => Some (l ++ [n_name (d_node d a)])
                | None => None
                end
    end
  end.
Definition Path (fuel : nat) (d : xdoc) (a : addr) : option bytes :=
  match ancestor_names fuel d (Some a) with
  | Some names => Some (47 :: flat_map (fun n => 47 :: n) names)
  | None => None
  end.

(** ** Selection *)

(** A node: its address and element.  Name is the local name of the element. *)
Definition xref := (addr * xelem)%type.
(** XmlNode.go:128-137 GetChildNodes *)
Fixpoint child_refs (a : addr) (i : nat) (l : list xelem) : list xref :=
  match l with [] => [] | c :: r => (a ++ [i], c) :: child_refs a (S i) r end.
Definition GetChildNodes (n : xref) : list xref := child_refs (fst n) O (x_children (snd n)).

(** strings.Split(s, sep) for a one-byte separator. *)
Fixpoint split_byte (sep : Z) (s : bytes) : list bytes :=
  match s with
  | [] => [[]]
  | b :: r => if b =? sep then [] :: split_byte sep r
              else match split_byte sep r with [] => [[b]] | p :: l => (b :: p) :: l end
  end.
(** strings.IndexRune(s, c) for an ASCII c. *)
Fixpoint index_byte (c : Z) (s : bytes) : Z :=
  match s with
  | [] => -1
  | b :: r => if b =? c then 0 else let i := index_byte c r in if i =? -1 then -1 else i + 1
  end.
(** XmlNode.go:203-205 *)
Definition isMatch (value name : bytes) : bool := str_eqb value name || str_eqb name [42].
(** XmlNode.go:267-273 *)
Definition removeQuotes (v : bytes) : bytes :=
  if HasPrefix v [39] && HasSuffix v [39] && (2 <? len v) then removelast (tl v) else v.
(** XmlNode.go:208-212, 250-254: the parts of a predicate. *)
Definition predicate_parts (expr : bytes) : list bytes := map str_TrimSpace (split_byte 61 expr).
(** XmlNode.go:207-237; Split returns at least one part. *)
Definition attributeMatch (e : xelem) (expr : bytes) : bool :=
  match predicate_parts expr with
  | [] => false
  | p0 :: rest =>
    if str_eqb p0 [42] then
      match rest with
      | [] => true
      | p1 :: _ => existsb (fun kv => str_eqb (snd kv) (removeQuotes p1)) (Attributes e)
      end
    else
      match map_get (Attributes e) p0 with
      | Some v => match rest with [p1] => str_eqb v (removeQuotes p1) | _ => true end
      | None => false
      end
  end.
(** XmlNode.go:249-265 *)
Definition valueMatch (e : xelem) (expr : bytes) : bool :=
  match predicate_parts expr with
  | [] => false
  | p0 :: rest =>
    if str_eqb p0 (x_local e) || str_eqb p0 [42] then
      match rest with [p1] => str_eqb (x_inner e) (removeQuotes p1) | _ => true end
    else false
  end.
(** XmlNode.go:239-247 *)
Definition childValueMatch (e : xelem) (expr : bytes) : bool := existsb (fun c => valueMatch c expr) (x_children e).
(** XmlNode.go:165-187: whether a node is added to the results of a step. *)
Definition step_match (expr : bytes) (e : xelem) : res bool :=
  let lbp := index_byte 91 expr in
  let rbp := index_byte 93 expr in
  if (-1 <? lbp) && (-1 <? rbp) && (lbp <? rbp) && (2 <? len expr) then
    let name := firstn (Z.to_nat lbp) expr in
    let predicate := firstn (Z.to_nat (rbp - lbp - 1)) (skipn (Z.to_nat (lbp + 1)) expr) in
    match predicate with
    | [] => Panic
    | 64 :: p => Ok (isMatch (x_local e) name && attributeMatch e p)
    | _ => Ok (isMatch (x_local e) name && childValueMatch e predicate)
    end
  else Ok (isMatch (x_local e) expr).
Fixpoint step_results (expr : bytes) (nodes : list xref) : res (list xref) :=
  match nodes with
  | [] => Ok []
  | n :: rest => let* b := step_match expr (snd n) in
                 let* l := step_results expr rest in
                 Ok (if b then n :: l else l)
  end.
(** XmlNode.go:160-198: the loop over the steps. *)
Fixpoint select_steps (nodes : list xref) (exprs : list bytes) : res (list xref) :=
  match exprs with
  | [] => Ok []
  | expr :: rest =>
    let* results := step_results expr nodes in
    match results, rest with
    | [], _ | _, [] => Ok results
    | _, _ => select_steps (flat_map GetChildNodes results) rest
    end
  end.
(** XmlNode.go:152-201 *)
Definition SelectNodes (n : xref) (xpath : bytes) : res (list xref) :=
  select_steps (GetChildNodes n) (split_byte 47 xpath).
(** XmlDocument.go:132-139 *)
Definition DocumentSelectNodes (root : xelem) (xpath : bytes) : res (list xref) :=
  if HasPrefix xpath [47; 47] && HasPrefix (skipn 2 xpath) (x_local root ++ [47])
  then SelectNodes ([], root) (skipn (3 + length (x_local root)) xpath)
  else SelectNodes ([], root) xpath.

(** ** Loading a DataSet *)

(** Functions of other packages used beside those of [dlib], with the value
    they return beside an error. *)
Record xlib := {
  xbase :> dlib;
  compile : bytes -> bytes -> res expr;   (* GenerateExpressionTree for a column of the named table *)
  attr_order : list (bytes * bytes) -> list (bytes * bytes)  (* the order in which a map is ranged over *)
}.

(** DataSet.go:298: time.Parse(DateTimeFormat, _), the zero time beside an error.
    The offset is dropped: the same instant in UTC. *)
Definition xsd_time (v : bytes) : Z := fst (StampModel.read_DateTime v).
(** DataSet.go:301-302: the value ParseFloat returns for 32 bits, the error ignored. *)
Definition xsd_single (v : bytes) : spec_float := parse_single_value v.
(** DataSet.go:304: the same for 64 bits. *)
Definition xsd_double (v : bytes) : double := parse_float_value v.
(** DataSet.go:307: what NewFromString returns, zero beside an error. *)
Definition xsd_decimal (v : bytes) : dec := match parse_decimal v with Some d => d | None => dec_zero end.
(** DataSet.go:310: what guid.Parse returns, the error ignored. *)
Definition xsd_guid (v : bytes) : guid := fst (guid_Parse v).

(** DataSet.go:38-43 *)
Definition XmlSchemaNamespace : bytes := lit "http://www.w3.org/2001/XMLSchema".
Definition ExtXmlSchemaDataNamespace : bytes := lit "urn:schemas-microsoft-com:xml-msdata".
(** DataType.go:124-162 *)
Definition ParseXsdDataType (name ext : bytes) : option dtype :=
  if str_eqb name (lit "string") then Some (if HasPrefix ext (lit "System.Guid") then DGuid else DString)
  else if str_eqb name (lit "boolean") then Some DBoolean
  else if str_eqb name (lit "dateTime") then Some DDateTime
  else if str_eqb name (lit "float") then Some DSingle
  else if str_eqb name (lit "double") then Some DDouble
  else if str_eqb name (lit "decimal") then Some DDecimal
  else if str_eqb name (lit "byte") then Some DInt8
  else if str_eqb name (lit "short") then Some DInt16
  else if str_eqb name (lit "int") then Some DInt32
  else if str_eqb name (lit "long") then Some DInt64
  else if str_eqb name (lit "unsignedByte") then Some DUInt8
  else if str_eqb name (lit "unsignedShort") then Some DUInt16
  else if str_eqb name (lit "unsignedInt") then Some DUInt32
  else if str_eqb name (lit "unsignedLong") then Some DUInt64
  else None.
(** XmlNode.go:90-100 Prefix *)
Definition Prefix (X : xlib) (e : xelem) : bytes :=
  match find (fun kv => str_eqb (snd kv) (x_space e)) (attr_order X (Attributes e)) with Some (k, _) => k | None => [] end.
(** strings.TrimPrefix *)
Definition TrimPrefix (s p : bytes) : bytes := if HasPrefix s p then skipn (length p) s else s.
(** An attribute that is present and not empty. *)
Definition attr_text (e : xelem) (name : bytes) : option bytes :=
  match map_get (Attributes e) name with Some (b :: r) => Some (b :: r) | _ => None end.
(** DataSet.go:234-262: an attribute that counts only in the msdata namespace. *)
Definition ext_text (e : xelem) (name : bytes) : bytes :=
  match attr_text e name with
  | Some v => if str_eqb (match map_get (AttributeNamespaces e) name with Some s => s | None => [] end) ExtXmlSchemaDataNamespace then v else []
  | None => []
  end.
(** DataSet.go:218-265: the column of a field definition, None if skipped. *)
Definition schema_column (X : xlib) (prefix table : bytes) (f : xelem) : option dcol :=
  match attr_text f (lit "name"), attr_text f (lit "type") with
  | Some name, Some ty =>
    match ParseXsdDataType (TrimPrefix ty prefix) (ext_text f (lit "DataType")) with
    | Some t => Some (newDataColumn name t (match ext_text f (lit "Expression") with [] => None | e => Some (compile X table e) end))
    | None => None
    end
  | _, _ => None
  end.
Fixpoint schema_columns (X : xlib) (prefix : bytes) (t : dtable) (fields : list xref) : dtable :=
  match fields with
  | [] => t
  | f :: rest => schema_columns X prefix (match schema_column X prefix (dt_name t) (snd f) with Some c => AddColumn X t c | None => t end) rest
  end.
(** DataSet.go:204-268: the table definitions. *)
Fixpoint schema_tables (X : xlib) (prefix : bytes) (ds : dset) (tables : list xref) : res dset :=
  match tables with
  | [] => Ok ds
  | n :: rest =>
    match attr_text (snd n) (lit "name") with
    | None => schema_tables X prefix ds rest
    | Some name =>
      let* fields := SelectNodes n (lit "complexType/sequence/element") in
      schema_tables X prefix (AddTable X ds (schema_columns X prefix (InitColumns (newDataTable name)) fields)) rest
    end
  end.
(** DataSet.go:197-201 *)
Definition schema_prefix (X : xlib) (e : xelem) : bytes := match Prefix X e with [] => [] | p => p ++ [58] end.
(** DataSet.go:195-269 *)
Definition loadSchema (X : xlib) (ds : dset) (schema : xref) : res dset :=
  let prefix := schema_prefix X (snd schema) in
  let* tables := SelectNodes schema (lit "element/complexType/choice/element") in
  schema_tables X prefix ds tables.

(** DataSet.go:292-339: the value of a field. *)
Definition xml_cell (X : xlib) (t : dtype) (v : bytes) : cell :=
  match t with
  | DString => CStr v
  | DBoolean => CBool (str_eqb v (lit "true"))
  | DDateTime => CTime (xsd_time v)
  | DSingle => CSingle (xsd_single v)
  | DDouble => CDouble (xsd_double v)
  | DDecimal => CDec (xsd_decimal v)
  | DGuid => CGuid (xsd_guid v)
  | DInt8 => CInt8 (i8 (ParseInt 8 v)) | DInt16 => CInt16 (i16 (ParseInt 16 v)) | DInt32 => CInt32 (i32 (ParseInt 32 v)) | DInt64 => CInt64 (ParseInt 64 v)
  | DUInt8 => CUInt8 (u8 (ParseUint 8 v)) | DUInt16 => CUInt16 (u16 (ParseUint 16 v)) | DUInt32 => CUInt32 (u32 (ParseUint 32 v)) | DUInt64 => CUInt64 (ParseUint 64 v)
  end.
(** DataSet.go:280-340: the fields of a record; the error of SetValue is ignored. *)
Fixpoint record_values (X : xlib) (t : dtable) (fields : list xelem) (vals : list (option slot)) : res (list (option slot)) :=
  match fields with
  | [] => Ok vals
  | f :: rest =>
    match ColumnByName X t (x_local f) with
    | None => record_values X t rest vals
    | Some c => match SetValue t vals (dc_index c) (Some (SCell (xml_cell X (dc_type c) (x_inner f)))) with
                | Ok vals => record_values X t rest vals
                | Err => record_values X t rest vals
                | Panic => Panic
                end
    end
  end.
(** DataSet.go:277-342; rows are numbered from [id]. *)
Fixpoint load_rows (X : xlib) (t : dtable) (records : list xelem) (id : Z) : res (list (option drow)) :=
  match records with
  | [] => Ok []
  | r :: rest =>
    let* vals := record_values X t (x_children r) (row_values (CreateRow t id)) in
    let* rows := load_rows X t rest (id + 1) in
    Ok (Some (Row id vals) :: rows)
  end.
(** DataSet.go:271-344: root.Items[name] are the children of that name. *)
Definition records_of (root : xelem) (name : bytes) : list xelem := filter (fun c => str_eqb (x_local c) name) (x_children root).
Fixpoint load_tables (X : xlib) (root : xelem) (ds : dset) (id : Z) : res dset :=
  match ds with
  | [] => Ok []
  | (k, t) :: rest =>
    let records := records_of root (dt_name t) in
    let* rows := load_rows X t records id in
    let* rest := load_tables X root rest (id + len records) in
    Ok ((k, Table (dt_name t) (dt_indexes t) (dt_columns t) rows) :: rest)
  end.
(** DataSet.go:165-193 ParseXmlDocument.  The schema is the first child named
    "schema". *)
Fixpoint find_child (name : bytes) (l : list xref) : option xref :=
  match l with
  | [] => None
  | n :: r => if str_eqb (x_local (snd n)) name then Some n else find_child name r
  end.
Definition ParseXmlDocument (X : xlib) (ds : dset) (root : xelem) : res dset :=
  match find_child (lit "schema") (GetChildNodes ([], root)) with
  | None => Err
  | Some schema =>
    match map_get (Attributes (snd schema)) (lit "id") with
    | None => Err
    | Some id =>
      if negb (str_eqb id (x_local root)) then Err
      else if negb (str_eqb (x_space (snd schema)) XmlSchemaNamespace) then Err
      else let* ds := loadSchema X ds schema in load_tables X root ds 0
    end
  end.
(** DataSet.go:154-162 ParseXml, 350-354 FromXml (errors ignored: the data set
    stays empty). *)
Definition ParseXml (X : xlib) (ds : dset) (decoded : option xelem) : res dset :=
  match decoded with None => Err | Some root => ParseXmlDocument X ds root end.
Definition FromXml (X : xlib) (decoded : option xelem) : res dset :=
  match ParseXml X NewDataSet decoded with Ok ds => Ok ds | Err => Ok NewDataSet | Panic => Panic end.
