(** Specifications for XML trees and DataSet documents, on the trees alone. *)
From Coq Require Import String Permutation.
From Verif Require Import Base GuidModel FormatModel StrModel CalModel NumModel ExprModel TableModel TableSpec XmlModel.
Open Scope list_scope.
Open Scope Z_scope.

(** ** Positions *)

(** The element at an address of a tree. *)
Fixpoint element_at (e : xelem) (a : addr) : option xelem :=
  match a with
  | [] => Some e
  | i :: a' => match nth_error (x_children e) i with Some c => element_at c a' | None => None end
  end.
(** Height: 1 for an element without children. *)
Fixpoint height (e : xelem) : Z :=
  let 'XElem _ _ _ _ cs := e in
  1 + (fix tallest (l : list xelem) : Z := match l with [] => 0 | c :: r => Z.max (height c) (tallest r) end) cs.
(** The positions of the children with a given name, in order. *)
Definition named_in (l : list xelem) (a : addr) (name : bytes) : list addr :=
  map (fun i => a ++ [i]) (filter (fun i => match nth_error l i with Some c => str_eqb (x_local c) name | None => false end)
                                  (seq 0 (length l))).
Definition named_children (e : xelem) : addr -> bytes -> list addr := named_in (x_children e).
(** The names from the root down to a position. *)
Fixpoint names_down (e : xelem) (a : addr) : list bytes :=
  x_local e :: match a with
               | [] => []
               | i :: a' => match nth_error (x_children e) i with Some c => names_down c a' | None => [] end
               end.
(** The neighbours of a position. *)
Definition parent_of (a : addr) : option addr := match rev a with [] => None | _ :: r => Some (rev r) end.
Definition sibling_before (a : addr) : option addr := match rev a with S j :: r => Some (rev r ++ [j]) | _ => None end.
Definition sibling_after (e : xelem) (a : addr) : option addr :=
  match rev a with
  | [] => None
  | i :: r => match element_at e (rev r ++ [S i]) with Some _ => Some (rev r ++ [S i]) | None => None end
  end.
(** Document order: the first difference decides; ancestors come first. *)
Fixpoint doc_before (a b : addr) : Prop :=
  match a, b with
  | [], _ :: _ => True
  | i :: a', j :: b' => (i < j)%nat \/ (i = j /\ doc_before a' b')
  | _, _ => False
  end.

(** ** Selection paths *)

Inductive name_test := AnyName | Named (n : bytes).
(** [@n], [@n='v'], [n], [n='v'] *)
Inductive condition := NoCondition | HasAttribute (n : name_test) | AttributeIs (n : name_test) (v : bytes)
  | HasChild (n : name_test) | ChildIs (n : name_test) (v : bytes).
Record path_step := PathStep { step_name : name_test; step_condition : condition }.

Definition name_text (n : name_test) : bytes := match n with AnyName => [42] | Named n => n end.
Definition condition_text (c : condition) : bytes :=
  match c with
  | NoCondition => []
  | HasAttribute n => lit "[@" ++ name_text n ++ lit "]"
  | AttributeIs n v => lit "[@" ++ name_text n ++ lit "='" ++ v ++ lit "']"
  | HasChild n => lit "[" ++ name_text n ++ lit "]"
  | ChildIs n v => lit "[" ++ name_text n ++ lit "='" ++ v ++ lit "']"
  end.
Definition step_text (s : path_step) : bytes := name_text (step_name s) ++ condition_text (step_condition s).
Fixpoint path_text (l : list path_step) : bytes :=
  match l with [] => [] | [s] => step_text s | s :: r => step_text s ++ 47 :: path_text r end.

(** Names: printable ASCII without the characters of the path syntax. *)
Definition name_char (b : Z) : Prop := 33 <= b <= 126 /\ ~ In b (lit "/[]=*@'").
Definition good_name (n : name_test) : Prop := match n with AnyName => True | Named n => n <> [] /\ Forall name_char n end.
(** Values: not empty, without the separators / = ]. *)
Definition good_value (v : bytes) : Prop := v <> [] /\ Forall (fun b => 0 <= b < 256 /\ ~ In b (lit "/]=")) v.
Definition good_step (s : path_step) : Prop :=
  good_name (step_name s) /\
  match step_condition s with
  | NoCondition => True
  | HasAttribute n => good_name n /\ n <> AnyName
  | HasChild n => good_name n
  | AttributeIs n v | ChildIs n v => good_name n /\ good_value v
  end.

Definition named (n : name_test) (name : bytes) : Prop := match n with AnyName => True | Named m => name = m end.
(** The attribute of a local name is the last one written with it. *)
Definition has_attribute (e : xelem) (n v : bytes) : Prop :=
  exists before a after, x_attrs e = before ++ a :: after /\ at_local a = n /\ at_value a = v /\ Forall (fun b => at_local b <> n) after.
Definition condition_holds (c : condition) (e : xelem) : Prop :=
  match c with
  | NoCondition => True
  | HasAttribute n => exists m v, named n m /\ has_attribute e m v
  | AttributeIs n v => exists m, named n m /\ has_attribute e m v
  | HasChild n => exists c, In c (x_children e) /\ named n (x_local c)
  | ChildIs n v => exists c, In c (x_children e) /\ named n (x_local c) /\ x_inner c = v
  end.
Definition step_holds (s : path_step) (e : xelem) : Prop := named (step_name s) (x_local e) /\ condition_holds (step_condition s) e.
(** The elements a path leads to. *)
Inductive leads (a : addr) (e : xelem) : list path_step -> addr -> xelem -> Prop :=
| leads_here : leads a e [] a e
| leads_down : forall s rest i c b f, nth_error (x_children e) i = Some c -> step_holds s c -> leads (a ++ [i]) c rest b f ->
    leads a e (s :: rest) b f.

(** A path with "[]" in it. *)
Definition empty_predicate (path : bytes) : Prop := exists a b, path = a ++ lit "[]" ++ b.

(** ** DataSet documents *)

(** A schema of tables with columns (name, type) and records: per record the
    text of the fields present. *)
Record table_def := TableDef { td_name : bytes; td_columns : list (bytes * dtype * bytes) }.
Definition record_def : Type := bytes * list (bytes * bytes).

Definition xsd_name (t : dtype) : bytes :=
  lit match t with
      | DString | DGuid => "string" | DBoolean => "boolean" | DDateTime => "dateTime" | DSingle => "float" | DDouble => "double" | DDecimal => "decimal"
      | DInt8 => "byte" | DInt16 => "short" | DInt32 => "int" | DInt64 => "long"
      | DUInt8 => "unsignedByte" | DUInt16 => "unsignedShort" | DUInt32 => "unsignedInt" | DUInt64 => "unsignedLong"
      end.
Definition xs : bytes := lit "http://www.w3.org/2001/XMLSchema".
Definition msdata : bytes := lit "urn:schemas-microsoft-com:xml-msdata".
Definition element (name space : bytes) (attrs : list xattr) (children : list xelem) : xelem := XElem name space attrs [] children.
(** <xs:element name="..." type="xs:..." msdata:DataType="System.Guid" msdata:Expression="..."/> *)
Definition column_element (prefix : bytes) (c : bytes * dtype * bytes) : xelem :=
  let '(name, t, expression) := c in
  element (lit "element") xs
    ([XAttr (lit "name") [] name; XAttr (lit "type") [] (prefix ++ [58] ++ xsd_name t)] ++
     match t with DGuid => [XAttr (lit "DataType") msdata (lit "System.Guid")] | _ => [] end ++
     match expression with [] => [] | e => [XAttr (lit "Expression") msdata e] end) [].
Definition table_element (prefix : bytes) (t : table_def) : xelem :=
  element (lit "element") xs [XAttr (lit "name") [] (td_name t)]
    [element (lit "complexType") xs [] [element (lit "sequence") xs [] (map (column_element prefix) (td_columns t))]].
Definition schema_element (prefix name : bytes) (tables : list table_def) : xelem :=
  element (lit "schema") xs [XAttr (lit "id") [] name; XAttr prefix (lit "xmlns") xs; XAttr (lit "msdata") (lit "xmlns") msdata]
    [element (lit "element") xs [XAttr (lit "name") [] name]
      [element (lit "complexType") xs []
        [element (lit "choice") xs [] (map (table_element prefix) tables)]]].
Definition record_element (r : record_def) : xelem :=
  element (fst r) [] [] (map (fun f => XElem (fst f) [] [] (snd f) []) (snd r)).
Definition document (prefix name : bytes) (tables : list table_def) (records : list record_def) : xelem :=
  element name [] [] (schema_element prefix name tables :: map record_element records).

(** The value the XML text of a field stands for. *)
Definition decimal_text (n : Z) : bytes := FormatInt n.

(** ** What a DataSet document says *)

(** What the loader makes of the expression of a column, if there is one. *)
Definition column_tree (X : xlib) (table expression : bytes) : option (res expr) :=
  match expression with [] => None | e => Some (compile X table e) end.
(** The text of a field: the last one of its name, in any letter case. *)
Fixpoint field_text (X : xlib) (fields : list (bytes * bytes)) (name : bytes) : option bytes :=
  match fields with
  | [] => None
  | (n, v) :: r => match field_text X r name with
                   | Some w => Some w
                   | None => if str_eqb (ToUpper X n) (ToUpper X name) then Some v else None
                   end
  end.
(** The names of tables, and the names of the columns of each, are distinct
    whatever their letter case and not empty; no table is called "schema". *)
Definition good_tables (X : xlib) (tables : list table_def) : Prop :=
  NoDup (map (fun t => ToUpper X (td_name t)) tables) /\
  Forall (fun t => td_name t <> [] /\ td_name t <> lit "schema" /\
            NoDup (map (fun c => ToUpper X (fst (fst c))) (td_columns t)) /\ Forall (fun c => fst (fst c) <> []) (td_columns t)) tables.
(** A prefix for the schema namespace that is not one of the other attributes. *)
Definition good_prefix (prefix : bytes) : Prop := prefix <> lit "id" /\ prefix <> lit "msdata".
(** Ranging over a map visits each entry once. *)
Definition ranges (X : xlib) : Prop := forall m, Permutation m (attr_order X m).
(** What a text stands for as a value of a type, where this package decides it. *)
Definition reads_as (X : xlib) (t : dtype) (v : bytes) (c : cell) : Prop :=
  match t with
  | DString => c = CStr v
  | DBoolean => (v = lit "true" /\ c = CBool true) \/ (v = lit "false" /\ c = CBool false)
  | DDateTime => c = CTime (xsd_time v)
  | DSingle => c = CSingle (xsd_single v)
  | DDouble => c = CDouble (xsd_double v)
  | DDecimal => c = CDec (xsd_decimal v)
  | DGuid => c = CGuid (xsd_guid v)
  | _ => exists n, fst (int_range t) <= n < snd (int_range t) /\ v = decimal_text n /\ int_cell t n = Some c
  end.
(** The first child called "schema". *)
Definition schema_of (root : xelem) : option xelem := find (fun c => str_eqb (x_local c) (lit "schema")) (x_children root).
(** A document whose schema is in the schema namespace and has the name of the root. *)
Definition loadable (root : xelem) : Prop :=
  exists s, schema_of root = Some s /\ has_attribute s (lit "id") (x_local root) /\ x_space s = xs.
(** What a row of a table read from a record says, column by column. *)
Definition row_says (X : xlib) (td : table_def) (t : dtable) (r : drow) (rec : record_def) : Prop :=
  forall i name ty, nth_error (td_columns td) i = Some (name, ty, []) -> forall depth,
    match field_text X (snd rec) name with
    | None => TypedValue (S depth) X t (row_values r) (Z.of_nat i) ty = Ok None
    | Some v => exists c, TypedValue (S depth) X t (row_values r) (Z.of_nat i) ty = Ok (Some c) /\ forall c', reads_as X ty v c' -> c = c'
    end.
(** How XML writes a text. *)
Definition escape_byte (b : Z) : bytes :=
  if b =? 38 then lit "&amp;" else if b =? 60 then lit "&lt;" else if b =? 62 then lit "&gt;" else [b].
Definition escape (s : bytes) : bytes := flat_map escape_byte s.
