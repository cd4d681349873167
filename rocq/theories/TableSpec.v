(** Specification vocabulary for tables, rows and selections (C47, C60-C66). *)
From Coq Require Import String QArith Permutation.
From Verif Require Import Base GuidModel GuidSpec StrModel NumModel ExprModel ExprSpec TableModel.
Close Scope Q_scope.
Open Scope Z_scope.

(** ** Selection *)

(** The rows of a table; nil entries are not rows. *)
Definition rows_of (t : dtable) : list drow :=
  flat_map (fun r => match r with Some x => [x] | None => [] end) (dt_rows t).

(** The value of a condition on a row. *)
Definition result_on (depth : nat) (D : dlib) (t : dtable) (condition : expr) (r : drow) : res ve :=
  Evaluate D (Some (TypedValue depth D t (row_values r))) condition.
(** The condition is TRUE, not FALSE, NULL, an error or a value of another type. *)
Definition is_true (depth : nat) (D : dlib) (t : dtable) (condition : expr) (r : drow) : bool :=
  match result_on depth D t condition r with Ok (VE VBoolean (Some (GBool true))) => true | _ => false end.

(** TOP n: the first n; a negative n is no limit. *)
Definition top {A} (n : Z) (l : list A) : list A := if n <? 0 then l else firstn (Z.to_nat n) l.

(** ** Order *)

(** A relation sort.Slice can sort by: irreflexive, transitive, and "neither is
    less" is transitive, on the elements of l. *)
Definition strict_weak_order {A} (less : A -> A -> bool) (l : list A) : Prop :=
  (forall a, In a l -> less a a = false) /\
  (forall a b c, In a l -> In b l -> In c l -> less a b = true -> less b c = true -> less a c = true) /\
  (forall a b c, In a l -> In b l -> In c l ->
     less a b = false -> less b a = false -> less b c = false -> less c b = false ->
     less a c = false /\ less c a = false).
(** No element is less than an earlier one. *)
Definition in_order {A} (less : A -> A -> bool) (l : list A) : Prop :=
  forall l1 a l2 b l3, l = l1 ++ a :: l2 ++ b :: l3 -> less b a = false.
(** What the documentation of sort.Slice promises. *)
Definition sorts (sort : (drow -> drow -> bool) -> list drow -> list drow) : Prop :=
  forall less l, Permutation l (sort less l) /\ (strict_weak_order less l -> in_order less (sort less l)).

(** How two values of one type are ordered: numbers, times and GUIDs as usual,
    strings by their bytes (in capitals unless exact), TRUE before FALSE. *)
Definition value_order (L : lib) (exact : bool) (a b : cell) : comparison :=
  match a, b with
  | CStr x, CStr y => if exact then lex x y else lex (ToUpper L x) (ToUpper L y)
  | CBool x, CBool y => Bool.compare y x
  | CTime x, CTime y => x ?= y
  | CSingle x, CSingle y | CDouble x, CDouble y => match SFcompare x y with Some c => c | None => Eq end
  | CDec x, CDec y => Qcompare (dec_number x) (dec_number y)
  | CGuid x, CGuid y => lex x y
  | CInt8 x, CInt8 y | CInt16 x, CInt16 y | CInt32 x, CInt32 y | CInt64 x, CInt64 y
  | CUInt8 x, CUInt8 y | CUInt16 x, CUInt16 y | CUInt32 x, CUInt32 y | CUInt64 x, CUInt64 y => x ?= y
  | _, _ => Eq
  end.
(** NULL before every value. *)
Definition null_first (L : lib) (exact : bool) (a b : option cell) : comparison :=
  match a, b with
  | None, None => Eq
  | None, Some _ => Lt
  | Some _, None => Gt
  | Some x, Some y => value_order L exact x y
  end.
(** The value of a column in a row; a computed column whose expression fails
    counts as NULL. *)
Definition column_value (depth : nat) (D : dlib) (t : dtable) (i : Z) (r : drow) : option cell :=
  match Column t i with
  | None => None
  | Some c => match TypedValue depth D t (row_values r) i (dc_type c) with Ok v => v | _ => None end
  end.
(** Rows compared term by term; DESC reverses. *)
Fixpoint row_order (depth : nat) (D : dlib) (t : dtable) (terms : list order_term) (a b : drow) : comparison :=
  match terms with
  | [] => Eq
  | o :: rest =>
    let c := null_first D (ob_exact o) (column_value depth D t (ob_column o) a) (column_value depth D t (ob_column o) b) in
    match (if ob_ascending o then c else CompOpp c) with
    | Eq => row_order depth D t rest a b
    | x => x
    end
  end.
Definition before (c : comparison) : bool := match c with Lt => true | _ => false end.

Definition not_nan (c : cell) : Prop := c <> CSingle S754_nan /\ c <> CDouble S754_nan.
(** Rows that can be ordered: reading the columns of the terms does not panic
    and gives no NaN.  (A GUID has 16 bytes.) *)
Definition sortable (depth : nat) (D : dlib) (t : dtable) (terms : list order_term) (r : drow) : Prop :=
  forall o c, In o terms -> Column t (ob_column o) = Some c ->
  let v := TypedValue depth D t (row_values r) (ob_column o) (dc_type c) in
  v <> Panic /\ forall x, v = Ok (Some x) -> not_nan x /\ (forall g, x = CGuid g -> guid_ok g).

(** ** Names *)

(** Two names that differ in letter case only, in the sense of strings.ToUpper. *)
Definition same_name (L : lib) (a b : bytes) : Prop := ToUpper L a = ToUpper L b.
(** Two texts that differ in the case of ASCII letters only. *)
Definition case_variant (a b : bytes) : Prop := Forall2 (fun x y => ascii_upper x = ascii_upper y) a b.

(** ** Histories of a data set and of a table's columns *)
Inductive set_op := SetAdd (t : dtable) | SetRemove (name : bytes).
Definition set_step (L : lib) (ds : dset) (o : set_op) : dset :=
  match o with SetAdd t => AddTable L ds t | SetRemove n => fst (RemoveTable L ds n) end.
Definition set_history (L : lib) (h : list set_op) : dset := fold_left (set_step L) h NewDataSet.

(** [latest L h name t]: the last operation of h on that name added t. *)
Inductive latest (L : lib) : list set_op -> bytes -> dtable -> Prop :=
| latest_add h name t : same_name L (dt_name t) name -> latest L (h ++ [SetAdd t]) name t
| latest_other_add h name t u : latest L h name t -> ~ same_name L (dt_name u) name -> latest L (h ++ [SetAdd u]) name t
| latest_other_remove h name t n : latest L h name t -> ~ same_name L n name -> latest L (h ++ [SetRemove n]) name t.

Definition columns_history (L : lib) (name : bytes) (cs : list dcol) : dtable :=
  fold_left (AddColumn L) cs (newDataTable name).

(** ** Rows *)

(** A history of assignments to a row; those that return an error change nothing. *)
Fixpoint set_values (t : dtable) (vals : list (option slot)) (h : list (Z * option slot)) : res (list (option slot)) :=
  match h with
  | [] => Ok vals
  | (i, v) :: rest =>
    match SetValue t vals i v with
    | Ok vals' => set_values t vals' rest
    | Err => set_values t vals rest
    | Panic => Panic
    end
  end.
(** The last value assigned to a column, nil if none. *)
Fixpoint last_assigned (h : list (Z * option slot)) (i : Z) (v : option slot) : option slot :=
  match h with
  | [] => v
  | (j, w) :: rest => last_assigned rest i (if j =? i then w else v)
  end.

(** ** Statements *)

(** The first of the rows that are the same row. *)
Fixpoint distinct (seen : list Z) (l : list drow) : list drow :=
  match l with
  | [] => []
  | r :: rest => if existsb (Z.eqb (row_id r)) seen then distinct seen rest else r :: distinct (row_id r :: seen) rest
  end.
Definition is_identifier (x : statement) : bool :=
  match x with SGuidLiteral _ | SMeasurementKey _ | SPointTag _ => true | _ => false end.
Definition option_list {A} (o : option A) : list A := match o with Some x => [x] | None => [] end.

Section Statements.
Variables (depth : nat) (D : dlib) (ds : dset) (primary : bytes) (f : id_fields).

(** The string in column i is the text, in any letter case; the GUID in column i is g. *)
Definition text_at (t : dtable) (i : Z) (text : bytes) (r : drow) : bool :=
  match TypedValue depth D t (row_values r) i DString with
  | Ok (Some (CStr x)) => str_eqb (ToUpper D text) (ToUpper D x) | _ => false end.
Definition guid_at (t : dtable) (i : Z) (g : guid) (r : drow) : bool :=
  match TypedValue depth D t (row_values r) i DGuid with
  | Ok (Some (CGuid x)) => Equal x g | _ => false end.
Definition find_text (t : dtable) (column text : bytes) : option drow :=
  match ColumnByName D t column with
  | Some c => find (text_at t (dc_index c) text) (rows_of t)
  | None => None
  end.
(** The row a signal ID, measurement key or point tag stands for: the first
    such row of the primary table, which must have a signal ID column. *)
Definition identifier_row (x : statement) : option drow :=
  match DataSetTable D ds primary with
  | None => None
  | Some t =>
    match ColumnByName D t (f_signal_id f) with
    | None => None
    | Some c =>
      match x with
      | SGuidLiteral g => if IsZero g then None else find (guid_at t (dc_index c) g) (rows_of t)
      | SMeasurementKey text => find_text t (f_key f) text
      | SPointTag text => find_text t (f_tag f) text
      | _ => None
      end
    end
  end.

(** TOP as written; text that is no number is no limit. *)
Definition top_value (x : option bytes) : Z :=
  match x with Some text => match Atoi text with Some n => n | None => -1 end | None => -1 end.

(** The rows of a FILTER statement or of a bare condition. *)
Inductive filter_rows : statement -> dtable -> list drow -> Prop :=
| filter_rows_filter n table condition order t terms out :
    DataSetTable D ds table = Some t ->
    order_terms D t order = Ok terms ->
    let hits := top (top_value n) (filter (is_true depth D t condition) (rows_of t)) in
    Permutation hits out ->
    (order = [] -> out = hits) ->
    (Forall (sortable depth D t terms) hits -> in_order (fun a b => before (row_order depth D t terms a b)) out) ->
    filter_rows (SFilter n table condition order) t out
| filter_rows_condition condition t :
    DataSetTable D ds primary = Some t ->
    filter_rows (SExpression condition) t (filter (is_true depth D t condition) (rows_of t)).

(** The signal ID of a row, unless Null or zero. *)
Definition row_signal (t : dtable) (i : Z) (r : drow) : option guid :=
  match TypedValue depth D t (row_values r) i DGuid with
  | Ok (Some (CGuid g)) => if IsZero g then None else Some g | _ => None end.
Definition table_signal (t : dtable) (r : drow) : option guid :=
  match ColumnByName D t (f_signal_id f) with Some c => row_signal t (dc_index c) r | None => None end.
(** The signal ID an identifier stands for: a signal ID itself, whether or not
    the primary table has it. *)
Definition identifier_signal (x : statement) : option guid :=
  match x with
  | SGuidLiteral g => if IsZero g then None else Some g
  | _ => match DataSetTable D ds primary, identifier_row x with Some t, Some r => table_signal t r | _, _ => None end
  end.
(** The signal IDs of a FILTER statement or of a bare condition. *)
Inductive filter_signals : statement -> list guid -> Prop :=
| filter_signals_filter n table condition order t :
    DataSetTable D ds table = Some t ->
    filter_signals (SFilter n table condition order)
      (flat_map (fun r => option_list (table_signal t r)) (top (top_value n) (filter (is_true depth D t condition) (rows_of t))))
| filter_signals_condition condition t :
    DataSetTable D ds primary = Some t ->
    filter_signals (SExpression condition)
      (flat_map (fun r => option_list (table_signal t r)) (filter (is_true depth D t condition) (rows_of t))).
End Statements.
