(** Filter expressions given as text: the functions of
    /repo/sttp/data/FilterExpressionParser.go (FEP) that parse a text and evaluate it,
    and DataTable.Select of /repo/sttp/data/DataTable.go.

    Each result is an option: [None] stands for a text outside the grammar, for which
    ANTLR's error recovery decides what happens (not modelled).  Nil arguments, which
    are errors, have no counterpart here, nor has the error listener. *)
From Coq Require Import String.
From Verif Require Import Base GuidModel FormatModel StrModel ExprModel TableModel ParseModel LexModel.
Open Scope list_scope.
Open Scope Z_scope.

(** FilterExpressionSyntax.g4:26-35 parse: a text whose first token is an unexpected
    character panics, which visitParseTreeNodes (FEP 284-304) turns into an error. *)
Definition statements_of (s : bytes) : option (res (list pstatement)) :=
  match Tokens s with
  | TUnexpected _ :: _ => Some Err
  | ts => match Parse ts with Some l => Some (Ok l) | None => None end
  end.
(** The statements with their columns found.  A panic of the listener is an error. *)
Definition parse_text (L : lib) (p : fparser) (s : bytes) : option (res (list statement)) :=
  match statements_of s with
  | Some r => Some (let* l := r in recovered (listen L p l))
  | None => None
  end.

(** FEP 408-420 and 491-505: visit, for a parser that may track nothing: a GUID on
    its own then is a value. *)
Definition visit_untracked (depth : nat) (D : dlib) (p : fparser) (s : fstate) (x : statement) : res fstate :=
  match x with
  | SGuidLiteral g =>
    if negb (p_track_rows p) && negb (p_track_ids p)
    then Ok (add_tree (FState (fs_count s + 1) (fs_rows s) (fs_rowset s) (fs_ids s) (fs_idset s) (fs_trees s)) (Tree [] (-1) [] (EValue (VE VGuid (Some (GGuid g))))))
    else visit depth D p s x
  | _ => visit depth D p s x
  end.
Fixpoint visit_trees (depth : nat) (D : dlib) (p : fparser) (s : fstate) (l : list statement) : res fstate :=
  match l with [] => Ok s | x :: rest => let* s := visit_untracked depth D p s x in visit_trees depth D p s rest end.
(** FEP 140-149 ExpressionTrees, of a new parser *)
Definition ExpressionTrees (depth : nat) (D : dlib) (p : fparser) (s : bytes) : option (res (list etree)) :=
  match parse_text D p s with
  | Some r => Some (let* l := r in let* st := recovered (visit_trees depth D p (FState 0 [] None [] None []) l) in Ok (fs_trees st))
  | None => None
  end.

(** FEP 1280-1291 GenerateExpressionTrees *)
Definition GenerateExpressionTrees (depth : nat) (D : dlib) (ds : dset) (primary s : bytes) : option (res (list etree)) :=
  match s with
  | [] => Some Err
  | _ => ExpressionTrees depth D (new_parser ds primary None false false) s
  end.
Definition first_tree (r : option (res (list etree))) : option (res etree) :=
  match r with
  | Some r => Some (let* l := r in match l with e :: _ => Ok e | [] => Err end)
  | None => None
  end.
(** FEP 1306-1318 GenerateExpressionTree, for a table of the data set *)
Definition GenerateExpressionTree (depth : nat) (D : dlib) (ds : dset) (t : dtable) (s : bytes) : option (res etree) :=
  first_tree (GenerateExpressionTrees depth D ds (dt_name t) s).
(** FEP 1325-1344 EvaluateExpression *)
Definition EvaluateExpression (D : dlib) (s : bytes) : option (res ve) :=
  match s with
  | [] => Some Err
  | _ => match first_tree (ExpressionTrees 0 D (Parser None [] [] false false) s) with
         | Some r => Some (let* e := r in Evaluate D None (et_root e))
         | None => None
         end
  end.
(** FEP 1350-1366 EvaluateDataRowExpression *)
Definition EvaluateDataRowExpression (depth : nat) (D : dlib) (ds : dset) (t : dtable) (r : drow) (s : bytes) : option (res ve) :=
  match GenerateExpressionTree depth D ds t s with
  | Some e => Some (let* e := e in Evaluate D (Some (TypedValue depth D t (row_values r))) (et_root e))
  | None => None
  end.

(** FEP 1375-1387 SelectDataRows, 1412-1424 SelectDataRowSet, 1448-1463
    SelectSignalIDSet, on the text *)
Definition select_text {A} (s : bytes) (D : dlib) (p : fparser) (k : list statement -> res A) : option (res A) :=
  match s with
  | [] => Some Err
  | _ => match parse_text D p s with Some r => Some (let* l := r in k l) | None => None end
  end.
Definition SelectDataRowsText (depth : nat) (D : dlib) (ds : dset) (s primary : bytes) (fields : option id_fields) : option (res (list drow)) :=
  select_text s D (new_parser ds primary fields true false) (fun l => SelectDataRows depth D ds l primary fields).
Definition SelectDataRowSetText (depth : nat) (D : dlib) (ds : dset) (s primary : bytes) (fields : option id_fields) : option (res (list Z)) :=
  select_text s D (new_parser ds primary fields true false) (fun l => SelectDataRowSet depth D ds l primary fields).
Definition SelectSignalIDSetText (depth : nat) (D : dlib) (ds : dset) (s primary : bytes) (fields : option id_fields) : option (res (list guid)) :=
  select_text s D (new_parser ds primary fields false true) (fun l => SelectSignalIDSet depth D ds l primary fields).

(** DataTable.go:253-266: the statement that DataTable.Select composes; strconv.Itoa
    is [FormatInt]. *)
Definition select_statement (t : dtable) (condition order : bytes) (limit : Z) : bytes :=
  let condition := match condition with [] => lit "True" | _ => condition end in
  let s := if 0 <? limit then lit "FILTER TOP " ++ FormatInt limit ++ lit " " ++ dt_name t ++ lit " WHERE " ++ condition
           else lit "FILTER " ++ dt_name t ++ lit " WHERE " ++ condition in
  match order with [] => s | _ => s ++ lit " ORDER BY " ++ order end.
(** DataTable.go:253-275 DataTable.Select *)
Definition TableSelectText (depth : nat) (D : dlib) (ds : dset) (t : dtable) (condition order : bytes) (limit : Z) : option (res (list drow)) :=
  match GenerateExpressionTree depth D ds t (select_statement t condition order limit) with
  | Some e => Some (let* e := e in Select depth D e (Some t))
  | None => None
  end.
