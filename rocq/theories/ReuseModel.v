(** A FilterExpressionParser that is asked more than once:
    /repo/sttp/data/FilterExpressionParser.go (FEP).

    The tokens of a text are read once: the stream of tokens is made with the parser
    (FEP 86-106) and nothing sets it back.  A second Parse finds the end of the text
    (filterexpressionsyntax_parser.go:404-450: no case for the end, so a recognition
    error, which goes to the error listener only) and the walk meets no statement.

    Only texts of the grammar are modelled, as in TextModel.v.  What a call that fails
    leaves in the results is left open: any results may follow. *)
From Coq Require Import String.
From Verif Require Import Base GuidModel StrModel ExprModel TableModel ParseModel LexModel TextModel.
Open Scope list_scope.
Open Scope Z_scope.

(** FEP 46-83: the settings, the statements not read yet (None: the text is read) and
    the results *)
Record fobject := FObject { fo_parser : fparser; fo_left : option (list pstatement); fo_state : fstate }.
(** FEP 86-106 NewFilterExpressionParser: the results of a new parser *)
Definition no_results : fstate := FState 0 [] None [] None [].
(** FEP 110-132 NewFilterExpressionParserForDataSet *)
Definition NewParserForDataSet (ds : dset) (text primary : bytes) (fields : option id_fields) : option (res fobject) :=
  match text with
  | [] => Some Err
  | _ => match statements_of text with
         | Some (Ok l) => Some (Ok (FObject (new_parser ds primary fields true false) (Some l) no_results))
         | _ => None
         end
  end.

(** What an application asks of a parser: the exported functions and the fields it may set *)
Inductive fcall :=
| CTrees                            (* ExpressionTrees *)
| CEvaluate (limit sort : bool)     (* Evaluate *)
| CRows | CRowSet | CIDs | CIDSet   (* FilteredRows, FilteredRowSet, FilteredSignalIDs, FilteredSignalIDSet *)
| CCount                            (* FilterExpressionStatementCount *)
| CDataSet (ds : dset)              (* parser.DataSet = ds *)
| CTrack (rows ids : bool).         (* TrackFilteredRows and TrackFilteredSignalIDs *)
(** ... and what it is told.  A set of rows is the set of their identities; None is nil. *)
Inductive fanswer :=
| AFailed | APanicked | ADone
| ATrees (l : list etree) | ARows (l : list drow) | ARowSet (x : option (list Z))
| AIDs (l : list guid) | AIDSet (x : option (list guid)) | ACount (n : Z).

(** FEP 284-304 visitParseTreeNodes, up to the walk: the statements it will meet *)
Definition next_statements (L : lib) (o : fobject) : res (list statement) :=
  match fo_left o with
  | Some l => recovered (listen L (fo_parser o) l)
  | None => Ok []
  end.
Definition tracks (p : fparser) : bool := p_track_rows p || p_track_ids p.

(** The answer, and the results after it (None: not known, after a failure) *)
Definition finish (o : fobject) (r : res fstate) (k : fstate -> fanswer) : fanswer * fobject * bool :=
  match r with
  | Ok s => (k s, FObject (fo_parser o) None s, true)
  | Err => (AFailed, FObject (fo_parser o) None (fo_state o), false)
  | Panic => (APanicked, FObject (fo_parser o) None (fo_state o), false)
  end.
Definition ask (depth : nat) (D : dlib) (o : fobject) (c : fcall) : fanswer * fobject * bool :=
  let p := fo_parser o in let s := fo_state o in
  match c with
  | CTrees =>
    (* FEP 140-149 *)
    match fs_trees s with
    | _ :: _ => (ATrees (fs_trees s), o, true)
    | [] => finish o (let* l := next_statements D o in recovered (visit_trees depth D p s l)) (fun s => ATrees (fs_trees s))
    end
  | CEvaluate limit sort =>
    (* FEP 202-282 *)
    match p_dataset p with
    | None => (AFailed, o, true)
    | Some _ => if negb (tracks p) then (AFailed, o, true)
                else finish o (let* l := next_statements D o in EvaluateStatements depth D p l limit sort) (fun _ => ADone)
    end
  | CRows => (ARows (fs_rows s), o, true)                                  (* FEP 153-155 *)
  | CIDs => (AIDs (fs_ids s), o, true)                                     (* FEP 165-167 *)
  | CRowSet => let s := initializeSetOperations p s in                     (* FEP 158-161 *)
               (ARowSet (fs_rowset s), FObject p (fo_left o) s, true)
  | CIDSet => let s := initializeSetOperations p s in                      (* FEP 170-173 *)
              (AIDSet (fs_idset s), FObject p (fo_left o) s, true)
  | CCount => (ACount (fs_count s), o, true)                               (* FEP 176-178 *)
  | CDataSet ds => (ADone, FObject (Parser (Some ds) (p_primary p) (p_fields p) (p_track_rows p) (p_track_ids p)) (fo_left o) s, true)
  | CTrack rows ids => (ADone, FObject (Parser (p_dataset p) (p_primary p) (p_fields p) rows ids) (fo_left o) s, true)
  end.

(** One call and its answer; after a failure, any results. *)
Inductive asked (depth : nat) (D : dlib) (o : fobject) (c : fcall) : fanswer -> fobject -> Prop :=
| asked_known a o' : ask depth D o c = (a, o', true) -> asked depth D o c a o'
| asked_failed a o' s : ask depth D o c = (a, o', false) -> asked depth D o c a (FObject (fo_parser o') (fo_left o') s).
(** A history: the calls one after another, each with its answer *)
Inductive history (depth : nat) (D : dlib) : fobject -> list (fcall * fanswer) -> fobject -> Prop :=
| history_none o : history depth D o [] o
| history_call o c a o1 h o2 : asked depth D o c a o1 -> history depth D o1 h o2 -> history depth D o ((c, a) :: h) o2.
