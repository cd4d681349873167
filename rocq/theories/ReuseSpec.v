(** What is said of a parser that is asked more than once (C136). *)
From Coq Require Import String.
From Verif Require Import Base GuidModel StrModel ExprModel TableModel ReuseModel.
Open Scope list_scope.
Open Scope Z_scope.

(** Calls that neither parse the text nor change a setting *)
Definition is_getter (c : fcall) : Prop :=
  match c with CRows | CRowSet | CIDs | CIDSet | CCount => True | _ => False end.
(** Calls that change a setting *)
Definition is_setting (c : fcall) : Prop := match c with CDataSet _ | CTrack _ _ => True | _ => False end.
(** The settings after a history: the last data set and tracking given *)
Fixpoint set_by (h : list (fcall * fanswer)) (ds : dset) (rows ids : bool) : dset * bool * bool :=
  match h with
  | [] => (ds, rows, ids)
  | (CDataSet ds', _) :: h => set_by h ds' rows ids
  | (CTrack rows' ids', _) :: h => set_by h ds rows' ids'
  | _ :: h => set_by h ds rows ids
  end.
(** The text was parsed in the history: ExpressionTrees was called, or Evaluate with
    something to track *)
Fixpoint parsed (h : list (fcall * fanswer)) (rows ids : bool) : Prop :=
  match h with
  | [] => False
  | (CTrees, _) :: _ => True
  | (CEvaluate _ _, _) :: h => rows = true \/ ids = true \/ parsed h rows ids
  | (CTrack rows' ids', _) :: h => parsed h rows' ids'
  | _ :: h => parsed h rows ids
  end.
(** What Evaluate answers for a result of selecting *)
Definition evaluated {A} (r : res A) : fanswer := match r with Ok _ => ADone | Err => AFailed | Panic => APanicked end.
(** An answer that shows exactly these results *)
Definition shows (rows : list drow) (signals : list guid) (count : Z) (trees : list etree) (c : fcall) (a : fanswer) : Prop :=
  match c with
  | CTrees => a = ATrees trees
  | CRows => a = ARows rows
  | CIDs => a = AIDs signals
  | CCount => a = ACount count
  | CRowSet => exists x, a = ARowSet x /\ forall set, x = Some set -> forall i, In i set <-> In i (map row_id rows)
  | CIDSet => exists x, a = AIDSet x /\ forall set, x = Some set -> forall g, In g set <-> In g signals
  | _ => True
  end.
