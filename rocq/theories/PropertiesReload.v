(** Loading a document into a data set that has tables already (C137).
    [X] stands for the behaviour of other packages; [compile X] compiles a
    column's expression, and columns are the same when they were compiled so. *)
From Coq Require Import String.
From Verif Require Import Base StrModel ExprModel TableModel TableSpec XmlModel XmlSpec ReloadSpec ReloadProofs PropertiesExpr PropertiesTable PropertiesXml.
Open Scope list_scope.
Open Scope Z_scope.

(** A document that loads into an empty data set loads into any data set made by the API. *)
Theorem C137_loads : forall (X : xlib) ds root fresh, built X ds -> ParseXml X NewDataSet (Some root) = Ok fresh ->
  exists ds', ParseXml X ds (Some root) = Ok ds' /\ built X ds'.
Proof. exact reload_total. Qed.
Print Assumptions C137_loads.

(** The tables it defines are afterwards as in an empty data set, whatever tables
    of these names were there before. *)
Theorem C137_defined : forall (X : xlib) ds root ds' fresh n t, ParseXml X ds (Some root) = Ok ds' -> ParseXml X NewDataSet (Some root) = Ok fresh ->
  DataSetTable X fresh n = Some t -> exists t', DataSetTable X ds' n = Some t' /\ same_table t t'.
Proof. intros X ds root ds' fresh n t A B F. pose proof (reload_get X ds root ds' fresh A B n) as H. rewrite F in H. exact H. Qed.
Print Assumptions C137_defined.

(** No table disappears, and none appears that neither side has.  The others keep
    their names and columns, and get one row per child of the root with their
    name; what these rows hold depends on the columns only. *)
Theorem C137_others_partial : forall (X : xlib) ds root ds' fresh n, ParseXml X ds (Some root) = Ok ds' -> ParseXml X NewDataSet (Some root) = Ok fresh ->
  DataSetTable X fresh n = None ->
  (DataSetTable X ds n = None -> DataSetTable X ds' n = None) /\
  (forall t, DataSetTable X ds n = Some t -> exists t', DataSetTable X ds' n = Some t' /\ same_columns t t' /\
    length (dt_rows t') = length (filter (fun e => str_eqb (x_local e) (dt_name t)) (x_children root)) /\
    (forall ds2 ds2' t2, ParseXml X ds2 (Some root) = Ok ds2' -> DataSetTable X ds2 n = Some t2 -> same_columns t t2 ->
      exists t2', DataSetTable X ds2' n = Some t2' /\ same_table t' t2')).
Proof.
  intros X ds root ds' fresh n A B F. pose proof (reload_get X ds root ds' fresh A B n) as H. rewrite F in H. split; [intros N; rewrite N in H; exact H|].
  intros t T. rewrite T in H. destruct H as (t' & T' & L). exists t'. destruct (loaded_columns _ _ _ _ L) as (L1 & L2). split; [exact T'|]. split; [exact L1|]. split; [exact L2|].
  intros ds2 ds2' t2 A2 T2 C. pose proof (reload_get X ds2 root ds2' fresh A2 B n) as H2. rewrite F, T2 in H2. destruct H2 as (t2' & T2' & L'). exists t2'. split; [exact T2'|].
  exact (loaded_by_columns _ _ _ _ _ _ C L L').
Qed.
Print Assumptions C137_others_partial.

(** Loading a document again changes nothing. *)
Theorem C137_again : forall (X : xlib) ds root ds1 ds2, ParseXml X ds (Some root) = Ok ds1 -> ParseXml X ds1 (Some root) = Ok ds2 -> forall n,
  match DataSetTable X ds1 n with
  | Some t => exists t', DataSetTable X ds2 n = Some t' /\ same_table t t'
  | None => DataSetTable X ds2 n = None
  end.
Proof. exact reload_again. Qed.
Print Assumptions C137_again.

(** The others are not left alone: every table that the document neither defines
    nor has records for loses its rows. *)
Theorem C137_rows_lost_refuted : forall (X : xlib) ds root ds' fresh n t, ParseXml X ds (Some root) = Ok ds' -> ParseXml X NewDataSet (Some root) = Ok fresh ->
  DataSetTable X fresh n = None -> DataSetTable X ds n = Some t -> ~ has_records root (dt_name t) ->
  exists t', DataSetTable X ds' n = Some t' /\ same_columns t t' /\ dt_rows t' = [].
Proof.
  intros X ds root ds' fresh n t A B F T N. pose proof (reload_get X ds root ds' fresh A B n) as H. rewrite F, T in H. destruct H as (t' & T' & L).
  exists t'. split; [exact T'|]. exact (loaded_none _ _ _ _ N L).
Qed.
Print Assumptions C137_rows_lost_refuted.

(** Tables Points and Empty with two points; then a document with a table POINTS
    of one column and a table Extra, and a record for each and for Empty. *)
Definition first_document : xelem := document (lit "xs") (lit "Set") example_tables example_records.
Definition second_document : xelem := document (lit "xs") (lit "Set") [TableDef (lit "POINTS") [(lit "Size", DInt32, [])]; TableDef (lit "Extra") [(lit "B", DString, [])]]
  [(lit "POINTS", [(lit "Size", lit "7")]); (lit "Extra", [(lit "B", lit "x")]); (lit "Empty", [(lit "A", lit "true")])].
(** And a document with the table Extra only *)
Definition third_document : xelem := document (lit "xs") (lit "Set") [TableDef (lit "Extra") [(lit "B", DString, [])]] [(lit "Extra", [])].
Definition texts (r : res dset) (n : string) : option (bytes * list (option (list (option slot)))) :=
  match r with Ok ds => option_map (fun t => (dt_name t, contents t)) (DataSetTable example_xlib ds (lit n)) | _ => None end.
Example C137_nonvacuous :
  let first := ParseXml example_xlib NewDataSet (Some first_document) in
  let second := let* ds := first in ParseXml example_xlib ds (Some second_document) in
  let third := let* ds := first in ParseXml example_xlib ds (Some third_document) in
  (exists ds, first = Ok ds /\ built example_xlib ds) /\
  option_map (fun p => length (snd p)) (texts first "Points") = Some 2%nat /\ texts first "Empty" = Some (lit "Empty", []) /\
  texts second "Points" = Some (lit "POINTS", [Some [Some (SCell (CInt32 7))]]) /\
  texts second "Extra" = Some (lit "Extra", [Some [Some (SCell (CStr (lit "x")))]]) /\
  texts second "Empty" = Some (lit "Empty", [Some [Some (SCell (CBool true))]]) /\
  texts third "Points" = Some (lit "Points", []) /\ texts third "Extra" = Some (lit "Extra", [Some [None]]).
Proof.
  intros first second third. split.
  - assert (B : built example_xlib NewDataSet) by constructor. destruct first as [ds| |] eqn:E; [|vm_compute in E; discriminate|vm_compute in E; discriminate].
    destruct (C137_loads example_xlib NewDataSet first_document ds B E) as (ds' & E' & B'). exists ds. split; [reflexivity|]. unfold first in E. rewrite E in E'. injection E' as <-. exact B'.
  - vm_compute. repeat split.
Qed.
(** The refutation's hypotheses are met: Points had two rows and has none. *)
Example C137_lost_example : exists ds fresh ds' t, ParseXml example_xlib NewDataSet (Some first_document) = Ok ds /\ ParseXml example_xlib NewDataSet (Some third_document) = Ok fresh /\
  ParseXml example_xlib ds (Some third_document) = Ok ds' /\ DataSetTable example_xlib fresh (lit "points") = None /\ DataSetTable example_xlib ds (lit "points") = Some t /\
  RowCount t = 2 /\ ~ has_records third_document (dt_name t).
Proof.
  eexists. eexists. eexists. eexists. split; [vm_compute; reflexivity|]. split; [vm_compute; reflexivity|]. split; [vm_compute; reflexivity|]. split; [vm_compute; reflexivity|].
  split; [vm_compute; reflexivity|]. split; [vm_compute; reflexivity|]. intros (e & I & L). cbn in I. destruct I as [<-|[<-|[]]]; vm_compute in L; discriminate.
Qed.
