(** Proofs about loading a document into a data set that has tables already. *)
From Coq Require Import String Lia ZifyBool ZifyNat.
From Verif Require Import Base BaseProofs StrModel StrProofs ExprModel TableModel TableSpec TableProofs3 XmlModel XmlSpec XmlProofs XmlProofs2 XmlProofs3 XmlProofs4 ReloadSpec.
Open Scope list_scope.
Open Scope Z_scope.

(** ** The schema *)
Definition added (X : xlib) (l : list dtable) (ds : dset) : dset := fold_left (AddTable X) l ds.
Lemma schema_tables_added (X : xlib) prefix nodes : forall ds, schema_tables X prefix ds nodes = Ok (added X (flat_map (table_from X prefix) nodes) ds).
Proof.
  induction nodes as [|n r IH]; intros ds; cbn [schema_tables flat_map]; [reflexivity|].
  unfold table_from at 1. destruct (attr_text (snd n) (lit "name")) as [name|]; [|apply IH].
  rewrite sel_fields. cbn [bind]. change (InitColumns (newDataTable name)) with (columns_history X name []). rewrite schema_columns_eq. cbn [app]. rewrite IH. reflexivity.
Qed.
Lemma loadSchema_added (X : xlib) ds schema : loadSchema X ds schema = Ok (added X (schema_list X schema) ds).
Proof.
  unfold loadSchema, schema_list. generalize (sel_tables schema). generalize (sel schema (lit "element/complexType/choice/element")) as l.
  generalize (SelectNodes schema (lit "element/complexType/choice/element")) as r. intros r l ->.
  generalize (schema_prefix X (snd schema)). intros p. exact (schema_tables_added X p l ds).
Qed.
Lemma added_get (X : xlib) l ds k : map_get (added X l ds) k = match map_get (added X l []) k with Some t => Some t | None => map_get ds k end.
Proof.
  unfold added. induction l as [|t l IH] using rev_ind; [reflexivity|]. rewrite !fold_left_app. cbn [fold_left]. unfold AddTable at 1 3. rewrite !map_get_put.
  destruct (str_eqb _ k); [reflexivity|exact IH].
Qed.
Lemma added_built (X : xlib) l ds : Forall (from_columns X) l -> built X ds -> built X (added X l ds).
Proof.
  unfold added. revert ds. induction l as [|t l IH]; intros ds F B; [exact B|]. inversion F as [|? ? (cs & E) F2]; subst. cbn [fold_left]. apply IH; [exact F2|].
  unfold AddTable, map_put. constructor; [exists cs; cbn [snd]; rewrite <- E; repeat split|]. unfold built in B. rewrite List.Forall_forall in *. intros x Hx. apply filter_In in Hx as [Hx _]. auto.
Qed.

(** ** The records: they depend on the columns only *)
Lemma record_values_same (X : xlib) t t' fields : dt_indexes t' = dt_indexes t -> dt_columns t' = dt_columns t ->
  forall vals, record_values X t' fields vals = record_values X t fields vals.
Proof.
  intros I C. assert (Co : forall i, Column t' i = Column t i) by (intros i; unfold Column; rewrite C; reflexivity).
  induction fields as [|f r IH]; intros vals; cbn [record_values]; [reflexivity|].
  assert (CN : ColumnByName X t' (x_local f) = ColumnByName X t (x_local f)).
  { unfold ColumnByName. rewrite I. destruct (map_get _ _); [apply Co|reflexivity]. }
  rewrite CN. destruct (ColumnByName X t (x_local f)) as [c|]; [|apply IH]. unfold SetValue, validateColumnType. rewrite Co.
  destruct (let* _ := _ in _); [apply IH|apply IH|reflexivity].
Qed.
Lemma load_rows_same (X : xlib) t t' recs : dt_indexes t' = dt_indexes t -> dt_columns t' = dt_columns t -> forall id, load_rows X t' recs id = load_rows X t recs id.
Proof.
  intros I C. induction recs as [|r recs IH]; intros id; cbn [load_rows]; [reflexivity|]. rewrite (record_values_same X t t' _ I C), IH. unfold CreateRow. rewrite C. reflexivity.
Qed.
Lemma load_rows_ids (X : xlib) t recs : forall id id' rows rows', load_rows X t recs id = Ok rows -> load_rows X t recs id' = Ok rows' ->
  map (option_map row_values) rows' = map (option_map row_values) rows.
Proof.
  induction recs as [|r recs IH]; intros id id' rows rows'; cbn [load_rows CreateRow row_values]; [intros [= <-] [= <-]; reflexivity|].
  destruct (record_values X t (x_children r) _) as [v| |]; cbn [bind]; try discriminate.
  destruct (load_rows X t recs (id + 1)) as [a| |] eqn:A; cbn [bind]; try discriminate. destruct (load_rows X t recs (id' + 1)) as [b| |] eqn:B; cbn [bind]; try discriminate.
  intros [= <-] [= <-]. cbn [map option_map row_values]. f_equal. exact (IH _ _ _ _ A B).
Qed.
(** What becomes of a table *)
Definition loaded (X : xlib) (root : xelem) (t t' : dtable) : Prop :=
  exists id rows, load_rows X t (records_of root (dt_name t)) id = Ok rows /\ t' = Table (dt_name t) (dt_indexes t) (dt_columns t) rows.
Lemma load_tables_get (X : xlib) root : forall ds id ds' k, load_tables X root ds id = Ok ds' ->
  match map_get ds k with None => map_get ds' k = None | Some t => exists t', map_get ds' k = Some t' /\ loaded X root t t' end.
Proof.
  induction ds as [|[k0 t] ds IH]; intros id ds' k; cbn [load_tables]; [intros [= <-]; reflexivity|].
  destruct (load_rows X t _ id) as [rows| |] eqn:R; cbn [bind]; try discriminate. destruct (load_tables X root ds _) as [rest| |] eqn:T; cbn [bind]; try discriminate.
  intros [= <-]. cbn [map_get]. destruct (str_eqb k0 k); [|exact (IH _ _ k T)]. eexists. split; [reflexivity|]. exists id, rows. auto.
Qed.
Lemma load_tables_total (X : xlib) root : forall ds id, built X ds -> exists ds', load_tables X root ds id = Ok ds'.
Proof.
  induction ds as [|[k t] ds IH]; intros id F; [exists []; reflexivity|]. inversion F as [|? ? (cs & _ & E1 & E2) F2]; subst. cbn [snd] in E1, E2. cbn [load_tables].
  destruct (load_rows_ok X (dt_name t) cs (records_of root (dt_name t)) id) as (rows & R1 & _). rewrite (load_rows_same X _ t _ E1 E2), R1. cbn [bind].
  destruct (IH (id + len (records_of root (dt_name t))) F2) as (ds' & D). rewrite D. cbn [bind]. eauto.
Qed.
Lemma loaded_built (X : xlib) root : forall ds id ds', built X ds -> load_tables X root ds id = Ok ds' -> built X ds'.
Proof.
  induction ds as [|[k t] ds IH]; intros id ds' B; cbn [load_tables]; [intros [= <-]; constructor|]. inversion B as [|? ? (cs & E) B2]; subst. cbn [snd] in E.
  destruct (load_rows X t _ id) as [rows| |]; cbn [bind]; try discriminate. destruct (load_tables X root ds _) as [rest| |] eqn:T; cbn [bind]; try discriminate.
  intros [= <-]. constructor; [exists cs; exact E|]. exact (IH _ _ B2 T).
Qed.

(** ** Documents *)
Lemma parse_shape (X : xlib) (ds : dset) root : (exists l, Forall (from_columns X) l /\ forall ds, ParseXml X ds (Some root) = load_tables X root (added X l ds) 0) \/ (forall ds, ParseXml X ds (Some root) = Err).
Proof.
  clear ds. cbn [ParseXml]. unfold ParseXmlDocument. destruct (find_child _ _) as [schema|]; [|right; reflexivity].
  destruct (map_get _ _) as [id|]; [|right; reflexivity]. destruct (negb _); [right; reflexivity|]. destruct (negb _); [right; reflexivity|].
  left. exists (schema_list X schema). split; [apply schema_list_ok|]. intros ds. rewrite loadSchema_added. reflexivity.
Qed.
Lemma loaded_twice (X : xlib) root t t1 t2 : loaded X root t t1 -> loaded X root t t2 -> same_table t1 t2.
Proof.
  intros (i1 & r1 & A & ->) (i2 & r2 & B & ->). split; [repeat split|]. exact (load_rows_ids _ _ _ _ _ _ _ A B).
Qed.
Lemma loaded_again (X : xlib) root t t1 t2 : loaded X root t t1 -> loaded X root t1 t2 -> same_table t1 t2.
Proof.
  intros (i1 & r1 & A & ->) (i2 & r2 & B & ->). cbn [dt_name dt_indexes dt_columns] in *. split; [repeat split|].
  rewrite (load_rows_same X t) in B by reflexivity. exact (load_rows_ids _ _ _ _ _ _ _ A B).
Qed.
Lemma reload_get (X : xlib) ds root ds' fresh : ParseXml X ds (Some root) = Ok ds' -> ParseXml X NewDataSet (Some root) = Ok fresh -> forall n,
  match DataSetTable X fresh n with
  | Some t => exists t', DataSetTable X ds' n = Some t' /\ same_table t t'
  | None => match DataSetTable X ds n with
            | Some t => exists t', DataSetTable X ds' n = Some t' /\ loaded X root t t'
            | None => DataSetTable X ds' n = None
            end
  end.
Proof.
  intros A B n. destruct (parse_shape X ds root) as [(l & _ & P)|P]; [|rewrite P in A; discriminate]. rewrite P in A, B. unfold DataSetTable.
  pose proof (load_tables_get X root _ _ _ (ToUpper X n) A) as GA. pose proof (load_tables_get X root _ _ _ (ToUpper X n) B) as GB.
  rewrite added_get in GA. unfold NewDataSet in GB. destruct (map_get (added X l []) (ToUpper X n)) as [t|].
  - destruct GA as (ta & GA & LA). destruct GB as (tb & GB & LB). rewrite GB. exists ta. split; [exact GA|]. exact (loaded_twice _ _ _ _ _ LB LA).
  - rewrite GB. exact GA.
Qed.
Lemma reload_again (X : xlib) ds root ds1 ds2 : ParseXml X ds (Some root) = Ok ds1 -> ParseXml X ds1 (Some root) = Ok ds2 -> forall n,
  match DataSetTable X ds1 n with
  | Some t => exists t', DataSetTable X ds2 n = Some t' /\ same_table t t'
  | None => DataSetTable X ds2 n = None
  end.
Proof.
  intros A B n. destruct (parse_shape X ds root) as [(l & _ & P)|P]; [|rewrite P in A; discriminate]. rewrite P in A, B. unfold DataSetTable.
  pose proof (load_tables_get X root _ _ _ (ToUpper X n) A) as GA. pose proof (load_tables_get X root _ _ _ (ToUpper X n) B) as GB.
  rewrite added_get in GA, GB. destruct (map_get (added X l []) (ToUpper X n)) as [t|].
  - destruct GA as (ta & GA & LA). destruct GB as (tb & GB & LB). rewrite GA. exists tb. split; [exact GB|]. exact (loaded_twice _ _ _ _ _ LA LB).
  - destruct (map_get ds (ToUpper X n)) as [t|].
    + destruct GA as (ta & GA & LA). rewrite GA in *. destruct GB as (tb & GB & LB). exists tb. split; [exact GB|]. exact (loaded_again _ _ _ _ _ LA LB).
    + rewrite GA in *. exact GB.
Qed.
Lemma reload_total (X : xlib) ds root fresh : built X ds -> ParseXml X NewDataSet (Some root) = Ok fresh -> exists ds', ParseXml X ds (Some root) = Ok ds' /\ built X ds'.
Proof.
  intros B A. destruct (parse_shape X ds root) as [(l & F & P)|P]; [|rewrite P in A; discriminate]. rewrite P.
  pose proof (added_built X l ds F B) as B1. destruct (load_tables_total X root _ 0 B1) as (ds' & D). exists ds'. split; [exact D|]. exact (loaded_built _ _ _ _ _ B1 D).
Qed.
Lemma no_records root name : ~ has_records root name -> records_of root name = [].
Proof.
  intros N. unfold records_of. destruct (filter _ _) as [|e l] eqn:E; [reflexivity|]. exfalso. apply N. exists e.
  assert (I : In e (filter (fun c => str_eqb (x_local c) name) (x_children root))) by (rewrite E; left; reflexivity).
  apply filter_In in I as (I & Q). apply str_eqb_spec in Q. auto.
Qed.
Lemma load_rows_len (X : xlib) t recs : forall id rows, load_rows X t recs id = Ok rows -> length rows = length recs.
Proof.
  induction recs as [|r recs IH]; intros id rows; cbn [load_rows CreateRow row_values]; [intros [= <-]; reflexivity|].
  destruct (record_values X t (x_children r) _) as [v| |]; cbn [bind]; try discriminate.
  destruct (load_rows X t recs (id + 1)) as [a| |] eqn:A; cbn [bind]; try discriminate. intros [= <-]. cbn [length]. f_equal. exact (IH _ _ A).
Qed.
Lemma loaded_none (X : xlib) root t t' : ~ has_records root (dt_name t) -> loaded X root t t' -> same_columns t t' /\ dt_rows t' = [].
Proof.
  intros N (i & rows & R & ->). rewrite (no_records _ _ N) in R. cbn [load_rows] in R. injection R as <-. split; [repeat split|reflexivity].
Qed.
Lemma loaded_columns (X : xlib) root t t' : loaded X root t t' -> same_columns t t' /\ length (dt_rows t') = length (filter (fun e => str_eqb (x_local e) (dt_name t)) (x_children root)).
Proof. intros (i & rows & R & ->). split; [repeat split|]. exact (load_rows_len _ _ _ _ _ R). Qed.
Lemma loaded_by_columns (X : xlib) root t1 t2 t1' t2' : same_columns t1 t2 -> loaded X root t1 t1' -> loaded X root t2 t2' -> same_table t1' t2'.
Proof.
  intros (N & I & C) (i1 & r1 & A & ->) (i2 & r2 & B & ->). rewrite N in B. rewrite (load_rows_same X t1 t2 _ I C) in B. split; [repeat split; assumption|].
  exact (load_rows_ids _ _ _ _ _ _ _ A B).
Qed.
