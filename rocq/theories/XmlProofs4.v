(** Loading a DataSet from XML. *)
From Coq Require Import Lia ZifyBool ZifyNat String Sorting.Sorted Permutation.
From Verif Require Import Base GuidModel FormatModel StrModel CalModel NumModel ExprModel ExprSpec StrProofs TableModel TableSpec TableProofs3 XmlModel XmlSpec XmlProofs XmlProofs2 XmlProofs3.
Open Scope list_scope.
Open Scope Z_scope.

(** ** Selection by plain paths cannot fail *)
Definition sel (n : xref) (p : bytes) : list xref := match SelectNodes n p with Ok l => l | _ => [] end.
Lemma name_chars s : s <> [] -> forallb (fun b => (33 <=? b) && (b <=? 126) && negb (existsb (Z.eqb b) (lit "/[]=*@'"))) s = true -> good_name (Named s).
Proof.
  intros H F. split; [exact H|]. rewrite List.Forall_forall. rewrite forallb_forall in F. intros b Hb. specialize (F b Hb).
  apply andb_prop in F as (F1 & F2). split; [lia|]. intros X. apply negb_true_iff in F2. rewrite <- not_true_iff_false in F2. apply F2, existsb_exists. exists b. split; [exact X|apply Z.eqb_refl].
Qed.
Lemma good_plain s : s <> [] -> forallb (fun b => (33 <=? b) && (b <=? 126) && negb (existsb (Z.eqb b) (lit "/[]=*@'"))) s = true -> good_step (plain s).
Proof. intros H F. split; [apply name_chars; assumption|exact I]. Qed.
Lemma sel_fields n : SelectNodes n (lit "complexType/sequence/element") = Ok (sel n (lit "complexType/sequence/element")).
Proof.
  destruct n as [a e]. destruct (SelectNodes_spec a e [plain (lit "complexType"); plain (lit "sequence"); plain (lit "element")]) as (r & R & _); [discriminate| |].
  - repeat (apply Forall_cons; [apply good_plain; [discriminate|reflexivity]|]). apply Forall_nil.
  - unfold sel. change (path_text _) with (lit "complexType/sequence/element") in R. rewrite R. reflexivity.
Qed.
Lemma sel_tables n : SelectNodes n (lit "element/complexType/choice/element") = Ok (sel n (lit "element/complexType/choice/element")).
Proof.
  destruct n as [a e]. destruct (SelectNodes_spec a e [plain (lit "element"); plain (lit "complexType"); plain (lit "choice"); plain (lit "element")]) as (r & R & _); [discriminate| |].
  - repeat (apply Forall_cons; [apply good_plain; [discriminate|reflexivity]|]). apply Forall_nil.
  - unfold sel. change (path_text _) with (lit "element/complexType/choice/element") in R. rewrite R. reflexivity.
Qed.

(** ** The schema as a history *)
Definition columns_from (X : xlib) (prefix name : bytes) (fields : list xref) : list dcol :=
  flat_map (fun f => option_list (schema_column X prefix name (snd f))) fields.
Lemma columns_history_name L name cs : dt_name (columns_history L name cs) = name /\ dt_rows (columns_history L name cs) = [].
Proof. induction cs as [|c cs IH] using rev_ind; [split; reflexivity|]. rewrite columns_snoc. cbn [AddColumn dt_name dt_rows]. exact IH. Qed.
Lemma schema_columns_eq (X : xlib) prefix name fields : forall cs, schema_columns X prefix (columns_history X name cs) fields = columns_history X name (cs ++ columns_from X prefix name fields).
Proof.
  induction fields as [|f r IH]; intros cs; cbn [schema_columns columns_from flat_map]; [rewrite app_nil_r; reflexivity|].
  rewrite (proj1 (columns_history_name _ name cs)). destruct (schema_column X prefix name (snd f)) as [c|]; cbn [option_list].
  - rewrite <- columns_snoc, IH, <- app_assoc. reflexivity.
  - apply IH.
Qed.
Definition table_from (X : xlib) (prefix : bytes) (n : xref) : list dtable :=
  match attr_text (snd n) (lit "name") with
  | None => []
  | Some name => [columns_history X name (columns_from X prefix name (sel n (lit "complexType/sequence/element")))]
  end.
Lemma schema_tables_eq (X : xlib) prefix nodes : forall h, schema_tables X prefix (set_history X h) nodes = Ok (set_history X (h ++ map SetAdd (flat_map (table_from X prefix) nodes))).
Proof.
  induction nodes as [|n r IH]; intros h; cbn [schema_tables flat_map]; [rewrite app_nil_r; reflexivity|].
  unfold table_from at 1. destruct (attr_text (snd n) (lit "name")) as [name|]; [|apply IH].
  rewrite sel_fields. cbn [bind]. change (InitColumns (newDataTable name)) with (columns_history X name []). rewrite schema_columns_eq. cbn [app].
  match goal with |- context [AddTable ?L ?a ?b] => change (AddTable L a b) with (set_step L a (SetAdd b)) end. rewrite <- history_snoc, IH, <- app_assoc. reflexivity.
Qed.
Definition schema_list (X : xlib) (schema : xref) : list dtable :=
  flat_map (table_from X (schema_prefix X (snd schema))) (sel schema (lit "element/complexType/choice/element")).
Lemma loadSchema_eq (X : xlib) schema : loadSchema X NewDataSet schema = Ok (set_history X (map SetAdd (schema_list X schema))).
Proof.
  unfold loadSchema, schema_list. generalize (sel_tables schema). generalize (sel schema (lit "element/complexType/choice/element")) as l.
  generalize (SelectNodes schema (lit "element/complexType/choice/element")) as r. intros r l ->.
  generalize (schema_prefix X (snd schema)). intros p. exact (schema_tables_eq X p l []).
Qed.

(** ** Records *)
Section Records.
Variables (X : xlib) (name : bytes) (cs : list dcol).
Let t := columns_history X name cs.
(** The last field stored in column i. *)
Fixpoint last_for (fields : list xelem) (i : Z) : option bytes :=
  match fields with
  | [] => None
  | f :: r => match last_for r i with
              | Some v => Some v
              | None => match ColumnByName X t (x_local f) with Some c => if dc_index c =? i then Some (x_inner f) else None | None => None end
              end
  end.
Definition slot_for (fields : list xelem) (i : Z) (c : dcol) (old : option slot) : option slot :=
  match dc_tree c with
  | Some _ => old
  | None => match last_for fields i with Some v => Some (SCell (xml_cell X (dc_type c) v)) | None => old end
  end.
Lemma column_index i c : Column t i = Some c -> dc_index c = i /\ 0 <= i < len cs.
Proof.
  destruct (columns_spec X name cs) as (H1 & H2). fold t in H1, H2. intros H. pose proof (Column_range t i c H) as R. rewrite H2 in H.
  destruct (i <? 0) eqn:E; [discriminate|]. destruct (nth_error cs (Z.to_nat i)); [|discriminate]. injection H as <-. cbn [dc_index]. lia.
Qed.
Lemma named_index n c : ColumnByName X t n = Some c -> Column t (dc_index c) = Some c.
Proof. intros H. apply ColumnByName_spec in H as (H & _). exact H. Qed.
Lemma slice_set_nth {A} (l l' : list A) i v : slice_set l i v = Ok l' -> length l' = length l /\ 
  forall j, nth_error l' j = if (j =? Z.to_nat i)%nat then Some v else nth_error l j.
Proof.
  unfold slice_set. destruct (_ || _) eqn:E; [discriminate|]. unfold len in E. intros H. assert (l' = firstn (Z.to_nat i) l ++ v :: skipn (S (Z.to_nat i)) l) as -> by congruence. clear H. split.
  - rewrite app_length, firstn_length. change (length (v :: skipn (S (Z.to_nat i)) l)) with (S (length (skipn (S (Z.to_nat i)) l))). rewrite skipn_length. lia.
  - intros j. destruct (Nat.eqb_spec j (Z.to_nat i)) as [->|N].
    + rewrite nth_error_app2 by (rewrite firstn_length; lia). rewrite firstn_length. replace (_ - _)%nat with O by lia. reflexivity.
    + destruct (Nat.lt_ge_cases j (Z.to_nat i)) as [L|L].
      * rewrite nth_error_app1 by (rewrite firstn_length; lia). revert l L E N. generalize (Z.to_nat i). clear. intros k l L _ _. revert l j L.
        induction k as [|k IH]; intros l j L; [lia|]. destruct l as [|x l]; [reflexivity|]. destruct j; [reflexivity|]. cbn. apply IH. lia.
      * rewrite nth_error_app2 by (rewrite firstn_length; lia). rewrite firstn_length. replace (j - Nat.min (Z.to_nat i) (length l))%nat with (S (j - S (Z.to_nat i))) by lia.
        cbn [nth_error]. revert l j L N E. generalize (Z.to_nat i). clear. intros k l j L N _.
        assert (G : forall k (l : list A) m, nth_error (skipn k l) m = nth_error l (k + m)).
        { clear. induction k as [|k IH]; intros l m; [reflexivity|]. destruct l; [destruct m; reflexivity|]. cbn. apply IH. }
        rewrite G. f_equal. lia.
Qed.
Lemma record_values_ok fields : forall vals, length vals = length cs -> exists vals', record_values X t fields vals = Ok vals' /\ length vals' = length cs /\
  forall i c, Column t i = Some c -> nth_error vals' (Z.to_nat i) = option_map (slot_for fields i c) (nth_error vals (Z.to_nat i)).
Proof.
  induction fields as [|f r IH]; intros vals L.
  - exists vals. split; [reflexivity|]. split; [exact L|]. intros i c H. unfold slot_for. cbn [last_for]. destruct (nth_error vals _); cbn; [|reflexivity]. destruct (dc_tree c); reflexivity.
  - cbn [record_values]. destruct (ColumnByName X t (x_local f)) as [c|] eqn:E.
    2: { destruct (IH vals L) as (v' & H1 & H2 & H3). exists v'. split; [exact H1|]. split; [exact H2|]. intros i c H. rewrite (H3 i c H).
         destruct (nth_error vals _); [|reflexivity]. cbn. f_equal. unfold slot_for. cbn [last_for]. rewrite E. destruct (last_for r i); reflexivity. }
    pose proof (named_index _ _ E) as Ec. destruct (column_index _ _ Ec) as (_ & Ri).
    unfold SetValue, validateColumnType. rewrite Ec. cbn [andb negb]. destruct (dc_tree c) as [tr|] eqn:Et.
    + cbn [bind]. destruct (IH vals L) as (v' & H1 & H2 & H3). exists v'. split; [exact H1|]. split; [exact H2|]. intros i c' H. rewrite (H3 i c' H).
      destruct (nth_error vals _); [|reflexivity]. cbn. f_equal. unfold slot_for. destruct (dc_tree c') eqn:Et'; [reflexivity|]. cbn [last_for]. rewrite E.
      destruct (Z.eqb_spec (dc_index c) i) as [Q|Q]; [subst i; congruence|]. destruct (last_for r i); reflexivity.
    + cbn [bind]. set (nv := Some (SCell (xml_cell X (dc_type c) (x_inner f)))).
      assert (exists w, slice_set vals (dc_index c) nv = Ok w) as (w & W).
      { unfold slice_set. destruct (_ || _) eqn:Q; [unfold len in *; lia|eauto]. }
      rewrite W. destruct (slice_set_nth _ _ _ _ W) as (Lw & Nw). destruct (IH w ltac:(congruence)) as (v' & H1 & H2 & H3).
      exists v'. split; [exact H1|]. split; [exact H2|]. intros i c' H. rewrite (H3 i c' H). rewrite Nw. destruct (column_index _ _ H) as (_ & Rj).
      destruct (Nat.eqb_spec (Z.to_nat i) (Z.to_nat (dc_index c))) as [Q|Q].
      * assert (dc_index c = i) as Qi by lia. assert (c' = c) as -> by (rewrite Qi in Ec; congruence).
        destruct (nth_error vals (Z.to_nat i)) eqn:Nv; [|apply nth_error_None in Nv; unfold len in *; lia]. cbn. f_equal. unfold slot_for. rewrite Et. cbn [last_for]. rewrite E, Qi, Z.eqb_refl.
        destruct (last_for r i); reflexivity.
      * destruct (nth_error vals (Z.to_nat i)); [|reflexivity]. cbn. f_equal. unfold slot_for. destruct (dc_tree c'); [reflexivity|]. cbn [last_for]. rewrite E.
        replace (dc_index c =? i) with false by lia. destruct (last_for r i); reflexivity.
Qed.
Definition row_ok (r : drow) (rec : xelem) : Prop := length (row_values r) = length cs /\
  forall i c, Column t i = Some c -> nth_error (row_values r) (Z.to_nat i) = Some (slot_for (x_children rec) i c None).
Lemma nth_repeat_none {A} (n i : nat) : (i < n)%nat -> nth_error (repeat (@None A) n) i = Some None.
Proof. revert i. induction n as [|n IH]; intros i H; [lia|]. destruct i; [reflexivity|]. cbn. apply IH. lia. Qed.
Lemma load_rows_ok recs : forall id, exists rows, load_rows X t recs id = Ok (map Some rows) /\ Forall2 row_ok rows recs /\ map row_id rows = map (fun i => id + Z.of_nat i) (seq 0 (length recs)).
Proof.
  assert (Lc : length (dt_columns t) = length cs) by (pose proof (proj1 (columns_spec X name cs)) as H; unfold len in H; fold t in H; lia).
  induction recs as [|rec recs IH]; intros id; [exists []; split; [reflexivity|split; [constructor|reflexivity]]|].
  cbn [load_rows CreateRow row_values]. destruct (record_values_ok (x_children rec) (repeat None (length (dt_columns t)))) as (v & H1 & H2 & H3); [rewrite repeat_length; exact Lc|].
  rewrite H1. cbn [bind]. destruct (IH (id + 1)) as (rows & R1 & R2 & R3). rewrite R1. cbn [bind]. exists (Row id v :: rows). split; [reflexivity|]. split.
  - constructor; [|exact R2]. split; [exact H2|]. intros i c H. cbn [row_values]. rewrite (H3 i c H). destruct (column_index _ _ H) as (_ & R). rewrite nth_repeat_none by (unfold len in R; lia). reflexivity.
  - cbn [map row_id length seq]. f_equal; [lia|]. rewrite R3. rewrite <- seq_shift, map_map. apply map_ext. intros i. lia.
Qed.
End Records.

(** ** Tables *)
Definition table_ok (X : xlib) (root : xelem) (e e' : bytes * dtable) : Prop :=
  exists cs rows, let name := dt_name (snd e) in snd e = columns_history X name cs /\ fst e' = fst e /\
    snd e' = Table name (dt_indexes (snd e)) (dt_columns (snd e)) (map Some rows) /\ Forall2 (row_ok X name cs) rows (records_of root name).
Lemma load_tables_ok (X : xlib) root : forall ds id, Forall (fun e => exists cs, snd e = columns_history X (dt_name (snd e)) cs) ds ->
  exists ds', load_tables X root ds id = Ok ds' /\ Forall2 (table_ok X root) ds ds'.
Proof.
  induction ds as [|[k t] ds IH]; intros id F; [exists []; split; [reflexivity|constructor]|]. inversion F as [|? ? (cs & E) F2]; subst. cbn [snd] in E. cbn [load_tables].
  destruct (load_rows_ok X (dt_name t) cs (records_of root (dt_name t)) id) as (rows & R1 & R2 & _). rewrite <- E in R1. rewrite R1. cbn [bind].
  destruct (IH (id + len (records_of root (dt_name t))) F2) as (ds' & D1 & D2). rewrite D1. cbn [bind]. eexists. split; [reflexivity|]. constructor; [|exact D2].
  exists cs, rows. cbn [snd fst]. auto.
Qed.
Lemma history_tables (X : xlib) l : Forall (fun t => exists cs, t = columns_history X (dt_name t) cs) l ->
  Forall (fun e => exists cs, snd e = columns_history X (dt_name (snd e)) cs) (set_history X (map SetAdd l)).
Proof.
  intros F. induction l as [|t l IH] using rev_ind; [constructor|]. apply Forall_app in F as (F1 & F2). inversion F2; subst. rewrite map_app. cbn [map]. rewrite history_snoc. cbn [set_step].
  unfold AddTable, map_put. constructor; [exact H1|]. specialize (IH F1). rewrite List.Forall_forall in *. intros x Hx. apply filter_In in Hx as (Hx & _). auto.
Qed.
Definition from_columns (X : xlib) (t : dtable) : Prop := exists cs, t = columns_history X (dt_name t) cs.
Lemma history_from_columns (X : xlib) name cs : from_columns X (columns_history X name cs).
Proof. exists cs. rewrite (proj1 (columns_history_name X name cs)). reflexivity. Qed.
Lemma table_from_ok (X : xlib) prefix n : Forall (from_columns X) (table_from X prefix n).
Proof.
  unfold table_from. generalize (sel n (lit "complexType/sequence/element")) as l. generalize (attr_text (snd n) (lit "name")) as o. intros [name|] l; [|constructor].
  constructor; [apply history_from_columns|constructor].
Qed.
Lemma schema_list_ok (X : xlib) schema : Forall (from_columns X) (schema_list X schema).
Proof.
  unfold schema_list. generalize (sel schema (lit "element/complexType/choice/element")) as l. generalize (schema_prefix X (snd schema)) as p. intros p l.
  induction l as [|n l IH]; [constructor|]. cbn [flat_map]. apply Forall_app. split; [apply table_from_ok|exact IH].
Qed.
(** Loading succeeds exactly for a root with a schema of its name in the schema namespace; it never panics. *)
Lemma find_child_refs name a : forall l k, match find_child name (child_refs a k l), find (fun c => str_eqb (x_local c) name) l with
  | Some n, Some c => snd n = c | None, None => True | _, _ => False end.
Proof. induction l as [|c l IH]; intros k; [exact I|]. cbn [child_refs find_child find snd]. destruct (str_eqb (x_local c) name); [reflexivity|apply IH]. Qed.
Definition loadable_by (root s : xelem) : Prop :=
  schema_of root = Some s /\ map_get (Attributes s) (lit "id") = Some (x_local root) /\ x_space s = XmlSchemaNamespace.
Lemma loadable_iff root : loadable root <-> exists s, loadable_by root s.
Proof. unfold loadable, loadable_by. split; intros (s & H1 & H2 & H3); exists s; rewrite has_attribute_get in *; auto. Qed.
Lemma ParseXml_ok (X : xlib) root s : loadable_by root s -> exists ref ds, snd ref = s /\ ParseXml X NewDataSet (Some root) = Ok ds /\
  Forall2 (table_ok X root) (set_history X (map SetAdd (schema_list X ref))) ds.
Proof.
  intros (E2 & E3 & N). cbn [ParseXml]. unfold ParseXmlDocument, GetChildNodes. cbn [fst snd].
  pose proof (find_child_refs (lit "schema") [] (x_children root) 0) as F. fold (schema_of root) in F.
  destruct (find_child _ _) as [ref|] eqn:E1; rewrite E2 in F; try contradiction.
  rewrite F, E3. rewrite str_eqb_refl, N, str_eqb_refl. cbn [negb]. rewrite loadSchema_eq. cbn [bind].
  destruct (load_tables_ok X root _ 0 (history_tables X _ (schema_list_ok X ref))) as (ds & D1 & D2). exists ref, ds. auto.
Qed.
Lemma ParseXml_err (X : xlib) decoded : ~ (exists root s, decoded = Some root /\ loadable_by root s) -> ParseXml X NewDataSet decoded = Err.
Proof.
  destruct decoded as [root|]; [|reflexivity]. intros N. cbn [ParseXml]. unfold ParseXmlDocument, GetChildNodes. cbn [fst snd].
  pose proof (find_child_refs (lit "schema") [] (x_children root) 0) as F. fold (schema_of root) in F.
  destruct (find_child _ _) as [ref|] eqn:E1; destruct (schema_of root) as [s|] eqn:E2; try contradiction; [|reflexivity].
  rewrite F. destruct (map_get (Attributes s) (lit "id")) as [id|] eqn:E3; [|reflexivity].
  destruct (str_eqb id (x_local root)) eqn:Q1; cbn [negb]; [|reflexivity]. destruct (str_eqb (x_space s) XmlSchemaNamespace) eqn:Q2; cbn [negb]; [|reflexivity].
  exfalso. apply N. apply str_eqb_spec in Q1, Q2. exists root, s. subst. unfold loadable_by. auto.
Qed.
Lemma loadable_by_dec root : {s | loadable_by root s} + {forall s, ~ loadable_by root s}.
Proof.
  unfold loadable_by. destruct (schema_of root) as [s|]; [|right; intros s (H & _); discriminate].
  destruct (map_get (Attributes s) (lit "id")) as [id|] eqn:E; [|right; intros s' (H & H' & _); congruence].
  destruct (str_eqb id (x_local root)) eqn:Q1; [|right; intros s' (H & H' & _); apply str_eqb_neq in Q1; congruence].
  destruct (str_eqb (x_space s) XmlSchemaNamespace) eqn:Q2; [|right; intros s' (H & H' & H''); apply str_eqb_neq in Q2; congruence].
  left. exists s. apply str_eqb_spec in Q1, Q2. subst. auto.
Qed.
