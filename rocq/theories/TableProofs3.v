(** Proofs about data set, column and row lookups: C64, C65. *)
From Coq Require Import String QArith Permutation Lia ZifyBool ZifyNat.
From Verif Require Import Base GuidModel GuidSpec StrModel NumModel ExprModel StrProofs ExprSpec ExprProofs2 TableModel TableSpec TableProofs TableProofs2.
Close Scope Q_scope.
Open Scope Z_scope.

(** ** Maps *)
Lemma str_eqb_refl k : str_eqb k k = true.
Proof. apply str_eqb_spec. reflexivity. Qed.
Lemma str_eqb_neq a b : str_eqb a b = false <-> a <> b.
Proof. pose proof (str_eqb_spec a b). destruct (str_eqb a b); split; intuition congruence. Qed.
Lemma map_get_delete {A} (m : list (bytes * A)) k k' :
  map_get (map_delete m k) k' = if str_eqb k k' then None else map_get m k'.
Proof.
  induction m as [|[x v] m IH]; cbn [map_delete filter map_get fst]; [destruct (str_eqb k k'); reflexivity|].
  fold (map_delete m k). destruct (str_eqb x k) eqn:E; cbn [negb].
  - rewrite IH. apply str_eqb_spec in E as ->. destruct (str_eqb k k'); reflexivity.
  - cbn [map_get]. destruct (str_eqb x k') eqn:E2; [|exact IH].
    apply str_eqb_spec in E2 as ->. destruct (str_eqb k k') eqn:E3; [|reflexivity].
    apply str_eqb_spec in E3 as ->. rewrite str_eqb_refl in E. discriminate.
Qed.
Lemma map_get_put {A} (m : list (bytes * A)) k v k' :
  map_get (map_put m k v) k' = if str_eqb k k' then Some v else map_get m k'.
Proof. unfold map_put. cbn [map_get]. rewrite map_get_delete. destruct (str_eqb k k'); reflexivity. Qed.
Lemma map_delete_keys {A} (m : list (bytes * A)) k x : In x (map fst (map_delete m k)) <-> In x (map fst m) /\ x <> k.
Proof.
  rewrite !in_map_iff. split.
  - intros ([y v] & E & H). apply filter_In in H as [H H2]. cbn [fst] in *. subst y. split; [exists (x, v); auto|].
    apply str_eqb_neq. destruct (str_eqb x k); [discriminate|reflexivity].
  - intros [([y v] & E & H) N]. cbn [fst] in E. subst y. exists (x, v). split; [reflexivity|]. apply filter_In. split; [exact H|].
    cbn [fst]. apply str_eqb_neq in N. rewrite N. reflexivity.
Qed.
Lemma map_delete_nodup {A} (m : list (bytes * A)) k : NoDup (map fst m) -> NoDup (map fst (map_delete m k)).
Proof.
  induction m as [|[x v] m IH]; cbn [map_delete filter map fst]; intros H; [exact H|]. inversion H; subst.
  fold (map_delete m k). destruct (negb (str_eqb x k)); [|apply IH; assumption].
  cbn [map fst]. constructor; [|apply IH; assumption]. intros X. apply map_delete_keys in X as [X _]. contradiction.
Qed.
Lemma map_put_nodup {A} (m : list (bytes * A)) k v : NoDup (map fst m) -> NoDup (map fst (map_put m k v)).
Proof.
  intros H. unfold map_put. cbn [map fst]. constructor; [|apply map_delete_nodup; exact H].
  intros X. apply map_delete_keys in X as [_ X]. congruence.
Qed.
Lemma map_get_in {A} (m : list (bytes * A)) k v : NoDup (map fst m) -> (map_get m k = Some v <-> In (k, v) m).
Proof.
  induction m as [|[x w] m IH]; cbn [map_get map fst In]; intros H; [split; [discriminate|contradiction]|].
  inversion H; subst. destruct (str_eqb x k) eqn:E.
  - apply str_eqb_spec in E as ->. split; [intros [= ->]; left; reflexivity|].
    intros [[= ->]|X]; [reflexivity|]. exfalso. apply H2. apply (in_map fst) in X. exact X.
  - rewrite IH by assumption. apply str_eqb_neq in E. split; [tauto|]. intros [[= -> ->]|X]; [congruence|exact X].
Qed.

(** ** Data sets *)
Lemma same_name_dec L a b : {same_name L a b} + {~ same_name L a b}.
Proof. unfold same_name. destruct (str_eqb (ToUpper L a) (ToUpper L b)) eqn:E; [left; apply str_eqb_spec|right; apply str_eqb_neq]; exact E. Qed.

Lemma history_snoc L h o : set_history L (h ++ [o]) = set_step L (set_history L h) o.
Proof. unfold set_history. rewrite fold_left_app. reflexivity. Qed.

Lemma set_step_table L ds o name :
  DataSetTable L (set_step L ds o) name =
  match o with
  | SetAdd t => if str_eqb (ToUpper L (dt_name t)) (ToUpper L name) then Some t else DataSetTable L ds name
  | SetRemove n => if str_eqb (ToUpper L n) (ToUpper L name) then None else DataSetTable L ds name
  end.
Proof.
  destruct o as [t|n]; cbn [set_step]; unfold DataSetTable, AddTable, RemoveTable.
  - apply map_get_put.
  - destruct (map_get ds (ToUpper L n)) as [x|] eqn:E; cbn [fst].
    + apply map_get_delete.
    + destruct (str_eqb _ _) eqn:E2; [|reflexivity]. apply str_eqb_spec in E2. rewrite <- E2. exact E.
Qed.

Lemma table_latest L h name t : DataSetTable L (set_history L h) name = Some t <-> latest L h name t.
Proof.
  revert name t. induction h as [|o h IH] using rev_ind; intros name t.
  - split; [discriminate|]. intros H. inversion H; match goal with E : _ ++ [_] = [] |- _ => destruct (app_eq_nil _ _ E); discriminate end.
  - rewrite history_snoc, set_step_table. destruct o as [u|n].
    + destruct (str_eqb _ _) eqn:E.
      * apply str_eqb_spec in E. split.
        -- intros [= ->]. apply latest_add. exact E.
        -- intros H. inversion H; match goal with E : _ ++ [_] = _ ++ [_] |- _ => apply app_inj_tail in E as [? E3]; inversion E3 end; subst; [reflexivity|contradiction].
      * apply str_eqb_neq in E. rewrite IH. split.
        -- intros H. apply latest_other_add; assumption.
        -- intros H. inversion H; match goal with E : _ ++ [_] = _ ++ [_] |- _ => apply app_inj_tail in E as [? E3]; inversion E3 end; subst; [contradiction|assumption].
    + destruct (str_eqb _ _) eqn:E.
      * apply str_eqb_spec in E. split; [discriminate|].
        intros H. inversion H; match goal with E : _ ++ [_] = _ ++ [_] |- _ => apply app_inj_tail in E as [? E3]; inversion E3 end; subst. contradiction.
      * apply str_eqb_neq in E. rewrite IH. split.
        -- intros H. apply latest_other_remove; assumption.
        -- intros H. inversion H; match goal with E : _ ++ [_] = _ ++ [_] |- _ => apply app_inj_tail in E as [? E3]; inversion E3 end; subst; assumption.
Qed.

Lemma history_keys L h : NoDup (map fst (set_history L h)) /\ forall k t, In (k, t) (set_history L h) -> k = ToUpper L (dt_name t).
Proof.
  induction h as [|o h [IH1 IH2]] using rev_ind; [split; [constructor|contradiction]|].
  rewrite history_snoc. destruct o as [u|n]; cbn [set_step].
  - unfold AddTable. split; [apply map_put_nodup; exact IH1|]. intros k t [[= <- <-]|H]; [reflexivity|]. apply filter_In in H as [H _]. apply IH2. exact H.
  - unfold RemoveTable. destruct (map_get _ _); cbn [fst]; [|auto]. split; [apply map_delete_nodup; exact IH1|].
    intros k t H. apply filter_In in H as [H _]. apply IH2. exact H.
Qed.

Lemma Tables_latest L h t : In t (Tables (set_history L h)) <-> latest L h (dt_name t) t.
Proof.
  destruct (history_keys L h) as [K1 K2]. rewrite <- table_latest. unfold Tables, DataSetTable. rewrite map_get_in by exact K1.
  rewrite in_map_iff. split.
  - intros ([k u] & E & H). cbn [snd] in E. subst u. rewrite <- (K2 _ _ H). exact H.
  - intros H. exists (ToUpper L (dt_name t), t). auto.
Qed.
Lemma TableNames_distinct L h : NoDup (map (ToUpper L) (TableNames (set_history L h))).
Proof.
  destruct (history_keys L h) as [K1 K2]. replace (map (ToUpper L) (TableNames (set_history L h))) with (map fst (set_history L h)); [exact K1|].
  unfold TableNames. rewrite map_map. apply map_ext_in. intros [k t] H. cbn [fst snd]. apply K2. exact H.
Qed.
Lemma TableCount_names ds : TableCount ds = len (TableNames ds) /\ TableCount ds = len (Tables ds).
Proof. unfold TableCount, TableNames, Tables, len. rewrite !map_length. auto. Qed.

Lemma RemoveTable_result L h name :
  snd (RemoveTable L (set_history L h) name) = true <-> exists t, latest L h name t.
Proof.
  unfold RemoveTable. destruct (map_get (set_history L h) (ToUpper L name)) as [t|] eqn:E; cbn [snd].
  - split; [|reflexivity]. intros _. exists t. apply table_latest. exact E.
  - split; [discriminate|]. intros [t H]. apply table_latest in H. unfold DataSetTable in H. congruence.
Qed.

Lemma case_variant_same L a b : ascii_tables L -> is_ascii a -> is_ascii b -> case_variant a b -> same_name L a b.
Proof.
  intros T Ha Hb H. unfold same_name. rewrite !ToUpper_ascii by assumption. induction H; cbn [map]; [reflexivity|].
  inversion Ha; inversion Hb; subst. f_equal; [assumption|]. apply IHForall2; assumption.
Qed.

(** ** Columns *)
Lemma columns_snoc L name cs c : columns_history L name (cs ++ [c]) = AddColumn L (columns_history L name cs) c.
Proof. unfold columns_history. rewrite fold_left_app. reflexivity. Qed.

Lemma Column_range t i c : Column t i = Some c -> 0 <= i < len (dt_columns t).
Proof. unfold Column. destruct (_ || _) eqn:E; [discriminate|]. lia. Qed.
Lemma Column_of_nat t n : Column t (Z.of_nat n) = nth_error (dt_columns t) n.
Proof.
  unfold Column. unfold len. destruct (_ || _) eqn:E; [|f_equal; lia].
  symmetry. apply nth_error_None. lia.
Qed.

Lemma columns_spec L name cs :
  len (dt_columns (columns_history L name cs)) = len cs /\
  forall i, Column (columns_history L name cs) i =
            if i <? 0 then None else match nth_error cs (Z.to_nat i) with
                                     | Some c => Some (DCol (dc_name c) (dc_type c) (dc_tree c) i)
                                     | None => None end.
Proof.
  induction cs as [|c cs [IH1 IH2]] using rev_ind.
  - split; [reflexivity|]. intros i. unfold Column. cbn. destruct (i <? 0) eqn:E; cbn; [reflexivity|].
    replace (0 <=? i) with true by lia. destruct (Z.to_nat i); reflexivity.
  - rewrite columns_snoc. set (t := columns_history L name cs) in *. unfold AddColumn.
    split. { cbn [dt_columns]. unfold len in *. rewrite !app_length. cbn [length]. lia. }
    intros i. specialize (IH2 i). unfold Column in *. cbn [dt_columns].
    unfold len in *. rewrite app_length. cbn [length].
    destruct (Z.ltb_spec i 0) as [Hi|Hi]; [reflexivity|]. cbn [orb] in *.
    destruct (Z.leb_spec (Z.of_nat (length (dt_columns t) + 1)) i) as [Hj|Hj].
    + replace (nth_error (cs ++ [c]) (Z.to_nat i)) with (@None dcol); [reflexivity|]. symmetry. apply nth_error_None. rewrite app_length. cbn [length]. lia.
    + destruct (Z.leb_spec (Z.of_nat (length (dt_columns t))) i) as [Hk|Hk].
      * rewrite (nth_error_app2 (dt_columns t)) by lia. rewrite (nth_error_app2 cs) by lia.
        replace (Z.to_nat i - length (dt_columns t))%nat with 0%nat by lia. replace (Z.to_nat i - length cs)%nat with 0%nat by lia.
        cbn [nth_error]. do 2 f_equal. lia.
      * rewrite (nth_error_app1 (dt_columns t)) by lia. rewrite (nth_error_app1 cs) by lia. exact IH2.
Qed.

(** The column found by a name is the last of that name. *)
Definition last_named (L : lib) (t : dtable) (name : bytes) (i : Z) (c : dcol) : Prop :=
  Column t i = Some c /\ same_name L (dc_name c) name /\
  forall j d, i < j -> Column t j = Some d -> ~ same_name L (dc_name d) name.

Lemma indexes_spec L name cs k i :
  map_get (dt_indexes (columns_history L name cs)) k = Some i <->
  exists c, nth_error cs (Z.to_nat i) = Some c /\ 0 <= i /\ ToUpper L (dc_name c) = k /\
  forall j d, (Z.to_nat i < j)%nat -> nth_error cs j = Some d -> ToUpper L (dc_name d) <> k.
Proof.
  revert i. induction cs as [|c cs IH] using rev_ind; intros i.
  - split; [discriminate|]. intros (c & H & _). destruct (Z.to_nat i); discriminate H.
  - rewrite columns_snoc. unfold AddColumn. cbn [dt_indexes]. rewrite map_get_put.
    pose proof (proj1 (columns_spec L name cs)) as Hl. unfold len in Hl.
    destruct (str_eqb _ _) eqn:E.
    + apply str_eqb_spec in E. split.
      * intros [= <-]. exists c. unfold len. rewrite Nat2Z.id. replace (length _) with (length cs) by lia.
        rewrite nth_error_app2 by lia. rewrite Nat.sub_diag. cbn [nth_error]. repeat split; try lia; try assumption.
        intros j d Hj Hn. assert (j < length (cs ++ [c]))%nat by (apply nth_error_Some; congruence). rewrite app_length in H. cbn [length] in H. lia.
      * intros (d & Hd & H0 & Hk & Hlast). f_equal. unfold len. replace (length _) with (length cs) by lia.
        destruct (Nat.eq_dec (Z.to_nat i) (length cs)) as [X|X]; [lia|].
        assert (Hi : (Z.to_nat i < length (cs ++ [c]))%nat) by (apply nth_error_Some; congruence). rewrite app_length in Hi. cbn [length] in Hi.
        exfalso. apply (Hlast (length cs) c); [lia| |assumption]. rewrite nth_error_app2 by lia. rewrite Nat.sub_diag. reflexivity.
    + apply str_eqb_neq in E. rewrite IH. split.
      * intros (d & Hd & H0 & Hk & Hlast). exists d. assert (Hi : (Z.to_nat i < length cs)%nat) by (apply nth_error_Some; congruence).
        rewrite nth_error_app1 by assumption. repeat split; try assumption.
        intros j d' Hj Hn. destruct (Nat.lt_ge_cases j (length cs)) as [X|X].
        -- rewrite nth_error_app1 in Hn by assumption. eapply Hlast; eassumption.
        -- rewrite nth_error_app2 in Hn by assumption. destruct (j - length cs)%nat as [|q]; cbn in Hn; [inversion Hn; subst; exact E|destruct q; discriminate Hn].
      * intros (d & Hd & H0 & Hk & Hlast). exists d.
        assert (Hi : (Z.to_nat i < length cs)%nat).
        { destruct (Nat.lt_ge_cases (Z.to_nat i) (length cs)) as [X|X]; [exact X|].
          rewrite nth_error_app2 in Hd by assumption. destruct (Z.to_nat i - length cs)%nat as [|q]; cbn in Hd; [inversion Hd; subst; contradiction|destruct q; discriminate Hd]. }
        rewrite nth_error_app1 in Hd by assumption. repeat split; try assumption.
        intros j d' Hj Hn. apply (Hlast j d' Hj). rewrite nth_error_app1; [exact Hn|]. apply nth_error_Some. congruence.
Qed.

Lemma ColumnByName_spec L n cs name c :
  let t := columns_history L n cs in
  ColumnByName L t name = Some c <-> last_named L t name (dc_index c) c.
Proof.
  intros t. destruct (columns_spec L n cs) as [Hl Hc]. fold t in Hl, Hc. unfold ColumnByName, last_named.
  split.
  - destruct (map_get (dt_indexes t) (ToUpper L name)) as [i|] eqn:E; [|discriminate].
    apply indexes_spec in E as (d & Hd & H0 & Hk & Hlast). rewrite Hc. destruct (i <? 0) eqn:E0; [lia|]. rewrite Hd.
    intros [= <-]. cbn [dc_index dc_name]. rewrite Hc, E0, Hd. repeat split; [exact Hk|].
    intros j d' Hj. rewrite Hc. destruct (j <? 0) eqn:Ej; [discriminate|].
    destruct (nth_error cs (Z.to_nat j)) as [x|] eqn:Ex; [|discriminate]. intros [= <-]. cbn [dc_name].
    apply (Hlast (Z.to_nat j)); [lia|exact Ex].
  - intros (H1 & H2 & H3).
    assert (X : map_get (dt_indexes t) (ToUpper L name) = Some (dc_index c)).
    { apply indexes_spec. rewrite Hc in H1. destruct (dc_index c <? 0) eqn:E0; [discriminate|].
      destruct (nth_error cs (Z.to_nat (dc_index c))) as [x|] eqn:Ex; [|discriminate]. exists x. repeat split; try lia.
      - inversion H1. rewrite <- H0 in H2. exact H2.
      - intros j d Hj Hd. specialize (H3 (Z.of_nat j) (DCol (dc_name d) (dc_type d) (dc_tree d) (Z.of_nat j))).
        cbn [dc_name] in H3. apply H3; [lia|]. rewrite Hc. replace (Z.of_nat j <? 0) with false by lia. rewrite Nat2Z.id, Hd. reflexivity. }
    rewrite X. exact H1.
Qed.
Lemma ColumnByName_none L n cs name :
  let t := columns_history L n cs in
  ColumnByName L t name = None <-> forall i c, Column t i = Some c -> ~ same_name L (dc_name c) name.
Proof.
  intros t. destruct (columns_spec L n cs) as [Hl Hc]. fold t in Hl, Hc. split.
  - intros H i c Hi S.
    (* the last column of that name *)
    assert (P : exists k, map_get (dt_indexes t) (ToUpper L name) = Some k).
    { clear H. rewrite Hc in Hi. destruct (i <? 0) eqn:E0; [discriminate|]. destruct (nth_error cs (Z.to_nat i)) as [x|] eqn:Ex; [|discriminate].
      inversion Hi; subst c. cbn [dc_name] in S. clear Hi Hc Hl. unfold t. clear t. revert Ex. generalize (Z.to_nat i). clear i E0.
      induction cs as [|y cs IH] using rev_ind; intros m Ex; [destruct m; discriminate|].
      rewrite columns_snoc. unfold AddColumn. cbn [dt_indexes]. rewrite map_get_put. destruct (str_eqb (ToUpper L (dc_name y)) (ToUpper L name)) eqn:E; [eauto|].
      destruct (Nat.lt_ge_cases m (length cs)) as [X|X]; [rewrite nth_error_app1 in Ex by assumption; eapply IH; eassumption|].
      rewrite nth_error_app2 in Ex by assumption. destruct (m - length cs)%nat as [|q]; cbn in Ex; [|destruct q; discriminate Ex].
      inversion Ex; subst. apply str_eqb_neq in E. contradiction. }
    destruct P as [k Hk]. unfold ColumnByName in H. rewrite Hk in H. apply indexes_spec in Hk as (d & Hd & H0 & _).
    rewrite Hc in H. destruct (k <? 0) eqn:E0; [lia|]. rewrite Hd in H. discriminate.
  - intros H. destruct (ColumnByName L t name) as [c|] eqn:E; [|reflexivity].
    apply ColumnByName_spec in E as (H1 & H2 & _). exfalso. exact (H _ _ H1 H2).
Qed.
Lemma ColumnIndex_spec L n cs name :
  let t := columns_history L n cs in
  (forall i, 0 <= i -> (ColumnIndex L t name = i <-> exists c, last_named L t name i c)) /\
  (ColumnIndex L t name = -1 <-> forall i c, Column t i = Some c -> ~ same_name L (dc_name c) name).
Proof.
  intros t. destruct (columns_spec L n cs) as [Hl Hc]. fold t in Hl, Hc.
  assert (Ix : forall i c, Column t i = Some c -> dc_index c = i /\ 0 <= i).
  { intros i c. rewrite Hc. destruct (i <? 0) eqn:E; [discriminate|]. destruct (nth_error _ _); [|discriminate]. intros [= <-]. cbn. lia. }
  unfold ColumnIndex. split.
  - intros i Hi. split.
    + destruct (ColumnByName L t name) as [c|] eqn:E; [|lia]. intros <-. exists c. apply ColumnByName_spec. exact E.
    + intros [c H]. destruct (Ix _ _ (proj1 H)) as [<- _].
      apply (ColumnByName_spec L n cs) in H. fold t in H. rewrite H. reflexivity.
  - pose proof (ColumnByName_none L n cs name) as Hn. cbv zeta in Hn. fold t in Hn. rewrite <- Hn. destruct (ColumnByName L t name) as [c|] eqn:E; [|tauto].
    apply ColumnByName_spec in E as (H1 & _). destruct (Ix _ _ H1). split; [lia|discriminate].
Qed.

(** ** Rows *)
Lemma validate_spec t i target read :
  validateColumnType t i target read =
  match Column t i with
  | Some c => if (match target with Some ty => dtype_eqb (dc_type c) ty | None => true end) &&
                 (read || match dc_tree c with Some _ => false | None => true end) then Ok c else Err
  | None => Err
  end.
Proof. unfold validateColumnType. destruct (Column t i) as [c|]; [|reflexivity]. destruct target as [ty|], read, (dc_tree c); try destruct (dtype_eqb (dc_type c) ty); reflexivity. Qed.

Lemma nth_error_skipn' {A} n (l : list A) k : nth_error (skipn n l) k = nth_error l (n + k).
Proof. revert l. induction n as [|n IH]; intros l; [reflexivity|]. destruct l; [destruct k; reflexivity|]. apply IH. Qed.
Lemma slice_set_spec {A} (l : list A) i v : 0 <= i < len l ->
  exists l', slice_set l i v = Ok l' /\ length l' = length l /\ forall j, idx l' j = if j =? i then Ok v else idx l j.
Proof.
  intros H. unfold slice_set, len in *. destruct (_ || _) eqn:E; [lia|]. eexists. split; [reflexivity|].
  assert (Hf : length (firstn (Z.to_nat i) l) = Z.to_nat i) by (rewrite firstn_length; lia).
  split. { rewrite app_length. cbn [length]. rewrite Hf, skipn_length. lia. }
  intros j. unfold idx. destruct (Z.ltb_spec j 0); [destruct (Z.eqb_spec j i); [lia|reflexivity]|].
  destruct (Z.eqb_spec j i) as [->|N].
  - rewrite nth_error_app2 by lia. rewrite Hf, Nat.sub_diag. reflexivity.
  - destruct (Z.ltb_spec j i).
    + rewrite nth_error_app1 by lia. rewrite <- (firstn_skipn (Z.to_nat i) l) at 2. rewrite nth_error_app1 by lia. reflexivity.
    + rewrite nth_error_app2 by lia. rewrite Hf. replace (Z.to_nat j - Z.to_nat i)%nat with (S (Z.to_nat j - S (Z.to_nat i)))%nat by lia.
      cbn [nth_error]. rewrite nth_error_skipn'. replace (S (Z.to_nat i) + (Z.to_nat j - S (Z.to_nat i)))%nat with (Z.to_nat j) by lia. reflexivity.
Qed.

Definition plain (t : dtable) (i : Z) : bool :=
  match Column t i with Some c => match dc_tree c with None => true | Some _ => false end | None => false end.

Lemma SetValue_spec t vals i v :
  SetValue t vals i v = if plain t i then slice_set vals i v else Err.
Proof.
  unfold SetValue, plain. rewrite validate_spec. destruct (Column t i) as [c|]; [|reflexivity].
  cbn [andb orb]. destruct (dc_tree c); reflexivity.
Qed.

Lemma set_values_spec t vals h : len vals = ColumnCount t ->
  exists vals', set_values t vals h = Ok vals' /\ len vals' = ColumnCount t /\
  forall i, 0 <= i < ColumnCount t ->
    idx vals' i = let* v := idx vals i in Ok (if plain t i then last_assigned h i v else v).
Proof.
  revert vals. induction h as [|[j w] h IH]; intros vals Hl; cbn [set_values last_assigned].
  - exists vals. repeat split; [exact Hl|]. intros i Hi. destruct (idx vals i); cbn [bind]; try reflexivity. destruct (plain t i); reflexivity.
  - rewrite SetValue_spec. destruct (plain t j) eqn:P.
    + assert (Hj : 0 <= j < len vals).
      { unfold plain in P. destruct (Column t j) eqn:E; [|discriminate]. apply Column_range in E. rewrite Hl. exact E. }
      destruct (slice_set_spec vals j w Hj) as (vals1 & E & L1 & I1). rewrite E.
      destruct (IH vals1) as (vals2 & E2 & L2 & I2). { unfold len in *. lia. }
      exists vals2. repeat split; try assumption. intros i Hi. rewrite I2, I1 by assumption.
      destruct (Z.eqb_spec i j) as [->|N].
      * rewrite Z.eqb_refl, P. unfold idx. destruct (j <? 0) eqn:X; [lia|].
        destruct (nth_error vals (Z.to_nat j)) eqn:Y; cbn [bind]; [reflexivity|]. apply nth_error_None in Y. unfold len in Hj. lia.
      * replace (j =? i) with false by lia. reflexivity.
    + destruct (IH vals Hl) as (vals2 & E2 & L2 & I2). exists vals2. repeat split; try assumption.
      intros i Hi. rewrite I2 by assumption. destruct (Z.eqb_spec j i) as [->|N]; [rewrite P; reflexivity|reflexivity].
Qed.

Lemma idx_repeat {A} (x : A) n i : 0 <= i < Z.of_nat n -> idx (repeat x n) i = Ok x.
Proof.
  intros H. unfold idx. destruct (i <? 0) eqn:E; [lia|]. rewrite nth_error_repeat by lia. reflexivity.
Qed.

Lemma new_row_history t id h :
  exists vals, set_values t (row_values (CreateRow t id)) h = Ok vals /\ len vals = ColumnCount t /\
  forall i, 0 <= i < ColumnCount t -> idx vals i = Ok (if plain t i then last_assigned h i None else None).
Proof.
  destruct (set_values_spec t (row_values (CreateRow t id)) h) as (vals & E & L1 & I1).
  { unfold CreateRow, ColumnCount, len. cbn [row_values]. rewrite repeat_length. reflexivity. }
  exists vals. repeat split; try assumption. intros i Hi. rewrite I1 by assumption. unfold CreateRow. cbn [row_values].
  unfold ColumnCount, len in Hi. rewrite idx_repeat by exact Hi. reflexivity.
Qed.

Lemma typed_read t vals i c v ty depth D :
  Column t i = Some c -> dc_tree c = None -> idx vals i = Ok v ->
  TypedValue (S depth) D t vals i ty = if dtype_eqb (dc_type c) ty then assert_type ty v else Err.
Proof.
  intros Hc Ht Hv. cbn [TypedValue]. rewrite validate_spec, Hc. cbn [orb]. rewrite andb_true_r.
  destruct (dtype_eqb (dc_type c) ty); cbn [bind]; [|reflexivity]. rewrite Ht, Hv. reflexivity.
Qed.
Lemma typed_no_column t vals i ty depth D : Column t i = None -> TypedValue (S depth) D t vals i ty = Err.
Proof. intros H. cbn [TypedValue]. rewrite validate_spec, H. reflexivity. Qed.
Lemma typed_wrong_type t vals i c ty depth D : Column t i = Some c -> dc_type c <> ty -> TypedValue (S depth) D t vals i ty = Err.
Proof.
  intros H N. cbn [TypedValue]. rewrite validate_spec, H. destruct (dtype_eqb (dc_type c) ty) eqn:E; [apply dtype_eqb_eq in E; congruence|reflexivity].
Qed.
Lemma typed_computed t vals i c e depth (D : dlib) :
  Column t i = Some c -> dc_tree c = Some (Ok e) -> idx vals i = Ok None ->
  TypedValue (S depth) D t vals i (dc_type c) =
  let* v := Evaluate D (Some (TypedValue depth D t vals)) e in
  let* x := computed_cell D v (dc_type c) in
  if dtype_eqb (cell_type x) (dc_type c) then Ok (Some x) else Panic.
Proof.
  intros Hc Ht Hv. cbn [TypedValue]. rewrite validate_spec, Hc. cbn [orb]. rewrite andb_true_r.
  replace (dtype_eqb (dc_type c) (dc_type c)) with true by (symmetry; apply dtype_eqb_eq; reflexivity). cbn [bind]. rewrite Ht.
  unfold getComputedValue, cached_tree. rewrite Hv. cbn [bind]. destruct (Evaluate _ _ _); reflexivity.
Qed.

(** A value converted to a column's type has that type. *)
Lemma int_or_err_type ty n x : int_or_err ty n = Ok x -> cell_type x = ty.
Proof. unfold int_or_err. destruct ty; cbn; try discriminate; intros [= <-]; reflexivity. Qed.
Lemma computed_cell_type D v ty x : computed_cell D v ty = Ok x -> cell_type x = ty.
Proof.
  unfold computed_cell. destruct (ve_type v); try discriminate;
    match goal with |- (let* _ := ?a in _) = _ -> _ => destruct a as [y| |]; cbn [bind]; try discriminate end.
  - destruct ty; cbn [row_convertFromBoolean]; try apply int_or_err_type; intros [= <-]; reflexivity.
  - destruct ty; cbn [row_convertFromInt]; try apply int_or_err_type; intros [= <-]; reflexivity.
  - destruct ty; cbn [row_convertFromInt]; try apply int_or_err_type; intros [= <-]; reflexivity.
  - destruct ty; cbn [row_convertFromDecimal]; try apply int_or_err_type; intros [= <-]; reflexivity.
  - destruct ty; cbn [row_convertFromDouble]; try apply int_or_err_type; try (intros [= <-]; reflexivity).
    destruct (NewFromFloat _ _) as [d| |]; cbn [bind]; try discriminate. intros [= <-]; reflexivity.
  - destruct ty; cbn [row_convertFromString];
      try match goal with |- (let* _ := ?a in _) = _ -> _ => destruct a as [z| |]; cbn [bind]; try discriminate end;
      try apply int_or_err_type; intros [= <-]; reflexivity.
  - destruct ty; cbn [row_convertFromGuid]; try discriminate; intros [= <-]; reflexivity.
  - destruct ty; cbn [row_convertFromDateTime]; try apply int_or_err_type; try discriminate; intros [= <-]; reflexivity.
Qed.
Lemma typed_computed' t vals i c e depth (D : dlib) :
  Column t i = Some c -> dc_tree c = Some (Ok e) -> idx vals i = Ok None ->
  TypedValue (S depth) D t vals i (dc_type c) =
  let* v := Evaluate D (Some (TypedValue depth D t vals)) e in
  let* x := computed_cell D v (dc_type c) in Ok (Some x).
Proof.
  intros Hc Ht Hv. rewrite (typed_computed _ _ _ _ _ _ _ Hc Ht Hv). destruct (Evaluate _ _ _) as [v| |]; cbn [bind]; try reflexivity.
  destruct (computed_cell _ _ _) as [x| |] eqn:E; cbn [bind]; try reflexivity. apply computed_cell_type in E. rewrite E.
  replace (dtype_eqb (dc_type c) (dc_type c)) with true by (symmetry; apply dtype_eqb_eq; reflexivity). reflexivity.
Qed.

(** By name. *)
Lemma typed_by_name depth (D : dlib) t vals name ty :
  TypedValueByName depth D t vals name ty =
  match ColumnByName D t name with Some c => TypedValue depth D t vals (dc_index c) ty | None => Err end.
Proof. unfold TypedValueByName, getColumnIndex. destruct (ColumnByName D t name); reflexivity. Qed.
Lemma set_by_name L t vals name v :
  SetValueByName L t vals name v =
  match ColumnByName L t name with Some c => SetValue t vals (dc_index c) v | None => Err end.
Proof. unfold SetValueByName, getColumnIndex. destruct (ColumnByName L t name); reflexivity. Qed.
Lemma value_by_name depth (D : dlib) n cs vals name c : let t := columns_history D n cs in
  ColumnByName D t name = Some c -> dc_tree c = None ->
  ValueByName D t vals name = Value depth D t vals (dc_index c).
Proof.
  intros t H Ht. unfold ValueByName, getColumnIndex, Value. rewrite H. cbn [bind]. rewrite validate_spec.
  apply ColumnByName_spec in H as (H1 & _). fold t in H1. rewrite H1. cbn [andb orb bind]. rewrite Ht. reflexivity.
Qed.

(** ** Cloning rows *)
Lemma Value_plain depth D t vals i : plain t i = true -> Value depth D t vals i = idx vals i.
Proof.
  unfold plain, Value. rewrite validate_spec. destruct (Column t i) as [c|]; [|discriminate]. cbn [andb orb bind].
  destruct (dc_tree c); [discriminate|reflexivity].
Qed.
Lemma clone_loop_spec depth D t source n : forall i vals,
  (forall j, Value depth D t source j <> Panic) -> len vals = ColumnCount t -> 0 <= i -> i + Z.of_nat n = ColumnCount t ->
  exists out, clone_loop depth D t source n i vals = Ok out /\ len out = ColumnCount t /\
  forall j, idx out j = if (i <=? j) && plain t j then idx source j else idx vals j.
Proof.
  induction n as [|n IH]; intros i vals HP Hl H0 Hn; cbn [clone_loop].
  - exists vals. repeat split; [exact Hl|]. intros j. destruct (i <=? j) eqn:E; [|reflexivity]. cbn [andb].
    destruct (plain t j) eqn:P; [|reflexivity]. unfold plain in P. destruct (Column t j) eqn:C; [|discriminate]. apply Column_range in C. unfold ColumnCount in Hn. lia.
  - assert (Hv : exists v, match Value depth D t source i with Ok v => Ok v | Err => Ok None | Panic => Panic end = Ok v /\
                 (plain t i = true -> idx source i = Ok v)).
    { specialize (HP i). destruct (Value depth D t source i) as [v| |] eqn:V; [| |congruence].
      - exists v. split; [reflexivity|]. intros P. rewrite Value_plain in V by exact P. exact V.
      - exists None. split; [reflexivity|]. intros P. rewrite Value_plain in V by exact P. unfold idx in V. destruct (i <? 0); [discriminate|]. destruct (nth_error _ _); discriminate. }
    destruct Hv as (v & Ev & Hv). rewrite Ev. cbn [bind]. rewrite SetValue_spec. destruct (plain t i) eqn:P.
    + destruct (slice_set_spec vals i v) as (vals1 & E & L1 & I1). { rewrite Hl. lia. }
      rewrite E. cbn [bind]. destruct (IH (i + 1) vals1 HP) as (out & E2 & L2 & I2); try lia. { unfold len in *. lia. }
      exists out. repeat split; [exact E2|exact L2|]. intros j. rewrite I2, I1.
      destruct (Z.eqb_spec j i) as [->|N].
      * replace (i + 1 <=? i) with false by lia. replace (i <=? i) with true by lia. cbn [andb]. rewrite P. rewrite Hv by reflexivity. reflexivity.
      * replace (i + 1 <=? j) with (i <=? j) by lia. reflexivity.
    + cbn [bind]. destruct (IH (i + 1) vals HP Hl) as (out & E2 & L2 & I2); try lia.
      exists out. repeat split; [exact E2|exact L2|]. intros j. rewrite I2.
      destruct (Z.eqb_spec j i) as [->|N].
      * replace (i + 1 <=? i) with false by lia. rewrite P, !andb_false_r. reflexivity.
      * replace (i + 1 <=? j) with (i <=? j) by lia. reflexivity.
Qed.
Lemma list_idx_ext {A} (l k : list A) : len l = len k -> (forall j, 0 <= j < len l -> idx l j = idx k j) -> l = k.
Proof.
  unfold len. revert k. induction l as [|x l IH]; intros [|y k] H E; cbn [length] in *; try lia; [reflexivity|].
  pose proof (E 0 ltac:(lia)) as E0. cbn in E0. inversion E0; subst y. f_equal. apply IH; [lia|].
  intros j Hj. specialize (E (j + 1) ltac:(lia)). unfold idx in *. destruct (j <? 0) eqn:X; [lia|]. destruct (j + 1 <? 0) eqn:Y; [lia|].
  replace (Z.to_nat (j + 1)) with (S (Z.to_nat j)) in E by lia. cbn [nth_error] in E. exact E.
Qed.
Lemma CloneRow_spec depth D t r id :
  (forall j, Value depth D t (row_values r) j <> Panic) -> len (row_values r) = ColumnCount t ->
  (forall i, 0 <= i < ColumnCount t -> plain t i = false -> idx (row_values r) i = Ok None) ->
  CloneRow depth D t r id = Ok (Row id (row_values r)).
Proof.
  intros HP Hl Hc. unfold CloneRow.
  destruct (clone_loop_spec depth D t (row_values r) (length (dt_columns t)) 0 (row_values (CreateRow t id)) HP) as (out & E & L1 & I1);
    unfold ColumnCount, len in *; cbn [CreateRow row_values]; rewrite ?repeat_length; try lia.
  cbn [CreateRow row_values] in E. rewrite E. cbn [bind]. do 2 f_equal. apply list_idx_ext; [unfold len; lia|].
  intros j Hj. unfold len in Hj. rewrite I1. replace (0 <=? j) with true by lia. cbn [andb]. destruct (plain t j) eqn:P; [reflexivity|].
  cbn [CreateRow row_values]. rewrite idx_repeat by lia. symmetry. apply Hc; [lia|exact P].
Qed.
