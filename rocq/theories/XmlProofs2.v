(** Selecting nodes by path. *)
From Coq Require Import Lia ZifyBool ZifyNat String Sorting.Sorted.
From Verif Require Import Base GuidModel FormatModel StrModel CalModel NumModel ExprModel ExprSpec StrProofs TableModel TableSpec TableProofs3 XmlModel XmlSpec XmlProofs.
Open Scope list_scope.
Open Scope Z_scope.

(** ** Text *)
Lemma decode_bytes : forall n s, (length s <= n)%nat -> List.concat (map snd (decode s)) = s.
Proof.
  induction n as [|n IH]; intros s L; [destruct s; [reflexivity|cbn in L; lia]|].
  destruct s as [|b0 s1]; [reflexivity|]. cbn [length] in L. cbn [decode].
  destruct (b0 <? 128). { cbn [map snd List.concat app]. rewrite IH by lia. reflexivity. }
  destruct ((194 <=? b0) && (b0 <=? 223)).
  { destruct s1 as [|b1 s2]; [reflexivity|]. cbn [length] in L. destruct (is_cont b1); cbn [map snd List.concat app]; rewrite IH by (cbn [length]; lia); reflexivity. }
  destruct ((224 <=? b0) && (b0 <=? 239)).
  { destruct s1 as [|b1 [|b2 s3]]; [reflexivity| |].
    - cbn [map snd List.concat app]. rewrite IH by (cbn [length] in *; lia). reflexivity.
    - cbn [length] in L. destruct (_ && is_cont b2); cbn [map snd List.concat app]; rewrite IH by (cbn [length]; lia); reflexivity. }
  destruct ((240 <=? b0) && (b0 <=? 244)).
  { destruct s1 as [|b1 [|b2 [|b3 s4]]]; [reflexivity| | |].
    - cbn [map snd List.concat app]. rewrite IH by (cbn [length] in *; lia). reflexivity.
    - cbn [map snd List.concat app]. rewrite IH by (cbn [length] in *; lia). reflexivity.
    - cbn [length] in L. destruct (_ && is_cont b3); cbn [map snd List.concat app]; rewrite IH by (cbn [length]; lia); reflexivity. }
  cbn [map snd List.concat app]. rewrite IH by lia. reflexivity.
Qed.
Lemma decode_concat s : List.concat (map snd (decode s)) = s. Proof. apply (decode_bytes (length s)). lia. Qed.
Lemma decode_snoc b : 0 <= b < 128 -> forall n s, (length s <= n)%nat -> decode (s ++ [b]) = decode s ++ [(b, [b])].
Proof.
  intros Hb. assert (B1 : (b <? 128) = true) by lia. assert (B2 : is_cont b = false) by (unfold is_cont; lia).
  induction n as [|n IH]; intros s L.
  { destruct s; [|cbn in L; lia]. cbn [app decode]. rewrite B1. reflexivity. }
  destruct s as [|b0 s1]; [cbn [app decode]; rewrite B1; reflexivity|]. cbn [length] in L.
  assert (J : forall x, decode (s1 ++ [b]) = decode s1 ++ [(b, [b])] -> x :: decode (s1 ++ [b]) = (x :: decode s1) ++ [(b, [b])]) by (intros x ->; reflexivity).
  cbn [app decode].
  destruct (b0 <? 128); [apply J, IH; lia|].
  destruct ((194 <=? b0) && (b0 <=? 223)).
  { destruct s1 as [|b1 s2]; cbn [app] in *.
    - rewrite B2. apply (J (RuneError, [b0])). apply (IH []). cbn; lia.
    - cbn [length] in L. destruct (is_cont b1); [|apply (J (RuneError, [b0])), (IH (b1 :: s2)); cbn; lia].
      rewrite (IH s2) by lia. reflexivity. }
  destruct ((224 <=? b0) && (b0 <=? 239)).
  { destruct s1 as [|b1 [|b2 s3]]; cbn [app] in *.
    - apply (J (RuneError, [b0])). apply (IH []). cbn; lia.
    - rewrite B2, andb_false_r. apply (J (RuneError, [b0])). apply (IH [b1]). cbn in *; lia.
    - cbn [length] in L. destruct (_ && is_cont b2); [|apply (J (RuneError, [b0])), (IH (b1 :: b2 :: s3)); cbn; lia].
      rewrite (IH s3) by lia. reflexivity. }
  destruct ((240 <=? b0) && (b0 <=? 244)).
  { destruct s1 as [|b1 [|b2 [|b3 s4]]]; cbn [app] in *.
    - apply (J (RuneError, [b0])). apply (IH []). cbn; lia.
    - apply (J (RuneError, [b0])). apply (IH [b1]). cbn in *; lia.
    - rewrite B2, andb_false_r. apply (J (RuneError, [b0])). apply (IH [b1; b2]). cbn in *; lia.
    - cbn [length] in L. destruct (_ && is_cont b3); [|apply (J (RuneError, [b0])), (IH (b1 :: b2 :: b3 :: s4)); cbn; lia].
      rewrite (IH s4) by lia. reflexivity. }
  apply J, IH; lia.
Qed.
Lemma graph_not_space b : 33 <= b <= 126 -> rune_is_space b = false.
Proof. unfold rune_is_space. lia. Qed.
(** A text with printable ASCII at both ends. *)
Lemma TrimSpace_tight s : (exists b r, s = b :: r /\ 33 <= b <= 126) -> (exists r b, s = r ++ [b] /\ 33 <= b <= 126) -> str_TrimSpace s = s.
Proof.
  intros (b & r & E1 & B1) (q & c & E2 & B2). unfold str_TrimSpace.
  assert (L : trim_left_by rune_is_space s = s).
  { unfold trim_left_by. rewrite <- (decode_concat s) at 2. rewrite E1. cbn [decode]. replace (b <? 128) with true by lia.
    cbn [drop_while fst]. rewrite (graph_not_space b B1). reflexivity. }
  rewrite L. unfold trim_right_by. rewrite E2. rewrite (decode_snoc c ltac:(lia) (length q) q) by lia.
  rewrite rev_app_distr. cbn [rev app drop_while fst]. rewrite (graph_not_space c B2). cbn [rev]. rewrite rev_involutive, map_app, concat_app. cbn [map snd List.concat].
  rewrite decode_concat, app_nil_r. reflexivity.
Qed.

Lemma split_byte_none sep s : ~ In sep s -> split_byte sep s = [s].
Proof.
  induction s as [|b s IH]; intros H; [reflexivity|]. cbn [split_byte]. replace (b =? sep) with false by (symmetry; apply Z.eqb_neq; intros ->; apply H; left; reflexivity).
  rewrite IH by (intros X; apply H; right; exact X). reflexivity.
Qed.
Lemma split_byte_app sep s t : ~ In sep s -> split_byte sep (s ++ sep :: t) = s :: split_byte sep t.
Proof.
  induction s as [|b s IH]; intros H; cbn [app split_byte]; [rewrite Z.eqb_refl; reflexivity|].
  replace (b =? sep) with false by (symmetry; apply Z.eqb_neq; intros ->; apply H; left; reflexivity).
  rewrite IH by (intros X; apply H; right; exact X). reflexivity.
Qed.
Lemma index_byte_none c s : ~ In c s -> index_byte c s = -1.
Proof.
  induction s as [|b s IH]; intros H; [reflexivity|]. cbn [index_byte]. replace (b =? c) with false by (symmetry; apply Z.eqb_neq; intros ->; apply H; left; reflexivity).
  rewrite IH by (intros X; apply H; right; exact X). reflexivity.
Qed.
Lemma index_byte_app c s t : ~ In c s -> index_byte c (s ++ c :: t) = Z.of_nat (length s).
Proof.
  induction s as [|b s IH]; intros H; cbn [app index_byte length]; [rewrite Z.eqb_refl; reflexivity|].
  replace (b =? c) with false by (symmetry; apply Z.eqb_neq; intros ->; apply H; left; reflexivity).
  rewrite IH by (intros X; apply H; right; exact X). destruct (_ =? -1) eqn:E; lia.
Qed.

(** ** Names and values *)
Lemma name_graph n : good_name n -> Forall (fun b => 33 <= b <= 126) (name_text n) /\ name_text n <> [] /\
  forall c, In c (lit "/[]=@'") -> ~ In c (name_text n).
Proof.
  destruct n as [|n]; cbn [good_name name_text].
  - intros _. split; [repeat constructor; lia|]. split; [discriminate|]. intros c Hc [<-|[]]. cbn in Hc. intuition discriminate.
  - intros (H1 & H2). split; [eapply Forall_impl; [|exact H2]; intros b Hb; apply Hb|]. split; [exact H1|].
    intros c Hc Hi. rewrite List.Forall_forall in H2. destruct (H2 c Hi) as (_ & X). apply X. cbn in Hc |- *. intuition.
Qed.
Lemma tight_of s : s <> [] -> Forall (fun b => 33 <= b <= 126) s -> str_TrimSpace s = s.
Proof.
  intros H F. apply TrimSpace_tight.
  - destruct s as [|b r]; [congruence|]. exists b, r. split; [reflexivity|]. inversion F; assumption.
  - destruct (exists_last H) as (r & b & ->). exists r, b. split; [reflexivity|]. rewrite List.Forall_forall in F. apply F, in_or_app. right; left; reflexivity.
Qed.
Lemma str_eqb_star n e : good_name (Named n) -> str_eqb n [42] = false /\ (str_eqb e n = true <-> e = n).
Proof.
  intros (H1 & H2). split; [|apply str_eqb_spec]. apply str_eqb_neq. intros ->. inversion H2 as [|x y (_ & X)]; subst. apply X. cbn. auto 10.
Qed.
Lemma isMatch_spec n name : good_name n -> (isMatch name (name_text n) = true <-> named n name).
Proof.
  intros G. unfold isMatch. destruct n as [|n]; cbn [name_text named].
  - rewrite str_eqb_refl, orb_true_r. tauto.
  - destruct (str_eqb_star n name G) as (-> & X). rewrite orb_false_r. exact X.
Qed.
Lemma removeQuotes_quoted v : v <> [] -> removeQuotes (39 :: v ++ [39]) = v.
Proof.
  intros H. unfold removeQuotes. replace (HasPrefix (39 :: v ++ [39]) [39]) with true by (symmetry; apply HasPrefix_spec; exists (v ++ [39]); reflexivity).
  replace (HasSuffix (39 :: v ++ [39]) [39]) with true by (symmetry; apply HasSuffix_spec; exists (39 :: v); reflexivity).
  replace (2 <? len (39 :: v ++ [39])) with true.
  2: { symmetry. unfold len. cbn [length]. rewrite app_length. cbn [length]. destruct v; [congruence|cbn [length]; lia]. }
  cbn [andb tl]. rewrite removelast_app by discriminate. cbn [removelast]. apply app_nil_r.
Qed.
Lemma parts_name n : good_name n -> predicate_parts (name_text n) = [name_text n].
Proof.
  intros G. destruct (name_graph n G) as (F & N & X). unfold predicate_parts. rewrite split_byte_none by (apply X; cbn; auto 10).
  cbn [map]. rewrite tight_of by assumption. reflexivity.
Qed.
Lemma parts_value n v : good_name n -> good_value v -> predicate_parts (name_text n ++ lit "='" ++ v ++ lit "'") = [name_text n; 39 :: v ++ [39]].
Proof.
  intros G (V1 & V2). destruct (name_graph n G) as (F & N & X). unfold predicate_parts. change (lit "='" ++ v ++ lit "'") with (61 :: 39 :: v ++ [39]).
  rewrite split_byte_app by (apply X; cbn; auto 10). rewrite split_byte_none.
  - cbn [map]. rewrite tight_of by assumption. rewrite TrimSpace_tight; [reflexivity| |].
    + exists 39, (v ++ [39]). split; [reflexivity|lia].
    + exists (39 :: v), 39. split; [reflexivity|lia].
  - intros [E|H]; [discriminate|]. apply in_app_or in H as [H|[E|[]]]; [|discriminate].
    rewrite List.Forall_forall in V2. destruct (V2 61 H) as (_ & Y). apply Y. cbn. auto 10.
Qed.

(** ** Attributes *)
Definition last_attr (n : bytes) (l : list xattr) : option bytes :=
  match find (fun a => str_eqb (at_local a) n) (rev l) with Some a => Some (at_value a) | None => None end.
Lemma attributes_get l : forall m n, map_get (fold_left (fun m a => map_put m (at_local a) (at_value a)) l m) n =
  match last_attr n l with Some v => Some v | None => map_get m n end.
Proof.
  induction l as [|a l IH]; intros m n; [reflexivity|]. cbn [fold_left]. rewrite IH. unfold last_attr. cbn [rev]. rewrite map_get_put.
  assert (FA : forall (p : xattr -> bool) x y, find p (x ++ y) = match find p x with Some z => Some z | None => find p y end).
  { intros p x y. induction x as [|z x J]; [reflexivity|]. cbn [app find]. destruct (p z); auto. }
  rewrite FA. destruct (find _ (rev l)); [reflexivity|]. cbn [find]. destruct (str_eqb (at_local a) n); reflexivity.
Qed.
Lemma has_attribute_get e n v : has_attribute e n v <-> map_get (Attributes e) n = Some v.
Proof.
  unfold Attributes. rewrite attributes_get. cbn [map_get]. unfold has_attribute, last_attr. generalize (x_attrs e). intros l. split.
  - intros (bef & a & aft & -> & <- & <- & F). rewrite rev_app_distr. cbn [rev]. rewrite <- app_assoc.
    assert (G : forall x, Forall (fun b => at_local b <> at_local a) x -> forall y, find (fun b => str_eqb (at_local b) (at_local a)) (x ++ y) = find (fun b => str_eqb (at_local b) (at_local a)) y).
    { intros x FX y. induction x as [|z x J]; [reflexivity|]. inversion FX; subst. cbn [app find]. apply str_eqb_neq in H1. rewrite H1. auto. }
    rewrite G by (apply Forall_rev; exact F). cbn [app find]. rewrite str_eqb_refl. reflexivity.
  - intros H. destruct (find _ (rev l)) as [a|] eqn:E; [|discriminate]. injection H as <-.
    assert (K : forall x, find (fun b => str_eqb (at_local b) n) x = Some a -> exists p q, x = p ++ a :: q /\ at_local a = n /\ Forall (fun b => at_local b <> n) p).
    { induction x as [|z x J]; [discriminate|]. cbn [find]. destruct (str_eqb (at_local z) n) eqn:Q.
      - intros [= ->]. exists [], x. apply str_eqb_spec in Q. auto.
      - intros H. destruct (J H) as (p & q & -> & H1 & H2). exists (z :: p), q. apply str_eqb_neq in Q. repeat split; auto. }
    destruct (K _ E) as (p & q & X & H1 & H2). exists (rev q), a, (rev p). split; [|split; [exact H1|split; [reflexivity|apply Forall_rev; exact H2]]].
    rewrite <- (rev_involutive l), X. rewrite rev_app_distr. cbn [rev]. rewrite <- app_assoc. reflexivity.
Qed.
Lemma map_get_In {A} (m : list (bytes * A)) k v : map_get m k = Some v -> In (k, v) m.
Proof. induction m as [|[x y] m IH]; [discriminate|]. cbn [map_get]. destruct (str_eqb x k) eqn:E; [intros [= ->]; apply str_eqb_spec in E; subst; left; reflexivity|right; auto]. Qed.
Definition keys_nodup {A} (m : list (bytes * A)) : Prop := NoDup (map fst m).
Lemma in_map_delete {A} (m : list (bytes * A)) k x : In x (map_delete m k) -> In x m /\ fst x <> k.
Proof. unfold map_delete. intros H. apply filter_In in H as (H1 & H2). split; [exact H1|]. intros E. rewrite E, str_eqb_refl in H2. discriminate. Qed.
Lemma nodup_filter_keys {A} (p : bytes * A -> bool) m : keys_nodup m -> keys_nodup (filter p m).
Proof.
  unfold keys_nodup. induction m as [|x m IH]; intros H; [constructor|]. cbn [map] in H. inversion H as [|? ? H1 H2]; subst. cbn [filter].
  destruct (p x); [|auto]. cbn [map]. constructor; [|auto]. intros X. apply H1. apply in_map_iff in X as (y & E & Y). apply filter_In in Y as (Y & _).
  rewrite <- E. apply in_map, Y.
Qed.
Lemma keys_put {A} (m : list (bytes * A)) k v : keys_nodup m -> keys_nodup (map_put m k v).
Proof.
  intros H. unfold map_put, keys_nodup. cbn [map fst]. constructor; [|apply nodup_filter_keys, H].
  intros X. apply in_map_iff in X as (y & E & Y). apply in_map_delete in Y as (_ & Y). congruence.
Qed.
Lemma nodup_get {A} (m : list (bytes * A)) k v : keys_nodup m -> In (k, v) m -> map_get m k = Some v.
Proof.
  intros N. induction m as [|[x y] m IH]; [intros []|]. unfold keys_nodup in N. cbn [map fst] in N. inversion N as [|? ? N1 N2]; subst. cbn [map_get].
  intros [E|E]; [injection E as -> ->; rewrite str_eqb_refl; reflexivity|].
  destruct (str_eqb x k) eqn:Q; [|auto]. apply str_eqb_spec in Q. subst. exfalso. apply N1. change k with (fst (k, v)). apply in_map, E.
Qed.
Lemma attributes_nodup e : keys_nodup (Attributes e).
Proof.
  unfold Attributes. assert (G : forall l m, keys_nodup m -> keys_nodup (fold_left (fun m a => map_put m (at_local a) (at_value a)) l m)).
  { induction l as [|a l IH]; intros m H; [exact H|]. cbn [fold_left]. apply IH, keys_put, H. }
  apply G. constructor.
Qed.

(** ** One step *)
Lemma attribute_spec e n : good_name n -> n <> AnyName -> (attributeMatch e (name_text n) = true <-> condition_holds (HasAttribute n) e).
Proof.
  intros G N. unfold attributeMatch. rewrite parts_name by exact G. destruct n as [|n]; [congruence|]. cbn [name_text]. destruct (str_eqb_star n [] G) as (-> & _).
  cbn [condition_holds named]. destruct (map_get (Attributes e) n) as [v|] eqn:E.
  - split; [|reflexivity]. intros _. exists n, v. split; [reflexivity|]. apply has_attribute_get, E.
  - split; [discriminate|]. intros (m & v & -> & H). apply has_attribute_get in H. congruence.
Qed.
Lemma attribute_is_spec e n v : good_name n -> good_value v ->
  (attributeMatch e (name_text n ++ lit "='" ++ v ++ lit "'") = true <-> condition_holds (AttributeIs n v) e).
Proof.
  intros G V. unfold attributeMatch. rewrite parts_value by assumption. rewrite removeQuotes_quoted by apply V. destruct n as [|n]; cbn [name_text condition_holds named].
  - rewrite str_eqb_refl. rewrite existsb_exists. split.
    + intros ([k w] & H & E). apply str_eqb_spec in E. cbn in E. subst w. exists k. split; [exact I|]. apply has_attribute_get, nodup_get; [apply attributes_nodup|exact H].
    + intros (m & _ & H). apply has_attribute_get, map_get_In in H. exists (m, v). split; [exact H|]. apply str_eqb_refl.
  - destruct (str_eqb_star n [] G) as (-> & _). destruct (map_get (Attributes e) n) as [w|] eqn:E.
    + rewrite str_eqb_spec. split.
      * intros ->. exists n. split; [reflexivity|]. apply has_attribute_get, E.
      * intros (m & -> & H). apply has_attribute_get in H. congruence.
    + split; [discriminate|]. intros (m & -> & H). apply has_attribute_get in H. congruence.
Qed.
Lemma name_or_star n local : good_name n -> (str_eqb (name_text n) local || str_eqb (name_text n) [42] = true <-> named n local).
Proof.
  intros G. destruct n as [|n]; cbn [name_text named].
  - rewrite str_eqb_refl, orb_true_r. tauto.
  - destruct (str_eqb_star n [] G) as (-> & _). rewrite orb_false_r, str_eqb_spec. split; congruence.
Qed.
Lemma child_spec e n : good_name n -> (childValueMatch e (name_text n) = true <-> condition_holds (HasChild n) e).
Proof.
  intros G. unfold childValueMatch. rewrite existsb_exists. cbn [condition_holds]. unfold valueMatch. rewrite parts_name by exact G.
  split; intros (c & H1 & H2); exists c; (split; [exact H1|]).
  - apply name_or_star; [exact G|]. destruct (_ || _); [reflexivity|discriminate].
  - apply name_or_star in H2; [|exact G]. rewrite H2. reflexivity.
Qed.
Lemma child_is_spec e n v : good_name n -> good_value v -> (childValueMatch e (name_text n ++ lit "='" ++ v ++ lit "'") = true <-> condition_holds (ChildIs n v) e).
Proof.
  intros G V. unfold childValueMatch. rewrite existsb_exists. cbn [condition_holds]. unfold valueMatch. rewrite parts_value by assumption.
  rewrite removeQuotes_quoted by apply V. split.
  - intros (c & H1 & H2). exists c. split; [exact H1|]. destruct (_ || _) eqn:E; [|discriminate]. apply name_or_star in E; [|exact G]. split; [exact E|].
    apply str_eqb_spec, H2.
  - intros (c & H1 & H2 & H3). exists c. split; [exact H1|]. apply name_or_star in H2; [|exact G]. rewrite H2. apply str_eqb_spec, H3.
Qed.

(** A step with a predicate in brackets. *)
Lemma step_match_predicate name p e : ~ In 91 name -> ~ In 93 name -> ~ In 93 p -> p <> [] ->
  step_match (name ++ 91 :: p ++ [93]) e =
  match p with 64 :: q => Ok (isMatch (x_local e) name && attributeMatch e q) | _ => Ok (isMatch (x_local e) name && childValueMatch e p) end.
Proof.
  intros N1 N2 N3 NE. unfold step_match. rewrite index_byte_app by exact N1.
  assert (R : index_byte 93 (name ++ 91 :: p ++ [93]) = Z.of_nat (length name + 1 + length p)).
  { replace (name ++ 91 :: p ++ [93]) with ((name ++ 91 :: p) ++ 93 :: []) by (rewrite <- app_assoc; reflexivity). rewrite index_byte_app.
    - rewrite app_length. cbn [length]. lia.
    - intros H. apply in_app_or in H as [H|[H|H]]; [contradiction|discriminate|contradiction]. }
  rewrite R. assert (Lp : (1 <= length p)%nat) by (destruct p; [congruence|cbn; lia]).
  replace (2 <? len (name ++ 91 :: p ++ [93])) with true.
  2: { symmetry. unfold len. rewrite app_length. cbn [length]. rewrite app_length. cbn [length]. lia. }
  replace ((-1 <? Z.of_nat (length name)) && (-1 <? Z.of_nat (length name + 1 + length p)) && (Z.of_nat (length name) <? Z.of_nat (length name + 1 + length p)) && true) with true by lia.
  rewrite Nat2Z.id. rewrite firstn_app, Nat.sub_diag, firstn_all, firstn_O, app_nil_r.
  replace (Z.to_nat (Z.of_nat (length name) + 1)) with (length (name ++ [91])) by (rewrite app_length; cbn; lia).
  replace (name ++ 91 :: p ++ [93]) with ((name ++ [91]) ++ p ++ [93]) by (rewrite <- app_assoc; reflexivity).
  rewrite skipn_app, Nat.sub_diag, skipn_all. cbn [skipn app].
  replace (Z.to_nat (Z.of_nat (length name + 1 + length p) - Z.of_nat (length name) - 1)) with (length p) by lia.
  rewrite firstn_app, Nat.sub_diag, firstn_all, firstn_O, app_nil_r. destruct p as [|b p]; [congruence|reflexivity].
Qed.
Lemma not_at n t : good_name n -> forall A (f : bytes -> A) (g : A), (match name_text n ++ t with 64 :: q => f q | _ => g end) = g.
Proof.
  intros G A f g. destruct (name_graph n G) as (F & N & X). assert (Z64 : ~ In 64 (name_text n)) by (apply X; cbn; auto 10).
  destruct (name_text n) as [|b r]; [congruence|]. cbn [app].
  assert (b <> 64) by (intros ->; apply Z64; left; reflexivity).
  destruct b as [|q|q]; try reflexivity. do 7 (destruct q as [q|q|]; try reflexivity). congruence.
Qed.
Lemma step_match_spec s e : good_step s -> exists b, step_match (step_text s) e = Ok b /\ (b = true <-> step_holds s e).
Proof.
  intros (G & H). unfold step_text, step_holds. destruct (name_graph (step_name s) G) as (F & N & X).
  assert (X1 : ~ In 91 (name_text (step_name s))) by (apply X; cbn; auto 10). assert (X2 : ~ In 93 (name_text (step_name s))) by (apply X; cbn; auto 10).
  destruct (step_condition s) as [|n|n v|n|n v]; cbn [condition_text].
  - exists (isMatch (x_local e) (name_text (step_name s))). rewrite app_nil_r. unfold step_match. rewrite !index_byte_none by assumption. cbn [Z.ltb Z.compare andb].
    split; [reflexivity|]. rewrite isMatch_spec by exact G. cbn. tauto.
  - destruct H as (H1 & H2). destruct (name_graph n H1) as (F' & N' & X').
    exists (isMatch (x_local e) (name_text (step_name s)) && attributeMatch e (name_text n)). split.
    + change (lit "[@" ++ name_text n ++ lit "]") with (91 :: (64 :: name_text n) ++ [93]).
      rewrite step_match_predicate; auto; [|discriminate]. intros [Q|Q]; [discriminate|]. revert Q. apply X'. cbn. auto 10.
    + rewrite andb_true_iff, isMatch_spec by exact G. rewrite attribute_spec by assumption. tauto.
  - destruct H as (H1 & H2). destruct (name_graph n H1) as (F' & N' & X').
    exists (isMatch (x_local e) (name_text (step_name s)) && attributeMatch e (name_text n ++ lit "='" ++ v ++ lit "'")). split.
    + replace (lit "[@" ++ name_text n ++ lit "='" ++ v ++ lit "']") with (91 :: (64 :: name_text n ++ lit "='" ++ v ++ lit "'") ++ [93]).
      2: { change (lit "[@" ++ name_text n ++ lit "='" ++ v ++ lit "']") with (91 :: 64 :: name_text n ++ lit "='" ++ v ++ lit "']").
           change (lit "']") with (lit "'" ++ [93]). cbn [app]. rewrite <- !app_assoc. reflexivity. }
      rewrite step_match_predicate; auto; [|discriminate]. intros [Q|Q]; [discriminate|]. apply in_app_or in Q as [Q|Q]; [revert Q; apply X'; cbn; auto 10|].
      apply in_app_or in Q as [Q|Q]; [cbn in Q; intuition discriminate|]. apply in_app_or in Q as [Q|[Q|[]]]; [|discriminate].
      destruct H2 as (_ & V). rewrite List.Forall_forall in V. apply (proj2 (V _ Q)). cbn. auto 10.
    + rewrite andb_true_iff, isMatch_spec by exact G. rewrite attribute_is_spec by assumption. tauto.
  - destruct (name_graph n H) as (F' & N' & X').
    exists (isMatch (x_local e) (name_text (step_name s)) && childValueMatch e (name_text n)). split.
    + change (lit "[" ++ name_text n ++ lit "]") with (91 :: name_text n ++ [93]).
      rewrite step_match_predicate; auto; [|apply X'; cbn; auto 10]. rewrite <- (app_nil_r (name_text n)) at 1. apply (not_at n [] H).
    + rewrite andb_true_iff, isMatch_spec by exact G. rewrite child_spec by assumption. tauto.
  - destruct H as (H1 & H2). destruct (name_graph n H1) as (F' & N' & X').
    exists (isMatch (x_local e) (name_text (step_name s)) && childValueMatch e (name_text n ++ lit "='" ++ v ++ lit "'")). split.
    + replace (lit "[" ++ name_text n ++ lit "='" ++ v ++ lit "']") with (91 :: (name_text n ++ lit "='" ++ v ++ lit "'") ++ [93]).
      2: { change (lit "[" ++ name_text n ++ lit "='" ++ v ++ lit "']") with (91 :: name_text n ++ lit "='" ++ v ++ lit "']").
           change (lit "']") with (lit "'" ++ [93]). cbn [app]. rewrite <- !app_assoc. reflexivity. }
      rewrite step_match_predicate; auto.
      * apply (not_at n (lit "='" ++ v ++ lit "'") H1).
      * intros Q. apply in_app_or in Q as [Q|Q]; [revert Q; apply X'; cbn; auto 10|].
        apply in_app_or in Q as [Q|Q]; [cbn in Q; intuition discriminate|]. apply in_app_or in Q as [Q|[Q|[]]]; [|discriminate].
        destruct H2 as (_ & V). rewrite List.Forall_forall in V. apply (proj2 (V _ Q)). cbn. auto 10.
      * intros Q. apply app_eq_nil in Q as (Q & _). contradiction.
    + rewrite andb_true_iff, isMatch_spec by exact G. rewrite child_is_spec by assumption. tauto.
Qed.
Lemma step_no_slash s : good_step s -> ~ In 47 (step_text s).
Proof.
  intros (G & H) Q. unfold step_text in Q. apply in_app_or in Q as [Q|Q].
  { destruct (name_graph _ G) as (_ & _ & X). revert Q. apply X. cbn. auto 10. }
  assert (NV : forall v, good_value v -> ~ In 47 v) by (intros v (_ & V) I; rewrite List.Forall_forall in V; apply (proj2 (V _ I)); cbn; auto 10).
  assert (NN : forall n, good_name n -> ~ In 47 (name_text n)) by (intros n Gn; apply (name_graph n Gn); cbn; auto 10).
  destruct (step_condition s) as [|n|n v|n|n v]; cbn [condition_text] in Q.
  - contradiction.
  - apply in_app_or in Q as [Q|Q]; [cbn in Q; intuition discriminate|]. apply in_app_or in Q as [Q|Q]; [exact (NN n (proj1 H) Q)|cbn in Q; intuition discriminate].
  - apply in_app_or in Q as [Q|Q]; [cbn in Q; intuition discriminate|]. apply in_app_or in Q as [Q|Q]; [exact (NN n (proj1 H) Q)|].
    apply in_app_or in Q as [Q|Q]; [cbn in Q; intuition discriminate|]. apply in_app_or in Q as [Q|Q]; [exact (NV v (proj2 H) Q)|cbn in Q; intuition discriminate].
  - apply in_app_or in Q as [Q|Q]; [cbn in Q; intuition discriminate|]. apply in_app_or in Q as [Q|Q]; [exact (NN n H Q)|cbn in Q; intuition discriminate].
  - apply in_app_or in Q as [Q|Q]; [cbn in Q; intuition discriminate|]. apply in_app_or in Q as [Q|Q]; [exact (NN n (proj1 H) Q)|].
    apply in_app_or in Q as [Q|Q]; [cbn in Q; intuition discriminate|]. apply in_app_or in Q as [Q|Q]; [exact (NV v (proj2 H) Q)|cbn in Q; intuition discriminate].
Qed.
Lemma split_path l : l <> [] -> Forall good_step l -> split_byte 47 (path_text l) = map step_text l.
Proof.
  induction l as [|s l IH]; intros N F; [congruence|]. inversion F as [|? ? F1 F2]; subst. destruct l as [|s2 l].
  - cbn [path_text map]. apply split_byte_none, step_no_slash, F1.
  - cbn [path_text map] in *. rewrite split_byte_app by apply step_no_slash, F1. rewrite IH by (auto; discriminate). reflexivity.
Qed.

(** ** The walk *)
Definition passes (s : path_step) (e : xelem) : bool := match step_match (step_text s) e with Ok b => b | _ => false end.
Lemma passes_spec s e : good_step s -> (passes s e = true <-> step_holds s e).
Proof. intros G. unfold passes. destruct (step_match_spec s e G) as (b & -> & H). exact H. Qed.
Lemma step_results_filter s : good_step s -> forall nodes, step_results (step_text s) nodes = Ok (filter (fun n => passes s (snd n)) nodes).
Proof.
  intros G. induction nodes as [|n l IH]; [reflexivity|]. cbn [step_results]. rewrite IH. unfold passes.
  destruct (step_match_spec s (snd n) G) as (b & E & _). cbn [filter]. rewrite E. cbn [bind]. destruct b; reflexivity.
Qed.
Lemma child_refs_in a : forall l k b c, In (b, c) (child_refs a k l) <-> exists i, b = a ++ [(k + i)%nat] /\ nth_error l i = Some c.
Proof.
  induction l as [|x l IH]; intros k b c; cbn [child_refs In].
  - split; [intros []|]. intros (i & _ & H). destruct i; discriminate.
  - split.
    + intros [E|H].
      * injection E as <- <-. exists O. rewrite Nat.add_0_r. split; reflexivity.
      * apply IH in H as (i & -> & H). exists (S i). split; [f_equal; f_equal; lia|exact H].
    + intros (i & -> & H). destruct i as [|i].
      * left. cbn in H. injection H as <-. rewrite Nat.add_0_r. reflexivity.
      * right. apply IH. exists i. split; [f_equal; f_equal; lia|exact H].
Qed.
Definition before (x y : xref) : Prop := doc_before (fst x) (fst y).
Lemma doc_before_snoc : forall a b i j, length a = length b -> doc_before a b -> doc_before (a ++ [i]) (b ++ [j]).
Proof.
  induction a as [|x a IH]; intros b i j L H; destruct b as [|y b]; try discriminate; cbn [doc_before app] in *; [contradiction|].
  destruct H as [H|(-> & H)]; [left; exact H|right]. split; [reflexivity|]. apply IH; [injection L; auto|exact H].
Qed.
Lemma doc_before_same a i j : (i < j)%nat -> doc_before (a ++ [i]) (a ++ [j]).
Proof. intros H. induction a as [|x a IH]; cbn [app doc_before]; [left; exact H|right; split; [reflexivity|exact IH]]. Qed.
Lemma doc_before_irrefl a : ~ doc_before a a.
Proof. induction a as [|x a IH]; cbn [doc_before]; [tauto|]. intros [H|(_ & H)]; [lia|exact (IH H)]. Qed.
Lemma sorted_app {A} (R : A -> A -> Prop) l m : StronglySorted R l -> StronglySorted R m -> (forall x y, In x l -> In y m -> R x y) -> StronglySorted R (l ++ m).
Proof.
  intros H1 H2 H. induction H1 as [|x l H1 IH F]; [exact H2|]. cbn [app]. constructor.
  - apply IH. intros a b Ha Hb. apply H; [right; exact Ha|exact Hb].
  - rewrite List.Forall_forall in *. intros y Hy. apply in_app_or in Hy as [Hy|Hy]; [apply F, Hy|apply H; [left; reflexivity|exact Hy]].
Qed.
Lemma sorted_filter {A} (R : A -> A -> Prop) p l : StronglySorted R l -> StronglySorted R (filter p l).
Proof.
  induction 1 as [|x l H IH F]; [constructor|]. cbn [filter]. destruct (p x); [|exact IH]. constructor; [exact IH|].
  rewrite List.Forall_forall in *. intros y Hy. apply filter_In in Hy as (Hy & _). auto.
Qed.
Lemma child_refs_sorted a : forall l k, StronglySorted before (child_refs a k l).
Proof.
  induction l as [|x l IH]; intros k; [constructor|]. cbn [child_refs]. constructor; [apply IH|]. rewrite List.Forall_forall. intros [b c] H.
  apply child_refs_in in H as (i & -> & _). unfold before. cbn [fst]. apply doc_before_same. lia.
Qed.
Definition level_list (k : nat) (l : list xref) : Prop := Forall (fun x => length (fst x) = k) l /\ StronglySorted before l.
Lemma children_level k l : level_list k l -> level_list (S k) (flat_map GetChildNodes l).
Proof.
  intros (F & H). split.
  - rewrite List.Forall_forall in *. intros [b c] X. apply in_flat_map in X as ([a e] & Xa & X). unfold GetChildNodes in X. apply child_refs_in in X as (i & -> & _).
    apply F in Xa. cbn [fst] in *. rewrite app_length. cbn. lia.
  - induction H as [|x l H IH S]; [constructor|]. inversion F as [|? ? F1 F2]; subst. cbn [flat_map]. apply sorted_app; [apply child_refs_sorted|apply IH; exact F2|].
    intros [b c] [b' c'] X Y. unfold GetChildNodes in X. apply child_refs_in in X as (i & -> & _). apply in_flat_map in Y as ([a e] & Xa & Y).
    unfold GetChildNodes in Y. apply child_refs_in in Y as (j & -> & _). unfold before. cbn [fst]. rewrite List.Forall_forall in S, F2. apply doc_before_snoc; [|exact (S (a, e) Xa)].
    symmetry. apply (F2 _ Xa).
Qed.
Lemma level_filter k p l : level_list k l -> level_list k (filter p l).
Proof. intros (F & H). split; [|apply sorted_filter, H]. rewrite List.Forall_forall in *. intros x X. apply filter_In in X as (X & _). auto. Qed.

Lemma select_steps_spec : forall l, l <> [] -> Forall good_step l -> forall nodes k, level_list k nodes ->
  exists r, select_steps nodes (map step_text l) = Ok r /\ level_list (k + length l - 1) r /\
    forall b f, In (b, f) r <-> exists s rest a e, l = s :: rest /\ In (a, e) nodes /\ step_holds s e /\ leads a e rest b f.
Proof.
  induction l as [|s l IH]; intros N F nodes k L; [congruence|]. inversion F as [|? ? F1 F2]; subst. cbn [map select_steps].
  rewrite step_results_filter by exact F1. cbn [bind]. set (rs := filter (fun n => passes s (snd n)) nodes).
  assert (RS : forall a e, In (a, e) rs <-> In (a, e) nodes /\ step_holds s e).
  { intros a e. unfold rs. rewrite filter_In. cbn [snd]. rewrite passes_spec by exact F1. tauto. }
  assert (LR : level_list k rs) by exact (level_filter k (fun n => passes s (snd n)) nodes L). clearbody rs.
  destruct l as [|s2 l].
  - cbn [map]. exists rs. split; [destruct rs; reflexivity|]. split; [cbn [length]; replace (k + 1 - 1)%nat with k by lia; exact LR|].
    intros b f. rewrite RS. split.
    + intros (H1 & H2). exists s, [], b, f. split; [reflexivity|]. split; [exact H1|]. split; [exact H2|]. constructor.
    + intros (s' & rest & a & e & E & H1 & H2 & H3). injection E as <- <-. inversion H3; subst. auto.
  - destruct (IH ltac:(discriminate) F2 (flat_map GetChildNodes rs) (S k) (children_level k rs LR)) as (r & R1 & R2 & R3).
    assert (X : forall b f, In (b, f) r <-> exists s' rest a e, s :: s2 :: l = s' :: rest /\ In (a, e) nodes /\ step_holds s' e /\ leads a e rest b f).
    { intros b f. rewrite R3. split.
      - intros (s' & rest & a & e & E & H1 & H2 & H3). injection E as <- <-. apply in_flat_map in H1 as ([a0 e0] & H0 & H1).
        unfold GetChildNodes in H1. apply child_refs_in in H1 as (i & -> & H1). cbn [fst snd] in *. apply RS in H0 as (H0 & H0').
        exists s, (s2 :: l), a0, e0. split; [reflexivity|]. split; [exact H0|]. split; [exact H0'|]. econstructor; eauto.
      - intros (s' & rest & a & e & E & H1 & H2 & H3). injection E as <- <-. inversion H3 as [|? ? i c ? ? H4 H5 H6]; subst.
        exists s2, l, (a ++ [i]), c. split; [reflexivity|]. split; [|split; assumption]. apply in_flat_map. exists (a, e). split; [apply RS; auto|].
        unfold GetChildNodes. apply child_refs_in. exists i. auto. }
    exists r. split; [|split; [|exact X]].
    + destruct rs as [|x rs']; [|exact R1]. cbn [flat_map] in R1. clear - R1. cbn [map select_steps step_results bind] in R1. exact R1.
    + cbn [length] in *. replace (k + S (S (length l)) - 1)%nat with (S k + S (length l) - 1)%nat by lia. exact R2.
Qed.
(** The elements a path leads to, in document order, each once. *)
Lemma SelectNodes_spec a e l : l <> [] -> Forall good_step l ->
  exists r, SelectNodes (a, e) (path_text l) = Ok r /\ StronglySorted (fun x y => doc_before (fst x) (fst y)) r /\ NoDup r /\
    forall b f, In (b, f) r <-> leads a e l b f.
Proof.
  intros N F. unfold SelectNodes. rewrite split_path by assumption.
  assert (L : level_list (S (length a)) (GetChildNodes (a, e))).
  { split; [|apply child_refs_sorted]. rewrite List.Forall_forall. intros [b c] X. unfold GetChildNodes in X. apply child_refs_in in X as (i & -> & _). cbn [fst]. rewrite app_length. cbn; lia. }
  destruct (select_steps_spec l N F _ _ L) as (r & H1 & (_ & H2) & H3). exists r. split; [exact H1|]. split; [exact H2|]. split.
  - clear H1 H3. induction H2 as [|x r H IH S]; [constructor|]. constructor; [|exact IH]. intros X. rewrite List.Forall_forall in S. exact (doc_before_irrefl _ (S x X)).
  - intros b f. rewrite H3. split.
    + intros (s & rest & a0 & e0 & -> & X1 & X2 & X3). unfold GetChildNodes in X1. apply child_refs_in in X1 as (i & -> & X1). econstructor; eauto.
    + intros X. inversion X as [E|s rest i c ? ? X1 X2 X3]; subst; [congruence|]. exists s, rest, (a ++ [i]), c. split; [reflexivity|]. split; [|split; assumption].
      unfold GetChildNodes. apply child_refs_in. exists i. auto.
Qed.
