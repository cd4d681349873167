(** Links between the nodes of an XML document. *)
From Coq Require Import Lia ZifyBool ZifyNat String.
From Verif Require Import Base GuidModel FormatModel StrModel CalModel NumModel ExprModel StrProofs TableModel TableSpec TableProofs3 XmlModel XmlSpec.
Open Scope list_scope.
Open Scope Z_scope.

Lemma addr_eqb_spec a b : addr_eqb a b = true <-> a = b.
Proof. unfold addr_eqb. destruct (list_eq_dec Nat.eq_dec a b); split; auto; discriminate. Qed.
Lemma addr_eqb_refl a : addr_eqb a a = true. Proof. apply addr_eqb_spec. reflexivity. Qed.
Lemma addr_eqb_neq a b : a <> b -> addr_eqb a b = false.
Proof. intros H. destruct (addr_eqb a b) eqn:E; [apply addr_eqb_spec in E; contradiction|reflexivity]. Qed.
Lemma app_cons_neq (a : addr) s i : a ++ i :: s <> a.
Proof. intros H. apply (f_equal (@length nat)) in H. rewrite app_length in H. cbn in H. lia. Qed.
Lemma snoc_inj (a : addr) i j : a ++ [i] = a ++ [j] -> i = j.
Proof. intros H. apply app_inv_head in H. congruence. Qed.

(** Induction over trees. *)
Lemma xelem_ind' (P : xelem -> Prop) : (forall l s a i cs, (forall c, In c cs -> P c) -> P (XElem l s a i cs)) -> forall e, P e.
Proof.
  intros H. fix IH 1. intros [l s a i cs]. apply H. clear - IH. induction cs as [|c cs J]; [intros c []|].
  intros c' [E|E]; [rewrite <- E; apply IH|apply J; exact E].
Qed.

Definition under (a b : addr) : Prop := exists s, b = a ++ s.
Definition prev_of (a : addr) (i : nat) : option addr := match i with O => None | S j => Some (a ++ [j]) end.
Definition next_of (a : addr) (i n : nat) : option addr := if (S i <? n)%nat then Some (a ++ [S i]) else None.
Definition items_ok (n : xnode) (l : list xelem) (a : addr) : Prop :=
  forall name, map_get (n_items n) name = match named_in l a name with [] => None | m => Some m end /\
               map_get (n_item n) name = hd_error (named_in l a name).
Record node_ok (n : xnode) (a : addr) (e : xelem) (level : Z) (parent prev next : option addr) : Prop := {
  ok_name : n_name n = x_local e; ok_space : n_space n = x_space e; ok_parent : n_parent n = parent; ok_prev : n_prev n = prev;
  ok_next : n_next n = next; ok_level : n_level n = level; ok_owned : n_owned n = true; ok_items : items_ok n (x_children e) a }.
Inductive tree_ok (d : addr -> xnode) (a : addr) (e : xelem) (level : Z) (parent prev next : option addr) : Prop :=
  TreeOk : node_ok (d a) a e level parent prev next ->
  (forall i c, nth_error (x_children e) i = Some c ->
     tree_ok d (a ++ [i]) c (level + 1) (Some a) (prev_of a i) (next_of a i (length (x_children e)))) ->
  tree_ok d a e level parent prev next.

Lemma under_snoc a i b : under (a ++ [i]) b -> under a b.
Proof. intros (s & ->). exists (i :: s). rewrite <- app_assoc. reflexivity. Qed.
Lemma under_refl a : under a a. Proof. exists []. rewrite app_nil_r. reflexivity. Qed.
Lemma tree_ok_frame d d' : forall e a level parent prev next, (forall b, under a b -> d' b = d b) ->
  tree_ok d a e level parent prev next -> tree_ok d' a e level parent prev next.
Proof.
  intros e. induction e as [l s at_ i cs IH] using xelem_ind'. intros a level parent prev next F [N K]. split.
  - rewrite (F a (under_refl a)). exact N.
  - intros j c E. apply IH; [eapply nth_error_In; exact E| |apply K, E]. intros b U. apply F. eapply under_snoc, U.
Qed.

(** Items of a prefix of the children. *)
Lemma named_in_snoc l c a name : named_in (l ++ [c]) a name = named_in l a name ++ (if str_eqb (x_local c) name then [a ++ [length l]] else []).
Proof.
  unfold named_in. rewrite app_length. cbn [length]. rewrite Nat.add_1_r, seq_S, filter_app, map_app. cbn [Nat.add]. f_equal.
  - f_equal. apply filter_ext_in. intros i Hi. apply in_seq in Hi. rewrite nth_error_app1 by lia. reflexivity.
  - cbn [filter]. rewrite nth_error_app2, Nat.sub_diag by lia. cbn [nth_error]. destruct (str_eqb _ _); reflexivity.
Qed.
Lemma named_in_nil a name : named_in [] a name = []. Proof. reflexivity. Qed.

Definition put_item (p : xnode) (name : bytes) (node : addr) : xnode :=
  match map_get (n_item p) name with
  | None => XNode (n_name p) (n_space p) (n_parent p) (n_next p) (n_prev p)
              (map_put (n_item p) name node) (map_put (n_items p) name [node]) (n_level p) (n_owned p)
  | Some _ => XNode (n_name p) (n_space p) (n_parent p) (n_next p) (n_prev p) (n_item p)
              (map_put (n_items p) name (match map_get (n_items p) name with Some l => l | None => [] end ++ [node])) (n_level p) (n_owned p)
  end.
Lemma put_item_same p name node : let q := put_item p name node in
  n_name q = n_name p /\ n_space q = n_space p /\ n_parent q = n_parent p /\ n_next q = n_next p /\ n_prev q = n_prev p /\
  n_level q = n_level p /\ n_owned q = n_owned p.
Proof. unfold put_item. destruct (map_get (n_item p) name); cbn; auto 10. Qed.
Lemma put_item_ok p l c a : items_ok p l a -> items_ok (put_item p (x_local c) (a ++ [length l])) (l ++ [c]) a.
Proof.
  intros H name. destruct (H name) as (H1 & H2). destruct (H (x_local c)) as (C1 & C2). rewrite named_in_snoc. unfold put_item.
  rewrite C2. destruct (named_in l a (x_local c)) as [|x r] eqn:E; cbn [hd_error].
  - cbn [n_item n_items]. rewrite !map_get_put. destruct (str_eqb (x_local c) name) eqn:Q.
    + apply str_eqb_spec in Q. subst name. rewrite E. split; reflexivity.
    + rewrite app_nil_r. split; assumption.
  - cbn [n_item n_items]. rewrite map_get_put. destruct (str_eqb (x_local c) name) eqn:Q.
    + apply str_eqb_spec in Q. subst name. rewrite C1, E. split; [reflexivity|]. rewrite H2, E. reflexivity.
    + rewrite app_nil_r. split; assumption.
Qed.

(** One child. *)
Definition link_node (n : xnode) (a : addr) (i : nat) (c : xelem) (level : Z) : xnode :=
  XNode (x_local c) (x_space c) (Some a) (n_next n) (match i with O => n_prev n | S j => Some (a ++ [j]) end) (n_item n) (n_items n) level true.
Definition set_next (n : xnode) (x : addr) : xnode :=
  XNode (n_name n) (n_space n) (n_parent n) (Some x) (n_prev n) (n_item n) (n_items n) (n_level n) (n_owned n).
Lemma visit_node d a i c b : d_node (visit_child d a i c) b =
  if addr_eqb b a then put_item (d_node d a) (x_local c) (a ++ [i])
  else if addr_eqb b (a ++ [i]) then link_node (d_node d b) a i c (n_level (d_node d a) + 1)
  else match i with O => d_node d b | S j => if addr_eqb b (a ++ [j]) then set_next (d_node d b) (a ++ [i]) else d_node d b end.
Proof.
  unfold visit_child. set (level := n_level (d_node d a) + 1).
  set (d1 := if d_maxLevel d <? level then _ else d). assert (E1 : forall x, d_node d1 x = d_node d x) by (intros x; unfold d1; destruct (_ <? _); reflexivity).
  clearbody d1. cbv zeta. unfold put_item, link_node, set_next.
  destruct i as [|j]; unfold set_node; cbn [d_node].
  - destruct (addr_eqb b a) eqn:A.
    + apply addr_eqb_spec in A. subst b. rewrite (addr_eqb_neq a (a ++ [0%nat])) by (intros X; symmetry in X; exact (app_cons_neq _ _ _ X)). rewrite E1. reflexivity.
    + rewrite E1. destruct (addr_eqb b (a ++ [0%nat])); reflexivity.
  - destruct (addr_eqb b a) eqn:A.
    + apply addr_eqb_spec in A. subst b. rewrite !(addr_eqb_neq a (a ++ [_])) by (intros X; symmetry in X; exact (app_cons_neq _ _ _ X)). rewrite E1. reflexivity.
    + rewrite E1. destruct (addr_eqb b (a ++ [S j])) eqn:B; [|reflexivity].
      apply addr_eqb_spec in B. subst b. rewrite addr_eqb_neq; [reflexivity|]. intros X. apply snoc_inj in X. lia.
Qed.
Lemma visit_max d a i c : d_maxLevel (visit_child d a i c) = Z.max (d_maxLevel d) (n_level (d_node d a) + 1) /\ d_tree (visit_child d a i c) = d_tree d.
Proof. unfold visit_child. cbv zeta. destruct (_ <? _) eqn:E; destruct i; unfold set_node; cbn [d_maxLevel d_tree]; split; auto; lia. Qed.

(** The loop of traverse. *)
Fixpoint tloop (a : addr) (nodes : list xelem) (i : nat) (d : xdoc) : xdoc :=
  match nodes with
  | [] => d
  | c :: rest => tloop a rest (S i) (traverse c (a ++ [i]) (visit_child d a i c))
  end.
Lemma traverse_eq e a d : traverse e a d = tloop a (x_children e) O (set_node d a init_maps).
Proof.
  destruct e as [l s at_ i cs]. cbn [traverse x_children]. generalize (set_node d a init_maps) O. induction cs as [|c cs IH]; intros d' k; [reflexivity|].
  cbn [tloop]. apply IH.
Qed.
Fixpoint tallest (l : list xelem) : Z := match l with [] => 0 | c :: r => Z.max (height c) (tallest r) end.
Lemma height_eq e : height e = 1 + tallest (x_children e).
Proof. destruct e as [l s at_ i cs]. cbn [height x_children]. f_equal. Qed.
Lemma tallest_snoc l c : 0 <= tallest l -> tallest (l ++ [c]) = Z.max (tallest l) (height c).
Proof. induction l as [|x l IH]; cbn [tallest app]; intros H; [|rewrite IH]; try lia. clear IH. induction l; cbn [tallest] in *; lia. Qed.
Lemma tallest_nonneg l : 0 <= tallest l. Proof. induction l; cbn [tallest]; lia. Qed.
Lemma height_pos e : 1 <= height e. Proof. rewrite height_eq. pose proof (tallest_nonneg (x_children e)). lia. Qed.

Definition same_base (n m : xnode) : Prop :=
  n_name n = n_name m /\ n_space n = n_space m /\ n_parent n = n_parent m /\ n_next n = n_next m /\ n_prev n = n_prev m /\ n_level n = n_level m /\ n_owned n = n_owned m.
Definition fresh_below (d : addr -> xnode) (a : addr) : Prop := forall i s, n_next (d (a ++ i :: s)) = None /\ n_prev (d (a ++ i :: s)) = None.

Definition traversed (e : xelem) : Prop := forall a d, fresh_below (d_node d) a -> n_level (d_node d a) <= d_maxLevel d ->
  let d' := traverse e a d in
  d_tree d' = d_tree d /\ d_maxLevel d' = Z.max (d_maxLevel d) (n_level (d_node d a) + height e - 1) /\
  same_base (d_node d' a) (d_node d a) /\ items_ok (d_node d' a) (x_children e) a /\
  (forall i c, nth_error (x_children e) i = Some c ->
     tree_ok (d_node d') (a ++ [i]) c (n_level (d_node d a) + 1) (Some a) (prev_of a i) (next_of a i (length (x_children e)))) /\
  (forall b, ~ under a b -> d_node d' b = d_node d b).

Record inv (a : addr) (cs : list xelem) (d0 d : xdoc) (k : nat) : Prop := {
  i_tree : d_tree d = d_tree d0;
  i_max : d_maxLevel d = Z.max (d_maxLevel d0) (n_level (d_node d0 a) + tallest (firstn k cs));
  i_base : same_base (d_node d a) (d_node d0 a);
  i_items : items_ok (d_node d a) (firstn k cs) a;
  i_kids : forall i c, (i < k)%nat -> nth_error cs i = Some c ->
    tree_ok (d_node d) (a ++ [i]) c (n_level (d_node d0 a) + 1) (Some a) (prev_of a i) (next_of a i k);
  i_frame : forall b, b <> a -> (forall i, (i < k)%nat -> ~ under (a ++ [i]) b) -> d_node d b = d_node d0 b }.

Lemma under_inj a i j b : under (a ++ [i]) b -> under (a ++ [j]) b -> i = j.
Proof. intros (s & ->) (t & E). rewrite <- !app_assoc in E. apply app_inv_head in E. cbn in E. congruence. Qed.
Lemma firstn_snoc {A} (l : list A) k c : nth_error l k = Some c -> firstn (S k) l = firstn k l ++ [c].
Proof. revert l. induction k as [|k IH]; intros [|x l] H; try discriminate; cbn in *; [congruence|]. rewrite <- (IH l H). reflexivity. Qed.

Lemma inv_step a cs d0 d k c : fresh_below (d_node d0) a -> n_level (d_node d0 a) <= d_maxLevel d0 -> nth_error cs k = Some c -> traversed c ->
  inv a cs d0 d k -> inv a cs d0 (traverse c (a ++ [k]) (visit_child d a k c)) (S k).
Proof.
  intros F Lv E T [I1 I2 I3 I4 I5 I6]. set (d1 := visit_child d a k c).
  assert (NV := visit_node d a k c). fold d1 in NV. destruct (visit_max d a k c) as (M1 & M2). fold d1 in M1, M2.
  assert (Na : d_node d1 a = put_item (d_node d a) (x_local c) (a ++ [k])) by (rewrite NV, addr_eqb_refl; reflexivity).
  assert (Nk0 : d_node d (a ++ [k]) = d_node d0 (a ++ [k])).
  { apply I6; [apply app_cons_neq|]. intros i Hi U. pose proof (under_inj a i k _ U (under_refl _)). lia. }
  assert (Nk : d_node d1 (a ++ [k]) = link_node (d_node d (a ++ [k])) a k c (n_level (d_node d a) + 1)).
  { rewrite NV, addr_eqb_refl, addr_eqb_neq by apply app_cons_neq. reflexivity. }
  assert (Lva : n_level (d_node d a) = n_level (d_node d0 a)) by apply I3.
  assert (Below : forall s, s <> [] -> d_node d1 (a ++ k :: s) = d_node d0 (a ++ k :: s)).
  { intros s Hs. rewrite NV, addr_eqb_neq by apply app_cons_neq.
    rewrite addr_eqb_neq by (intros X; apply app_inv_head in X; congruence).
    assert (G : d_node d (a ++ k :: s) = d_node d0 (a ++ k :: s)).
    { apply I6; [apply app_cons_neq|]. intros i Hi U.
      assert (under (a ++ [k]) (a ++ k :: s)) by (exists s; rewrite <- app_assoc; reflexivity). pose proof (under_inj a i k _ U H). lia. }
    destruct k as [|j]; [exact G|]. rewrite addr_eqb_neq by (intros X; apply app_inv_head in X; congruence). exact G. }
  assert (Fk : fresh_below (d_node d1) (a ++ [k])).
  { intros i s. rewrite <- app_assoc. cbn [app]. rewrite Below by discriminate. apply F. }
  assert (Lk : n_level (d_node d1 (a ++ [k])) <= d_maxLevel d1) by (rewrite Nk, M1; cbn [link_node n_level]; lia).
  destruct (T (a ++ [k]) d1 Fk Lk) as (T1 & T2 & T3 & T4 & T5 & T6). set (d2 := traverse c (a ++ [k]) d1) in *.
  assert (Lk1 : n_level (d_node d1 (a ++ [k])) = n_level (d_node d0 a) + 1) by (rewrite Nk, Lva; reflexivity).
  assert (NUa : ~ under (a ++ [k]) a).
  { intros (s & X). rewrite <- app_assoc in X. symmetry in X. exact (app_cons_neq _ _ _ X). }
  assert (D2a : d_node d2 a = put_item (d_node d a) (x_local c) (a ++ [k])) by (rewrite T6 by exact NUa; exact Na).
  assert (Len : length (firstn k cs) = k).
  { apply firstn_length_le. assert (nth_error cs k <> None) by congruence. apply nth_error_Some in H. lia. }
  split.
  - rewrite T1, M2. exact I1.
  - rewrite T2, M1, I2, Lva, Lk1. rewrite (firstn_snoc _ _ _ E), tallest_snoc by apply tallest_nonneg.
    pose proof (tallest_nonneg (firstn k cs)). pose proof (height_pos c). lia.
  - rewrite D2a. pose proof (put_item_same (d_node d a) (x_local c) (a ++ [k])) as Q. cbv zeta in Q. unfold same_base in *.
    destruct Q as (-> & -> & -> & -> & -> & -> & ->). exact I3.
  - rewrite D2a, (firstn_snoc _ _ _ E). rewrite <- Len at 1. apply put_item_ok. exact I4.
  - intros i c' Hi Ec. destruct (Nat.eq_dec i k) as [->|Nik].
    + rewrite E in Ec. injection Ec as <-. rewrite <- Lk1. split.
      * destruct T3 as (B1 & B2 & B3 & B4 & B5 & B6 & B7). rewrite Nk in *. cbn [link_node n_name n_space n_parent n_next n_prev n_level n_owned] in *.
        split; auto.
        -- rewrite B5. destruct k as [|j]; [|reflexivity]. rewrite Nk0. apply F.
        -- rewrite B4, Nk0. unfold next_of. replace (S k <? S k)%nat with false by lia. apply F.
      * exact T5.
    + assert (Hik : (i < k)%nat) by lia. specialize (I5 i c' Hik Ec).
      assert (NU : forall b, under (a ++ [i]) b -> d_node d2 b = d_node d1 b).
      { intros b U. apply T6. intros U2. pose proof (under_inj a i k b U U2). lia. }
      destruct I5 as [K1 K2].
      assert (Nb : forall b, under (a ++ [i]) b -> b <> a ++ [i] -> d_node d2 b = d_node d b).
      { intros b U Nb. rewrite NU by exact U. rewrite NV.
        rewrite addr_eqb_neq by (intros ->; destruct U as (s & X); rewrite <- app_assoc in X; symmetry in X; exact (app_cons_neq _ _ _ X)).
        rewrite addr_eqb_neq by (intros ->; pose proof (under_inj a i k _ U (under_refl _)); lia).
        destruct k as [|j]; [reflexivity|]. rewrite addr_eqb_neq; [reflexivity|]. intros ->. pose proof (under_inj a i j _ U (under_refl _)). subst. congruence. }
      split.
      * rewrite NU by apply under_refl. rewrite NV. rewrite addr_eqb_neq by apply app_cons_neq.
        rewrite addr_eqb_neq by (intros X; apply snoc_inj in X; lia).
        destruct k as [|j]; [lia|]. destruct (Nat.eq_dec i j) as [->|Nij].
        -- rewrite addr_eqb_refl. destruct K1. split; try assumption. cbn [set_next n_next]. unfold next_of. replace (S j <? S (S j))%nat with true by lia. reflexivity.
        -- rewrite addr_eqb_neq by (intros X; apply snoc_inj in X; lia). destruct K1. split; try assumption.
           rewrite ok_next0. unfold next_of. replace (S i <? S j)%nat with true by lia. replace (S i <? S (S j))%nat with true by lia. reflexivity.
      * intros j' c2 E2. eapply tree_ok_frame; [|apply K2; exact E2]. intros b U. apply Nb; [eapply under_snoc, U|].
        intros ->. destruct U as (s & X). rewrite <- app_assoc in X. symmetry in X. exact (app_cons_neq _ _ _ X).
  - intros b Hb Hu. assert (NUk : ~ under (a ++ [k]) b) by (apply Hu; lia). rewrite T6 by exact NUk. rewrite NV.
    rewrite addr_eqb_neq by exact Hb. rewrite addr_eqb_neq by (intros ->; apply NUk, under_refl).
    assert (G : d_node d b = d_node d0 b) by (apply I6; [exact Hb|intros i Hi; apply Hu; lia]).
    destruct k as [|j]; [exact G|]. rewrite addr_eqb_neq; [exact G|]. intros ->. apply (Hu j); [lia|apply under_refl].
Qed.
Lemma skipn_next {A} (l : list A) k c r : skipn k l = c :: r -> skipn (S k) l = r.
Proof. revert l. induction k as [|k IH]; intros [|x l] H; try discriminate; cbn [skipn] in *; [congruence|]. apply IH, H. Qed.
Lemma tloop_inv a cs d0 : fresh_below (d_node d0) a -> n_level (d_node d0 a) <= d_maxLevel d0 -> (forall c, In c cs -> traversed c) ->
  forall rest d k, skipn k cs = rest -> (k <= length cs)%nat -> inv a cs d0 d k -> inv a cs d0 (tloop a rest k d) (length cs).
Proof.
  intros F Lv T. induction rest as [|c rest IH]; intros d k S Lk I.
  - cbn [tloop]. replace (length cs) with k; [exact I|]. pose proof (skipn_length k cs) as Q. rewrite S in Q. cbn in Q. lia.
  - assert (E : nth_error cs k = Some c).
    { rewrite <- (firstn_skipn k cs), S. rewrite nth_error_app2 by (rewrite firstn_length; lia). rewrite firstn_length. replace (k - Nat.min k (length cs))%nat with 0%nat by lia. reflexivity. }
    cbn [tloop]. apply IH.
    + apply (skipn_next cs k c). exact S.
    + pose proof (skipn_length k cs) as Q. rewrite S in Q. cbn in Q. lia.
    + apply inv_step; auto. apply T. eapply nth_error_In, E.
Qed.
Lemma traverse_ok : forall e, traversed e.
Proof.
  induction e as [l s at_ i cs IH] using xelem_ind'. intros a d F Lv d'. unfold d'. rewrite traverse_eq. cbn [x_children].
  set (d1 := set_node d a init_maps).
  assert (N1 : forall b, d_node d1 b = if addr_eqb b a then init_maps (d_node d a) else d_node d b).
  { intros b. unfold d1, set_node. cbn [d_node]. destruct (addr_eqb b a) eqn:E; [apply addr_eqb_spec in E; subst; reflexivity|reflexivity]. }
  assert (Na : d_node d1 a = init_maps (d_node d a)) by (rewrite N1, addr_eqb_refl; reflexivity).
  assert (F1 : fresh_below (d_node d1) a) by (intros j t; rewrite N1, addr_eqb_neq by apply app_cons_neq; apply F).
  assert (I0 : inv a cs d1 d1 0).
  { split; try reflexivity.
    - cbn [firstn tallest]. rewrite Na. cbn [init_maps n_level]. change (d_maxLevel d1) with (d_maxLevel d). lia.
    - unfold same_base. auto 10.
    - rewrite Na. intros name. split; reflexivity.
    - intros; lia. }
  assert (L1 : n_level (d_node d1 a) <= d_maxLevel d1) by (rewrite Na; exact Lv).
  destruct (tloop_inv a cs d1 F1 L1 IH cs d1 O eq_refl ltac:(lia) I0) as [J1 J2 J3 J4 J5 J6].
  rewrite firstn_all in J2, J4. rewrite Na in J2, J3, J5. cbn [init_maps n_level] in J2, J5.
  split; [exact J1|]. split.
  { rewrite J2. rewrite height_eq. cbn [x_children]. change (d_maxLevel d1) with (d_maxLevel d). lia. }
  split; [exact J3|]. split; [exact J4|]. split.
  - intros j c E. apply J5; [|exact E]. apply nth_error_Some. congruence.
  - intros b NU. rewrite J6.
    + rewrite N1, addr_eqb_neq; [reflexivity|]. intros ->. apply NU, under_refl.
    + intros ->. apply NU, under_refl.
    + intros j _ U. apply NU. eapply under_snoc, U.
Qed.

(** ** Loaded documents *)
Lemma LoadXml_fresh e d : LoadXml NewXmlDocument (Some e) = Ok d ->
  d_tree d = Some e /\ tree_ok (d_node d) [] e 0 None None None /\ d_maxLevel d = height e - 1.
Proof.
  unfold LoadXml. cbn [NewXmlDocument d_tree app d_node d_maxLevel]. replace (XElem _ _ _ _ _) with e by (destruct e; reflexivity). intros [= <-].
  match goal with |- context [traverse e [] ?x] => set (d0 := x) end.
  assert (F : fresh_below (d_node d0) []) by (intros i s; split; reflexivity).
  destruct (traverse_ok e [] d0 F) as (T1 & T2 & T3 & T4 & T5 & T6); [reflexivity|].
  split; [exact T1|]. split.
  - destruct T3 as (B1 & B2 & B3 & B4 & B5 & B6 & B7). split; [|exact T5]. split; try assumption.
  - rewrite T2. change (d_maxLevel d0) with 0. change (n_level (d_node d0 [])) with 0. pose proof (height_pos e). lia.
Qed.
(** A node below the root. *)
Lemma tree_ok_at d e : forall s a level parent prev next sub, tree_ok d a e level parent prev next -> element_at e s = Some sub ->
  exists parent' prev' next', tree_ok d (a ++ s) sub (level + Z.of_nat (length s)) parent' prev' next' /\
    match rev s with
    | [] => parent' = parent /\ prev' = prev /\ next' = next
    | i :: r => parent' = Some (a ++ rev r) /\ prev' = prev_of (a ++ rev r) i /\
                exists p, element_at e (rev r) = Some p /\ next' = next_of (a ++ rev r) i (length (x_children p))
    end.
Proof.
  intros s. revert e. induction s as [|i s IH] using rev_ind; intros e a level parent prev next sub T E.
  - cbn in E. injection E as <-. exists parent, prev, next. rewrite app_nil_r. cbn [length rev]. rewrite Z.add_0_r. auto.
  - assert (A : forall (e : xelem), element_at e (s ++ [i]) = match element_at e s with Some p => nth_error (x_children p) i | None => None end).
    { clear. intros e. revert e. induction s as [|j s IH]; intros e; cbn [app element_at]; [destruct (nth_error _ _); reflexivity|].
      destruct (nth_error (x_children e) j); [apply IH|reflexivity]. }
    rewrite A in E. destruct (element_at e s) as [p|] eqn:Ep; [|discriminate].
    destruct (IH e a level parent prev next p T Ep) as (pa & pr & nx & T' & _). destruct T' as [_ K]. specialize (K i sub E).
    exists (Some (a ++ s)), (prev_of (a ++ s) i), (next_of (a ++ s) i (length (x_children p))). rewrite rev_app_distr. cbn [rev app]. rewrite rev_involutive.
    split; [|split; [reflexivity|split; [reflexivity|exists p; split; [exact Ep|reflexivity]]]].
    rewrite app_length. cbn [length]. rewrite app_assoc. replace (level + Z.of_nat (length s + 1)) with (level + Z.of_nat (length s) + 1) by lia. exact K.
Qed.
