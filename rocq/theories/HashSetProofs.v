(** Lemmas about the HashSet model. *)
From Verif Require Import HashSetModel HashSetSpec.

Section Proofs.
Context {K : Type} `{EqK : EqDecision K} `{CK : @Countable K EqK}.
Implicit Types (hs other : gset K) (l : list K) (x : K).

Lemma Contains_spec hs x : Contains hs x = true <-> x ∈ hs.
Proof. unfold Contains. apply bool_decide_eq_true. Qed.
Lemma Contains_spec_false hs x : Contains hs x = false <-> x ∉ hs.
Proof. unfold Contains. apply bool_decide_eq_false. Qed.

Lemma Add_spec hs x : Add hs x = ({[x]} ∪ hs, bool_decide (x ∉ hs)).
Proof.
  unfold Add, Contains. destruct (decide (x ∈ hs)) as [H|H].
  - rewrite bool_decide_true by exact H. rewrite bool_decide_false by tauto. f_equal. set_solver.
  - rewrite bool_decide_false by exact H. rewrite bool_decide_true by tauto. reflexivity.
Qed.
Lemma Remove_spec hs x : Remove hs x = (hs ∖ {[x]}, bool_decide (x ∈ hs)).
Proof.
  unfold Remove, Contains. destruct (decide (x ∈ hs)) as [H|H].
  - rewrite bool_decide_true by exact H. reflexivity.
  - rewrite bool_decide_false by exact H. f_equal. set_solver.
Qed.

Lemma IsEmpty_spec hs : IsEmpty hs = true <-> hs = ∅.
Proof.
  unfold IsEmpty. rewrite Nat.eqb_eq. split; intros H.
  - apply size_empty_inv in H. set_solver.
  - subst. apply size_empty.
Qed.

Lemma add_remove_report hs x :
  (snd (Add hs x) = true <-> x ∉ hs) /\ (snd (Remove hs x) = true <-> x ∈ hs) /\
  (Contains hs x = true <-> x ∈ hs) /\ (IsEmpty hs = true <-> hs = ∅).
Proof.
  rewrite Add_spec, Remove_spec. cbn [snd].
  split; [apply bool_decide_eq_true|]. split; [apply bool_decide_eq_true|].
  split; [apply Contains_spec|apply IsEmpty_spec].
Qed.

Lemma ExceptWith_elem hs l y : y ∈ ExceptWith hs l <-> y ∈ hs /\ ~ In y l.
Proof.
  unfold ExceptWith. revert hs. induction l as [|v l IH]; intros hs; cbn [foldl In].
  - tauto.
  - rewrite IH. unfold delete_key. rewrite elem_of_difference, elem_of_singleton.
    split; [intros [[H1 H2] H3]; split; [exact H1|]; intros [->|H4]; tauto
           |intros [H1 H2]; split; [split; [exact H1|]|]; intros ?; apply H2; auto].
Qed.

Lemma UnionWith_elem hs l y : y ∈ UnionWith hs l <-> y ∈ hs \/ In y l.
Proof.
  unfold UnionWith. revert hs. induction l as [|v l IH]; intros hs; cbn [foldl In].
  - tauto.
  - rewrite IH, Add_spec. cbn [fst]. rewrite elem_of_union, elem_of_singleton.
    intuition congruence.
Qed.

Lemma NewHashSet_elem l y : y ∈ NewHashSet l <-> In y l.
Proof. unfold NewHashSet. rewrite UnionWith_elem. set_solver. Qed.

Lemma NewHashSet_list l : NewHashSet l = list_to_set l.
Proof.
  apply set_eq. intros y. rewrite NewHashSet_elem, elem_of_list_to_set, elem_of_list_In. reflexivity.
Qed.

Section Iter.
Variable iter : iteration K.
Hypothesis Hiter : legal iter.

Lemma iter_In s x : In x (iter s) <-> x ∈ s.
Proof. rewrite <- elem_of_list_In. apply Hiter. Qed.

Lemma iter_size s : length (iter s) = size s.
Proof.
  destruct (Hiter s) as [Hnd Hel].
  rewrite <- (size_list_to_set (C := gset K)) by exact Hnd. f_equal.
  apply set_eq. intros x. rewrite elem_of_list_to_set. apply Hel.
Qed.

Lemma RemoveWhere_gen (p : K -> bool) l : forall hs (n : nat), NoDup l -> (forall x, x ∈ l -> x ∈ hs) ->
  let r := foldl (fun (acc : gset K * nat) k =>
           let '(s, n) := acc in
           if p k then let '(s', b) := Remove s k in (s', if b then S n else n)
           else acc) (hs, n) l in
  (forall y, y ∈ fst r <-> y ∈ hs /\ ~ (In y l /\ p y = true)) /\
  snd r = (n + length (List.filter p l))%nat.
Proof.
  induction l as [|k l IH]; intros hs n Hnd Hsub; cbn [foldl].
  - cbn. split; [intros y; tauto | lia].
  - apply NoDup_cons in Hnd as [Hk Hnd]. cbn [List.filter].
    destruct (p k) eqn:Hp.
    + rewrite Remove_spec. rewrite bool_decide_true by (apply Hsub; left).
      destruct (IH (hs ∖ {[k]}) (S n) Hnd) as [H1 H2].
      { intros x Hx. rewrite elem_of_difference, elem_of_singleton. split; [apply Hsub; right; exact Hx|].
        intros ->. contradiction. }
      split.
      * intros y. rewrite H1. rewrite elem_of_difference, elem_of_singleton. cbn [In].
        split; [intros [[Ha Hb] Hc]; split; [exact Ha|]; intros [[->|Hd] He]; [congruence|tauto]
               |intros [Ha Hb]; split; [split; [exact Ha|intros ->; apply Hb; auto]|tauto]].
      * rewrite H2. cbn [length]. lia.
    + destruct (IH hs n Hnd) as [H1 H2].
      { intros x Hx. apply Hsub. right. exact Hx. }
      split; [|exact H2].
      intros y. rewrite H1. cbn [In]. intuition congruence.
Qed.

Lemma RemoveWhere_elem hs p y :
  y ∈ fst (RemoveWhere iter hs p) <-> y ∈ hs /\ p y = false.
Proof.
  destruct (Hiter hs) as [Hnd Hel].
  destruct (RemoveWhere_gen p (iter hs) hs 0 Hnd (fun x Hx => proj1 (Hel x) Hx)) as [H1 _].
  unfold RemoveWhere. rewrite H1, iter_In. destruct (p y); intuition congruence.
Qed.

Lemma RemoveWhere_count hs p :
  snd (RemoveWhere iter hs p) = size (filter (fun x => p x = true) hs).
Proof.
  destruct (Hiter hs) as [Hnd Hel].
  destruct (RemoveWhere_gen p (iter hs) hs 0 Hnd (fun x Hx => proj1 (Hel x) Hx)) as [_ H2].
  unfold RemoveWhere. rewrite H2. cbn [Nat.add].
  assert (E : forall l0, List.filter p l0 = filter (fun x => p x = true) l0).
  { clear. induction l0 as [|a l0 IH]; [reflexivity|].
    rewrite filter_cons. cbn [List.filter]. rewrite IH.
    destruct (p a) eqn:Hpa; [rewrite decide_True by reflexivity|rewrite decide_False by congruence]; reflexivity. }
  rewrite E.
  rewrite <- (size_list_to_set (C := gset K)) by (apply NoDup_filter; exact Hnd). f_equal.
  apply set_eq. intros x. rewrite elem_of_list_to_set, elem_of_list_filter, elem_of_filter, Hel.
  reflexivity.
Qed.

Lemma Clear_empty hs : Clear iter hs = ∅.
Proof.
  apply set_eq. intros y. unfold Clear. fold (ExceptWith hs (iter hs)).
  rewrite ExceptWith_elem, iter_In. set_solver.
Qed.

Lemma IntersectWithSet_elem hs other y :
  y ∈ IntersectWithSet iter hs other <-> y ∈ hs /\ y ∈ other.
Proof.
  unfold IntersectWithSet.
  destruct (Nat.eqb_spec (size hs) 0) as [E|E].
  { apply size_empty_inv in E. set_solver. }
  destruct (Nat.eqb_spec (size other) 0) as [E'|E'].
  { apply size_empty_inv in E'. rewrite Clear_empty. set_solver. }
  clear E E'.
  assert (G : forall l s, y ∈ foldl (fun s k => if Contains other k then s else fst (Remove s k)) s l
              <-> y ∈ s /\ (In y l -> y ∈ other)).
  { induction l as [|k l IH]; intros s; cbn [foldl In]; [tauto|].
    rewrite IH. destruct (Contains other k) eqn:C.
    - apply Contains_spec in C. intuition congruence.
    - apply Contains_spec_false in C. rewrite Remove_spec. cbn [fst].
      rewrite elem_of_difference, elem_of_singleton.
      split; [intros [[Ha Hb] Hc]; split; [exact Ha|]; intros [->|Hd]; tauto
             |intros [Ha Hb]; split; [split; [exact Ha|intros ->; tauto]|tauto]]. }
  rewrite G, iter_In. tauto.
Qed.

Lemma IntersectWith_elem hs l y : y ∈ IntersectWith iter hs l <-> y ∈ hs /\ In y l.
Proof. unfold IntersectWith. rewrite IntersectWithSet_elem, NewHashSet_elem. reflexivity. Qed.

End Iter.

(** Toggle loop. *)
Lemma SymLoop_elem l : forall hs y, NoDup l ->
  y ∈ foldl (fun s v => let '(s', removed) := Remove s v in
                         if removed then s' else fst (Add s' v)) hs l
  <-> (y ∈ hs /\ ~ In y l) \/ (y ∉ hs /\ In y l).
Proof.
  induction l as [|v l IH]; intros hs y Hnd; cbn [foldl In]; [tauto|].
  apply NoDup_cons in Hnd as [Hv Hnd]. rewrite elem_of_list_In in Hv.
  rewrite Remove_spec. rewrite IH by exact Hnd.
  destruct (decide (v ∈ hs)) as [Hin|Hin].
  - rewrite bool_decide_true by exact Hin. rewrite elem_of_difference, elem_of_singleton.
    destruct (decide (y = v)) as [->|Hne]; [tauto|].
    split; [intros [[[? ?] ?]|[H1 H2]]|intros [[? ?]|[? [?|?]]]]; try tauto; try congruence.
    + left. split; [tauto|]. intros [?|?]; congruence || tauto.
  - rewrite bool_decide_false by exact Hin. rewrite Add_spec. cbn [fst].
    rewrite elem_of_union, elem_of_difference, elem_of_singleton.
    destruct (decide (y = v)) as [->|Hne]; [tauto|].
    assert (v <> y) by congruence. tauto.
Qed.

Lemma SymmetricExceptWith_elem hs l y : NoDup l ->
  y ∈ SymmetricExceptWith hs l <-> (y ∈ hs /\ ~ In y l) \/ (y ∉ hs /\ In y l).
Proof.
  intros Hnd. unfold SymmetricExceptWith. destruct (IsEmpty hs) eqn:E.
  - apply IsEmpty_spec in E. subst. rewrite UnionWith_elem. set_solver.
  - apply SymLoop_elem. exact Hnd.
Qed.

Lemma forallb_Contains hs l : forallb (Contains hs) l = true <-> forall x, In x l -> x ∈ hs.
Proof. rewrite forallb_forall. setoid_rewrite Contains_spec. reflexivity. Qed.

Lemma bool_iff_prop (b : bool) (P : Prop) : (b = true <-> P) -> (b = false <-> ~ P).
Proof. destruct b; intuition congruence. Qed.

Lemma list_set_size l : NoDup l -> size (list_to_set l : gset K) = length l.
Proof. apply size_list_to_set. Qed.

Lemma SetEquals_nodup hs l : NoDup l ->
  (SetEquals hs l = true <-> (forall x, x ∈ hs <-> In x l)).
Proof.
  intros Hnd. unfold SetEquals.
  destruct (Nat.eqb_spec (size hs) (length l)) as [E|E]; cbn [negb].
  - rewrite forallb_Contains. split; [|intros H x Hx; apply H; exact Hx].
    intros H.
    assert (Hs : list_to_set l = hs).
    { assert (Hsub : (list_to_set l : gset K) ⊆ hs).
      { intros x. rewrite elem_of_list_to_set, elem_of_list_In. apply H. }
      destruct (decide (hs ⊆ list_to_set l)) as [Hd|Hd]; [apply set_eq; set_solver|].
      exfalso. assert (Hss : (list_to_set l : gset K) ⊂ hs) by (split; assumption).
      apply subset_size in Hss. rewrite (list_set_size l Hnd) in Hss. lia. }
    intros x. rewrite <- Hs, elem_of_list_to_set, elem_of_list_In. reflexivity.
  - split; [discriminate|]. intros H. exfalso. apply E.
    rewrite <- (list_set_size l Hnd). f_equal. apply set_eq. intros x.
    rewrite H, elem_of_list_to_set, elem_of_list_In. reflexivity.
Qed.

Lemma Overlaps_spec hs l : Overlaps hs l = true <-> exists x, x ∈ hs /\ In x l.
Proof.
  unfold Overlaps. destruct (IsEmpty hs) eqn:E.
  - apply IsEmpty_spec in E. subst. split; [discriminate|]. intros (x & Hx & _). set_solver.
  - rewrite existsb_exists. setoid_rewrite Contains_spec.
    split; intros (x & H1 & H2); exists x; tauto.
Qed.

Lemma IsSupersetOf_nodup hs l : NoDup l ->
  (IsSupersetOf hs l = true <-> forall x, In x l -> x ∈ hs).
Proof.
  intros Hnd. unfold IsSupersetOf.
  destruct (Nat.eqb_spec (length l) 0) as [E|E].
  { destruct l; [|discriminate]. split; [intros _ x []|reflexivity]. }
  destruct (Nat.ltb_spec (size hs) (length l)) as [L|L]; [|apply forallb_Contains].
  split; [discriminate|]. intros H. exfalso.
  rewrite <- (list_set_size l Hnd) in L.
  assert (Hsub : (list_to_set l : gset K) ⊆ hs).
  { intros x. rewrite elem_of_list_to_set, elem_of_list_In. apply H. }
  apply subseteq_size in Hsub. lia.
Qed.

Lemma IsProperSupersetOf_nodup hs l : NoDup l -> hs <> ∅ ->
  (IsProperSupersetOf hs l = true <->
   (forall x, In x l -> x ∈ hs) /\ exists x, x ∈ hs /\ ~ In x l).
Proof.
  intros Hnd Hne. unfold IsProperSupersetOf.
  destruct (IsEmpty hs) eqn:E; [apply IsEmpty_spec in E; contradiction|].
  destruct (Nat.eqb_spec (length l) 0) as [E0|E0].
  { destruct l; [|discriminate]. split; [|reflexivity].
    intros _. split; [intros x []|]. apply set_choose_L in Hne as [x Hx]. exists x. split; [exact Hx|intros []]. }
  pose proof (list_set_size l Hnd) as Hsz.
  destruct (Nat.leb_spec (size hs) (length l)) as [L|L].
  - split; [discriminate|]. intros [H (x & Hx1 & Hx2)]. exfalso.
    assert (Hsub : (list_to_set l : gset K) ⊂ hs).
    { split.
      - intros y. rewrite elem_of_list_to_set, elem_of_list_In. apply H.
      - intros Hc. apply Hx2. rewrite <- elem_of_list_In, <- (elem_of_list_to_set (C:=gset K)).
        apply Hc. exact Hx1. }
    apply subset_size in Hsub. lia.
  - rewrite forallb_Contains. split; [|tauto]. intros H. split; [exact H|].
    destruct (decide (hs ∖ list_to_set l = ∅)) as [D|D].
    + exfalso. assert (Hsub : hs ⊆ list_to_set l).
      { intros y Hy. destruct (decide (y ∈ (list_to_set l : gset K))) as [|Hn]; [assumption|].
        exfalso. assert (y ∈ hs ∖ list_to_set l) by set_solver. rewrite D in H0. set_solver. }
      apply subseteq_size in Hsub. lia.
    + apply set_choose_L in D as [x Hx]. exists x. rewrite <- elem_of_list_In. set_solver.
Qed.

Lemma IsSubsetOfSet_spec iter hs other : legal iter ->
  (IsSubsetOfSet iter hs other = true <-> forall x, x ∈ hs -> x ∈ other).
Proof.
  intros Hit. unfold IsSubsetOfSet. destruct (IsEmpty hs) eqn:E.
  { apply IsEmpty_spec in E. subst. split; [|reflexivity]. intros _ x. set_solver. }
  destruct (Nat.ltb_spec (size other) (size hs)) as [L|L].
  - split; [discriminate|]. intros H. exfalso.
    assert (Hsub : hs ⊆ other) by (intros x; apply H). apply subseteq_size in Hsub. lia.
  - rewrite forallb_Contains. setoid_rewrite (iter_In iter Hit). reflexivity.
Qed.

Lemma IsProperSubsetOfSet_spec iter hs other : legal iter ->
  (IsProperSubsetOfSet iter hs other = true <->
   (forall x, x ∈ hs -> x ∈ other) /\ exists x, x ∈ other /\ x ∉ hs).
Proof.
  intros Hit. unfold IsProperSubsetOfSet. destruct (IsEmpty hs) eqn:E.
  { apply IsEmpty_spec in E. subst. rewrite Nat.ltb_lt. split.
    - intros H. split; [intros x; set_solver|].
      destruct (decide (other = ∅)) as [->|Hn]; [rewrite size_empty in H; lia|].
      apply set_choose_L in Hn as [x Hx]. exists x. set_solver.
    - intros [_ (x & Hx & _)]. destruct (decide (size other = 0)) as [Hz|Hz]; [|lia].
      apply size_empty_inv in Hz. set_solver. }
  destruct (Nat.leb_spec (size other) (size hs)) as [L|L].
  - split; [discriminate|]. intros [H (x & Hx1 & Hx2)]. exfalso.
    assert (Hsub : hs ⊂ other).
    { split; [intros y; apply H|]. intros Hc. apply Hx2, Hc, Hx1. }
    apply subset_size in Hsub. lia.
  - rewrite forallb_Contains. setoid_rewrite (iter_In iter Hit). split; [|tauto].
    intros H. split; [exact H|].
    destruct (decide (other ∖ hs = ∅)) as [D|D].
    + exfalso. assert (Hsub : other ⊆ hs).
      { intros y Hy. destruct (decide (y ∈ hs)) as [|Hn]; [assumption|].
        exfalso. assert (y ∈ other ∖ hs) by set_solver. rewrite D in H0. set_solver. }
      apply subseteq_size in Hsub. lia.
    + apply set_choose_L in D as [x Hx]. exists x. set_solver.
Qed.

(** Call sequences. *)
Lemma call_step_elem hs c y : call_legal c ->
  (y ∈ call_step hs c <-> member_after (fun z => z ∈ hs) c y).
Proof.
  destruct c; cbn [call_step member_after call_legal]; intros HL.
  - rewrite Add_spec. cbn [fst]. set_solver.
  - rewrite Remove_spec. cbn [fst]. set_solver.
  - apply RemoveWhere_elem. exact HL.
  - rewrite Clear_empty by exact HL. set_solver.
  - apply UnionWith_elem.
  - apply ExceptWith_elem.
  - apply IntersectWith_elem. exact HL.
  - unfold UnionWithSet, Keys. rewrite UnionWith_elem, iter_In by exact HL. reflexivity.
  - unfold ExceptWithSet, Keys. rewrite ExceptWith_elem, iter_In by exact HL. reflexivity.
  - apply IntersectWithSet_elem. exact HL.
  - unfold SymmetricExceptWithSet, Keys. rewrite SymmetricExceptWith_elem by apply HL.
    rewrite iter_In by exact HL. reflexivity.
Qed.

Lemma member_after_ext (m1 m2 : K -> Prop) c y :
  (forall z, m1 z <-> m2 z) -> (member_after m1 c y <-> member_after m2 c y).
Proof. intros H. destruct c; cbn [member_after]; rewrite ?H; tauto. Qed.

Lemma members_after_ext cs : forall (m1 m2 : K -> Prop) y,
  (forall z, m1 z <-> m2 z) -> (members_after m1 cs y <-> members_after m2 cs y).
Proof.
  unfold members_after. induction cs as [|c cs IH]; intros m1 m2 y H; cbn [fold_left]; [apply H|].
  apply IH. intros z. apply member_after_ext. exact H.
Qed.

Lemma calls_elem cs : forall hs y, Forall call_legal cs ->
  (y ∈ fold_left call_step cs hs <-> members_after (fun z => z ∈ hs) cs y).
Proof.
  induction cs as [|c cs IH]; intros hs y HF; cbn [fold_left]; [reflexivity|].
  inversion HF as [|? ? Hc HF']; subst.
  rewrite IH by exact HF'. unfold members_after. cbn [fold_left].
  apply (members_after_ext cs). intros z. apply call_step_elem. exact Hc.
Qed.

Lemma set_relations (iter iter' : iteration K) hs other : legal iter -> legal iter' ->
  (IsSubsetOfSet iter hs other = true <-> (forall x, x ∈ hs -> x ∈ other)) /\
  (IsProperSubsetOfSet iter hs other = true <->
     (forall x, x ∈ hs -> x ∈ other) /\ exists x, x ∈ other /\ x ∉ hs) /\
  (IsSupersetOfSet iter' hs other = true <-> (forall x, x ∈ other -> x ∈ hs)) /\
  (OverlapsSet iter' hs other = true <-> exists x, x ∈ hs /\ x ∈ other) /\
  (SetEqualsSet iter' hs other = true <-> (forall x, x ∈ hs <-> x ∈ other)) /\
  (hs <> ∅ ->
   (IsProperSupersetOfSet iter' hs other = true <->
     (forall x, x ∈ other -> x ∈ hs) /\ exists x, x ∈ hs /\ x ∉ other)).
Proof.
  intros H H'.
  split; [apply IsSubsetOfSet_spec; exact H|].
  split; [apply IsProperSubsetOfSet_spec; exact H|].
  unfold IsSupersetOfSet, OverlapsSet, SetEqualsSet, IsProperSupersetOfSet, Keys.
  destruct (H' other) as [Hnd _].
  rewrite IsSupersetOf_nodup, Overlaps_spec, SetEquals_nodup by exact Hnd.
  setoid_rewrite (iter_In iter' H').
  split; [reflexivity|]. split; [reflexivity|]. split; [reflexivity|].
  intros Hne. rewrite IsProperSupersetOf_nodup by assumption.
  setoid_rewrite (iter_In iter' H'). reflexivity.
Qed.

Lemma slice_relations (iter : iteration K) hs l : legal iter ->
  (IsSubsetOf iter hs l = true <-> (forall x, x ∈ hs -> In x l)) /\
  (IsProperSubsetOf iter hs l = true <->
     (forall x, x ∈ hs -> In x l) /\ exists x, In x l /\ x ∉ hs) /\
  (Overlaps hs l = true <-> exists x, x ∈ hs /\ In x l) /\
  (NoDup l ->
    (SetEquals hs l = true <-> (forall x, x ∈ hs <-> In x l)) /\
    (IsSupersetOf hs l = true <-> (forall x, In x l -> x ∈ hs)) /\
    (hs <> ∅ -> (IsProperSupersetOf hs l = true <->
       (forall x, In x l -> x ∈ hs) /\ exists x, x ∈ hs /\ ~ In x l)) /\
    (forall y, y ∈ SymmetricExceptWith hs l <->
       (y ∈ hs /\ ~ In y l) \/ (y ∉ hs /\ In y l))).
Proof.
  intros H. unfold IsSubsetOf, IsProperSubsetOf.
  rewrite IsSubsetOfSet_spec, IsProperSubsetOfSet_spec by exact H.
  setoid_rewrite NewHashSet_elem.
  split; [reflexivity|]. split; [reflexivity|]. split; [apply Overlaps_spec|].
  intros Hnd. split; [apply SetEquals_nodup; exact Hnd|].
  split; [apply IsSupersetOf_nodup; exact Hnd|].
  split; [apply IsProperSupersetOf_nodup; exact Hnd|].
  intros y. apply SymmetricExceptWith_elem. exact Hnd.
Qed.
End Proofs.

(** Concrete material for examples and refutations, over Z. *)
Definition zset (l : list Z) : gset Z := list_to_set l.
Definition ziter : iteration Z := elements.
Lemma ziter_legal : legal ziter.
Proof. intros s. split; [apply NoDup_elements | intros x; apply elem_of_elements]. Qed.

Lemma SetEquals_wit1 : exists x : Z, x ∈ zset [1;2]%Z /\ ~ In x [1;1]%Z.
Proof. exists 2%Z. split; [apply (bool_decide_unpack _); vm_compute; exact I|]. cbn. intuition lia. Qed.
Lemma SetEquals_wit2 : forall x : Z, x ∈ zset [1]%Z <-> In x [1;1]%Z.
Proof. intros x. unfold zset. rewrite elem_of_list_to_set, elem_of_list_singleton. cbn. intuition lia. Qed.
Lemma Superset_wit : forall x : Z, In x [1;1]%Z -> x ∈ zset [1]%Z.
Proof. intros x. apply SetEquals_wit2. Qed.
Lemma SymExcept_wit :
  (1%Z ∉ zset [2]%Z) /\ In 1%Z [1;1]%Z /\
  (1%Z ∉ SymmetricExceptWith (zset [2]%Z) [1;1]%Z) /\ 1%Z ∈ SymmetricExceptWith (∅ : gset Z) [1;1]%Z.
Proof.
  repeat split; try (apply (bool_decide_unpack _); vm_compute; exact I).
Qed.

Lemma C06_wit_legal :
  Forall call_legal [CAdd 3%Z; CUnionWithSet ziter (zset [1;2]%Z);
                     CSymmetricExceptWithSet ziter (zset [2;5]%Z); CRemove 1%Z].
Proof.
  apply Forall_cons; split; [exact I|]. apply Forall_cons; split; [exact ziter_legal|].
  apply Forall_cons; split; [exact ziter_legal|]. apply Forall_cons; split; [exact I|].
  apply Forall_nil; exact I.
Qed.
