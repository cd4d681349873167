(** Property theorems for sttp/hashset (C06, C07, C08). *)
From Verif Require Import HashSetModel HashSetSpec HashSetProofs.

(** C06: membership after any sequence of mutating calls. *)
Theorem C06_call_sequences :
  forall (K : Type) (EqK : EqDecision K) (CK : Countable K)
         (cs : list (call K)) (hs : gset K) (y : K),
  Forall call_legal cs ->
  (y ∈ fold_left call_step cs hs <-> members_after (fun z => z ∈ hs) cs y).
Proof. exact (@calls_elem). Qed.
Print Assumptions C06_call_sequences.

Theorem C06_add_remove_report :
  forall (K : Type) (EqK : EqDecision K) (CK : Countable K) (hs : gset K) (x : K),
  (snd (Add hs x) = true <-> x ∉ hs) /\ (snd (Remove hs x) = true <-> x ∈ hs) /\
  (Contains hs x = true <-> x ∈ hs) /\ (IsEmpty hs = true <-> hs = ∅).
Proof. exact (@add_remove_report). Qed.
Print Assumptions C06_add_remove_report.

Theorem C06_remove_where_count :
  forall (K : Type) (EqK : EqDecision K) (CK : Countable K) (iter : iteration K) (Hl : legal iter)
         (hs : gset K) (p : K -> bool),
  snd (RemoveWhere iter hs p) = size (filter (fun x => p x = true) hs).
Proof. exact (@RemoveWhere_count). Qed.
Print Assumptions C06_remove_where_count.

Example C06_nonvacuous :
  Forall call_legal [CAdd 3%Z; CUnionWithSet ziter (zset [1;2]%Z);
                     CSymmetricExceptWithSet ziter (zset [2;5]%Z); CRemove 1%Z] /\
  elements (fold_left call_step [CAdd 3%Z; CUnionWithSet ziter (zset [1;2]%Z);
                       CSymmetricExceptWithSet ziter (zset [2;5]%Z); CRemove 1%Z] ∅) = [3;5]%Z.
Proof. split; [exact C06_wit_legal | vm_compute; reflexivity]. Qed.

(** C07: relations between two sets.  IsProperSupersetOfSet needs a non-empty
    receiver; see C08 for the violation on the empty set. *)
Theorem C07_set_relations :
  forall (K : Type) (EqK : EqDecision K) (CK : Countable K) (iter iter' : iteration K)
         (hs other : gset K),
  legal iter -> legal iter' ->
  (IsSubsetOfSet iter hs other = true <-> (forall x, x ∈ hs -> x ∈ other)) /\
  (IsProperSubsetOfSet iter hs other = true <->
     (forall x, x ∈ hs -> x ∈ other) /\ exists x, x ∈ other /\ x ∉ hs) /\
  (IsSupersetOfSet iter' hs other = true <-> (forall x, x ∈ other -> x ∈ hs)) /\
  (OverlapsSet iter' hs other = true <-> exists x, x ∈ hs /\ x ∈ other) /\
  (SetEqualsSet iter' hs other = true <-> (forall x, x ∈ hs <-> x ∈ other)) /\
  (hs <> ∅ ->
   (IsProperSupersetOfSet iter' hs other = true <->
     (forall x, x ∈ other -> x ∈ hs) /\ exists x, x ∈ hs /\ x ∉ other)).
Proof. exact (@set_relations). Qed.
Print Assumptions C07_set_relations.

Example C07_nonvacuous :
  legal ziter /\ IsProperSubsetOfSet ziter (zset [1;2]%Z) (zset [3;2;1]%Z) = true /\
  IsProperSupersetOfSet ziter (zset [1;2;3]%Z) (zset [1;2]%Z) = true /\
  SetEqualsSet ziter (zset [1;2]%Z) (zset [2;1]%Z) = true.
Proof. split; [apply ziter_legal | vm_compute; auto]. Qed.

(** C08: slices.  The three relations that first build a set are exact for all
    slices; the others are exact for duplicate-free slices only. *)
Theorem C08_slice_relations_partial :
  forall (K : Type) (EqK : EqDecision K) (CK : Countable K) (iter : iteration K)
         (hs : gset K) (l : list K),
  legal iter ->
  (IsSubsetOf iter hs l = true <-> (forall x, x ∈ hs -> In x l)) /\
  (IsProperSubsetOf iter hs l = true <->
     (forall x, x ∈ hs -> In x l) /\ exists x, In x l /\ x ∉ hs) /\
  (Overlaps hs l = true <-> exists x, x ∈ hs /\ In x l) /\
  (NoDup l ->
    (SetEquals hs l = true <-> (forall x, x ∈ hs <-> In x l)) /\
    (IsSupersetOf hs l = true <-> (forall x, In x l -> x ∈ hs)) /\
    (hs <> ∅ -> (IsProperSupersetOf hs l = true <->
       (forall x, In x l -> x ∈ hs) /\ exists x, x ∈ hs /\ ~ In x l)) /\
    (forall y, y ∈ SymmetricExceptWith hs l <->
       (y ∈ hs /\ ~ In y l) \/ (y ∉ hs /\ In y l))).
Proof. exact (@slice_relations). Qed.
Print Assumptions C08_slice_relations_partial.

(** Refutations: {1,2}.SetEquals([1,1]) is true, {1}.SetEquals([1,1]) is false. *)
Theorem C08_SetEquals_refuted :
  (exists (hs : gset Z) (l : list Z), SetEquals hs l = true /\ exists x, x ∈ hs /\ ~ In x l) /\
  (exists (hs : gset Z) (l : list Z), SetEquals hs l = false /\ forall x, x ∈ hs <-> In x l).
Proof.
  exact (conj (ex_intro _ (zset [1;2]%Z) (ex_intro _ [1;1]%Z (conj eq_refl SetEquals_wit1)))
              (ex_intro _ (zset [1]%Z) (ex_intro _ [1;1]%Z (conj eq_refl SetEquals_wit2)))).
Qed.
Print Assumptions C08_SetEquals_refuted.

Theorem C08_IsSupersetOf_refuted :
  exists (hs : gset Z) (l : list Z), IsSupersetOf hs l = false /\ forall x, In x l -> x ∈ hs.
Proof. exact (ex_intro _ (zset [1]%Z) (ex_intro _ [1;1]%Z (conj eq_refl Superset_wit))). Qed.
Print Assumptions C08_IsSupersetOf_refuted.

(** The empty set claims to be a proper superset of everything. *)
Theorem C08_IsProperSupersetOf_empty_refuted :
  forall (l : list Z), IsProperSupersetOf (∅ : gset Z) l = true.
Proof. exact (fun l => eq_refl). Qed.
Print Assumptions C08_IsProperSupersetOf_empty_refuted.

(** A repeated element is toggled twice when the set is non-empty, but added
    when it is empty. *)
Theorem C08_SymmetricExceptWith_refuted :
  exists (hs : gset Z) (l : list Z) (y : Z),
    y ∉ hs /\ In y l /\ y ∉ SymmetricExceptWith hs l /\ y ∈ SymmetricExceptWith ∅ l.
Proof. exact (ex_intro _ (zset [2]%Z) (ex_intro _ [1;1]%Z (ex_intro _ 1%Z SymExcept_wit))). Qed.
Print Assumptions C08_SymmetricExceptWith_refuted.
