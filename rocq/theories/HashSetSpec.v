(** Specification vocabulary for HashSet: membership predicates only. *)
From Verif Require Import HashSetModel.

Section Spec.
Context {K : Type} `{EqK : EqDecision K} `{CK : @Countable K EqK}.

(** An iteration order is legal when it produces each key of the map exactly once. *)
Definition legal (iter : iteration K) : Prop :=
  forall s : gset K, NoDup (iter s) /\ forall x, x ∈ iter s <-> x ∈ s.

Definition call_legal (c : call K) : Prop :=
  match c with
  | CRemoveWhere iter _ | CClear iter | CIntersectWith iter _ | CUnionWithSet iter _
  | CExceptWithSet iter _ | CIntersectWithSet iter _ | CSymmetricExceptWithSet iter _ => legal iter
  | _ => True
  end.

(** Which elements are members after a call, given membership [m] before. *)
Definition member_after (m : K -> Prop) (c : call K) : K -> Prop :=
  fun y =>
  match c with
  | CAdd x => m y \/ y = x
  | CRemove x => m y /\ y <> x
  | CRemoveWhere _ p => m y /\ p y = false
  | CClear _ => False
  | CUnionWith l => m y \/ In y l
  | CExceptWith l => m y /\ ~ In y l
  | CIntersectWith _ l => m y /\ In y l
  | CUnionWithSet _ s => m y \/ y ∈ s
  | CExceptWithSet _ s => m y /\ y ∉ s
  | CIntersectWithSet _ s => m y /\ y ∈ s
  | CSymmetricExceptWithSet _ s => (m y /\ y ∉ s) \/ (~ m y /\ y ∈ s)
  end.

Definition members_after (m : K -> Prop) (cs : list (call K)) : K -> Prop :=
  fold_left member_after cs m.
End Spec.
