(** Model of sttp/hashset/HashSet.go.  A Go map[T]void is a finite set
    ([gset K]).  Go iterates maps in an unspecified order: every range loop takes
    the order as an argument [iter], and the theorems hold for every order that
    enumerates the map.  Key types whose == is not reflexive (NaN keys) are
    excluded: K has decidable Leibniz equality. *)
From stdpp Require Export gmap.

Section HashSet.
Context {K : Type} `{EqK : EqDecision K} `{CK : @Countable K EqK}.
Implicit Types (hs other : gset K) (l : list K) (x : K).

(** An iteration order for one call: given a map, the sequence of keys ranged
    over. *)
Definition iteration := gset K -> list K.

(** HashSet.go:95-98 *)
Definition Contains hs x : bool := bool_decide (x ∈ hs).
(** HashSet.go:46-53: new map and returned flag *)
Definition Add hs x : gset K * bool :=
  if Contains hs x then (hs, false) else ({[x]} ∪ hs, true).
(** HashSet.go:57-64 *)
Definition Remove hs x : gset K * bool :=
  if Contains hs x then (hs ∖ {[x]}, true) else (hs, false).
(** the built-in delete(hs, x) *)
Definition delete_key hs x : gset K := hs ∖ {[x]}.
(** HashSet.go:68-78; keys are produced from the map as it was at the start of
    the loop and only the key just produced is removed *)
Definition RemoveWhere (iter : iteration) hs (p : K -> bool) : gset K * nat :=
  foldl (fun acc k =>
           let '(s, n) := acc in
           if p k then let '(s', b) := Remove s k in (s', if b then S n else n)
           else acc)
        (hs, 0%nat) (iter hs).
(** HashSet.go:82-84 *)
Definition IsEmpty hs : bool := Nat.eqb (size hs) 0.
(** HashSet.go:87-91 *)
Definition Clear (iter : iteration) hs : gset K := foldl delete_key hs (iter hs).
(** HashSet.go:102-112 *)
Definition Keys (iter : iteration) hs : list K := iter hs.
(** HashSet.go:115-119 *)
Definition ExceptWith hs l : gset K := foldl delete_key hs l.
(** HashSet.go:122-124 *)
Definition ExceptWithSet (iter : iteration) hs other : gset K :=
  ExceptWith hs (Keys iter other).
(** HashSet.go:171-175 *)
Definition UnionWith hs l : gset K := foldl (fun s v => fst (Add s v)) hs l.
(** HashSet.go:178-180 *)
Definition UnionWithSet (iter : iteration) hs other : gset K :=
  UnionWith hs (Keys iter other).
(** HashSet.go:38-42 *)
Definition NewHashSet l : gset K := UnionWith ∅ l.
(** HashSet.go:127-139 *)
Definition SymmetricExceptWith hs l : gset K :=
  if IsEmpty hs then UnionWith hs l
  else foldl (fun s v => let '(s', removed) := Remove s v in
                         if removed then s' else fst (Add s' v)) hs l.
(** HashSet.go:142-144 *)
Definition SymmetricExceptWithSet (iter : iteration) hs other : gset K :=
  SymmetricExceptWith hs (Keys iter other).
(** HashSet.go:152-168 *)
Definition IntersectWithSet (iter : iteration) hs other : gset K :=
  if Nat.eqb (size hs) 0 then hs
  else if Nat.eqb (size other) 0 then Clear iter hs
  else foldl (fun s k => if Contains other k then s else fst (Remove s k)) hs (iter hs).
(** HashSet.go:147-149 *)
Definition IntersectWith (iter : iteration) hs l : gset K :=
  IntersectWithSet iter hs (NewHashSet l).
(** HashSet.go:184-196 *)
Definition SetEquals hs l : bool :=
  if negb (Nat.eqb (size hs) (length l)) then false else forallb (Contains hs) l.
(** HashSet.go:200-202 *)
Definition SetEqualsSet (iter : iteration) hs other : bool := SetEquals hs (Keys iter other).
(** HashSet.go:206-218 *)
Definition Overlaps hs l : bool := if IsEmpty hs then false else existsb (Contains hs) l.
(** HashSet.go:222-224 *)
Definition OverlapsSet (iter : iteration) hs other : bool := Overlaps hs (Keys iter other).
(** HashSet.go:234-252 *)
Definition IsSubsetOfSet (iter : iteration) hs other : bool :=
  if IsEmpty hs then true
  else if Nat.ltb (size other) (size hs) then false
  else forallb (Contains other) (iter hs).
(** HashSet.go:228-230 *)
Definition IsSubsetOf (iter : iteration) hs l : bool := IsSubsetOfSet iter hs (NewHashSet l).
(** HashSet.go:262-280 *)
Definition IsProperSubsetOfSet (iter : iteration) hs other : bool :=
  if IsEmpty hs then Nat.ltb 0 (size other)
  else if Nat.leb (size other) (size hs) then false
  else forallb (Contains other) (iter hs).
(** HashSet.go:256-258 *)
Definition IsProperSubsetOf (iter : iteration) hs l : bool :=
  IsProperSubsetOfSet iter hs (NewHashSet l).
(** HashSet.go:284-302 *)
Definition IsSupersetOf hs l : bool :=
  if Nat.eqb (length l) 0 then true
  else if Nat.ltb (size hs) (length l) then false
  else forallb (Contains hs) l.
(** HashSet.go:306-308 *)
Definition IsSupersetOfSet (iter : iteration) hs other : bool := IsSupersetOf hs (Keys iter other).
(** HashSet.go:312-335 *)
Definition IsProperSupersetOf hs l : bool :=
  if IsEmpty hs then true
  else if Nat.eqb (length l) 0 then true
  else if Nat.leb (size hs) (length l) then false
  else forallb (Contains hs) l.
(** HashSet.go:339-341 *)
Definition IsProperSupersetOfSet (iter : iteration) hs other : bool :=
  IsProperSupersetOf hs (Keys iter other).

(** The mutating calls, for statements about call sequences.  Each call carries
    its own iteration order. *)
Inductive call : Type :=
| CAdd (x : K) | CRemove (x : K)
| CRemoveWhere (iter : iteration) (p : K -> bool)
| CClear (iter : iteration)
| CUnionWith (l : list K) | CExceptWith (l : list K)
| CIntersectWith (iter : iteration) (l : list K)
| CUnionWithSet (iter : iteration) (s : gset K)
| CExceptWithSet (iter : iteration) (s : gset K)
| CIntersectWithSet (iter : iteration) (s : gset K)
| CSymmetricExceptWithSet (iter : iteration) (s : gset K).

Definition call_step hs (c : call) : gset K :=
  match c with
  | CAdd x => fst (Add hs x)
  | CRemove x => fst (Remove hs x)
  | CRemoveWhere iter p => fst (RemoveWhere iter hs p)
  | CClear iter => Clear iter hs
  | CUnionWith l => UnionWith hs l
  | CExceptWith l => ExceptWith hs l
  | CIntersectWith iter l => IntersectWith iter hs l
  | CUnionWithSet iter s => UnionWithSet iter hs s
  | CExceptWithSet iter s => ExceptWithSet iter hs s
  | CIntersectWithSet iter s => IntersectWithSet iter hs s
  | CSymmetricExceptWithSet iter s => SymmetricExceptWithSet iter hs s
  end.
End HashSet.
Arguments iteration : clear implicits.
Arguments iteration K {EqK CK}.
Arguments call : clear implicits.
Arguments call K {EqK CK}.
