(** Replacing the occurrences of a text without regard to letter case. *)
From Verif Require Import Base StrModel.
Open Scope list_scope.
Open Scope Z_scope.

Definition same_letters (m t : bytes) : Prop := map ascii_upper m = map ascii_upper t.
Definition fold_occurs (s t : bytes) (i : Z) : Prop := exists u m v, s = u ++ m ++ v /\ len u = i /\ same_letters m t.
(** [fold_replaced t r s z]: z is s with each occurrence of t in any letter case, from
    left to right and not overlapping, replaced by r. *)
Inductive fold_replaced (t r : bytes) : bytes -> bytes -> Prop :=
| fold_none s : (forall i, ~ fold_occurs s t i) -> fold_replaced t r s s
| fold_first u m s z : same_letters m t -> (forall i, fold_occurs (u ++ m ++ s) t i -> len u <= i) ->
    fold_replaced t r s z -> fold_replaced t r (u ++ m ++ s) (u ++ r ++ z).
(** r before every character and at the end *)
Fixpoint interspersed (r s : bytes) : bytes := match s with [] => r | c :: s => r ++ c :: interspersed r s end.
(** Every dollar sign is at the end or followed by something other than a dollar sign, an
    opening brace, an underscore, a digit or a letter. *)
Definition lone_dollars (r : bytes) : Prop := forall a c b, r = a ++ 36 :: c :: b ->
  c <> 36 /\ c <> 123 /\ c <> 95 /\ ~ (48 <= c <= 57) /\ ~ (65 <= c <= 90) /\ ~ (97 <= c <= 122).
