(** What Split comes to (C59). *)
From Verif Require Import Base GuidModel.
Open Scope Z_scope.

(** The text for the i-th of the pieces that the delimiter [d] separates: the
    piece itself, except that nothing is found without a delimiter, and that
    after a delimiter at the very beginning the second piece comes with that
    delimiter, or not at all when it is the last one. *)
Definition split_piece (d : bytes) (pieces : list bytes) (i : Z) : bytes :=
  if (0 <=? i) && (i <? len pieces) then
    match pieces with
    | [_] => []
    | [] :: _ => if i =? 1 then if 2 <? len pieces then d ++ nth 1 pieces [] else [] else nth (Z.to_nat i) pieces []
    | _ => nth (Z.to_nat i) pieces []
    end
  else [].
