(** Specification vocabulary for GUIDs. *)
From Verif Require Import Base.

(** Lexicographic comparison of byte strings of equal length. *)
Fixpoint lex (a b : bytes) : comparison :=
  match a, b with
  | [], [] => Eq
  | [], _ :: _ => Lt
  | _ :: _, [] => Gt
  | x :: a', y :: b' => match x ?= y with Eq => lex a' b' | c => c end
  end.

Definition sign_of (c : comparison) : Z := match c with Lt => -1 | Eq => 0 | Gt => 1 end.

(** Microsoft <-> RFC field layout: the first field (4 bytes) and the next two
    fields (2 bytes each) are reversed, the rest is unchanged. *)
Definition swap_fields (g : bytes) : bytes :=
  rev (firstn 4 g) ++ rev (firstn 2 (skipn 4 g)) ++ rev (firstn 2 (skipn 6 g)) ++ skipn 8 g.
