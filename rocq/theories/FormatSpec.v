(** Specification vocabulary for number formatting. *)
From Verif Require Import Base.

Definition is_digit (c : Z) : Prop := 48 <= c <= 57.
(** Value of a decimal text. *)
Definition dec_value (l : bytes) : Z := fold_left (fun a c => 10 * a + (c - 48)) l 0.
(** Decimal text of a number: digits, no superfluous leading zero. *)
Definition is_decimal_of (x : Z) (l : bytes) : Prop :=
  Forall is_digit l /\ dec_value l = x /\ l <> [] /\ (length l = 1%nat \/ hd 0 l <> 48).
(** Text with every occurrence of the separator removed. *)
Definition without (s : Z) (l : bytes) : bytes := filter (fun c => negb (c =? s)) l.
(** The separator stands exactly at every fourth place from the right, so the
    digits form groups of three, and the text does not start with it. *)
Definition grouped_by_three (s : Z) (l : bytes) : Prop :=
  (forall p, (p < length l)%nat -> (nth p (rev l) 0 = s <-> (p mod 4 = 3)%nat)) /\ hd 0 l <> s.
