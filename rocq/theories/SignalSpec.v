(** Specification of signal kinds and signal references. *)
From Coq Require Import String Ascii.
From Verif Require Import Base FormatModel FormatSpec.
Open Scope Z_scope.

(** Runes of an ASCII literal. *)
Fixpoint runes (s : string) : list Z :=
  match s with
  | EmptyString => []
  | String a t => Z.of_N (N_of_ascii a) :: runes t
  end.

(** The documented two-letter acronyms, by kind number. *)
Definition acronyms : list (Z * list Z) :=
  [(0, runes "PA"); (1, runes "PM"); (2, runes "FQ"); (3, runes "DF"); (4, runes "SF");
   (5, runes "DV"); (6, runes "AV"); (7, runes "CV"); (8, runes "ST"); (9, runes "AL");
   (10, runes "QF")].

(** [r] is the letter [c] (an upper-case ASCII letter) in either case; U+017F, the
    long s, is a lower-case S to Unicode. *)
Definition letter_variant (r c : Z) : Prop := r = c \/ r = c + 32 \/ (c = 83 /\ r = 0x17F).

(** White space as Unicode defines it. *)
Definition white (r : Z) : Prop :=
  9 <= r <= 13 \/ r = 32 \/ r = 0x85 \/ r = 0xA0 \/ r = 0x1680 \/ 0x2000 <= r <= 0x200A \/
  r = 0x2028 \/ r = 0x2029 \/ r = 0x202F \/ r = 0x205F \/ r = 0x3000.

(** A spelling of the acronym [a]: any letter case, any surrounding white space. *)
Definition spelling (s a : list Z) : Prop :=
  exists w1 m w2, s = w1 ++ m ++ w2 /\ Forall white w1 /\ Forall white w2 /\ Forall2 letter_variant m a.

(** A reference text: source, '-', acronym, decimal number. *)
Definition reference (source acronym : list Z) (n : Z) : list Z :=
  source ++ [45] ++ acronym ++ FormatUint n.

(** Length of what follows the last '-' in a text; None when there is no '-'. *)
Fixpoint after_last_dash (s : list Z) : option nat :=
  match s with
  | [] => None
  | b :: t => match after_last_dash t with
              | Some n => Some n
              | None => if b =? 45 then Some (List.length t) else None
              end
  end.

(** The kind written by two bytes: the kind whose acronym they spell, 11 (Unknown)
    when they spell none. *)
Definition written_kind (b1 b2 : Z) (k : Z) : Prop :=
  (exists acr, In (k, acr) acronyms /\ Forall2 letter_variant [b1; b2] acr) \/
  (k = 11 /\ ~ exists k' acr, In (k', acr) acronyms /\ Forall2 letter_variant [b1; b2] acr).

(** The position written by the rest: decimal digits (leading zeros and one '+'
    allowed), held to the largest int64; 0 when it is no number. *)
Definition number_text (t d : bytes) : Prop := (t = d \/ t = 43 :: d) /\ d <> [] /\ Forall is_digit d.
Definition written_position (t : bytes) (n : Z) : Prop :=
  (exists d, number_text t d /\ n = Z.min (2 ^ 63 - 1) (dec_value d)) \/
  (n = 0 /\ ~ exists d, number_text t d).
