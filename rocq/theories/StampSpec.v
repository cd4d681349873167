(** What the text of a time says (C114, C115). *)
From Verif Require Import Base CalSpec FormatSpec.

(** [l] is the number [n] in exactly [k] decimal digits. *)
Definition digits (k : nat) (n : Z) (l : bytes) : Prop :=
  length l = k /\ Forall is_digit l /\ dec_value l = n.

(** A date, and a time of day to the nanosecond. *)
Record moment := Moment { m_date : date; m_hour : Z; m_minute : Z; m_second : Z; m_ns : Z }.
Definition valid_moment (x : moment) : Prop :=
  valid_date (m_date x) /\ 0 <= m_hour x < 24 /\ 0 <= m_minute x < 60 /\ 0 <= m_second x < 60 /\ 0 <= m_ns x < 10 ^ 9.
(** The moment [x] on a clock [off] seconds ahead of UTC is [t] nanoseconds
    after the beginning of 1970. *)
Definition instant_of (x : moment) (off t : Z) : Prop :=
  exists n, on_day n (m_date x) /\
    t = (n * 86400 + m_hour x * 3600 + m_minute x * 60 + m_second x - off) * 10 ^ 9 + m_ns x.

(** yyyy-mm-dd, separator 45. *)
Definition date_text (x : date) (l : bytes) : Prop :=
  let '(y, m, d) := x in
  exists a b c, digits 4 y a /\ digits 2 m b /\ digits 2 d c /\ l = a ++ [45] ++ b ++ [45] ++ c.
(** hh:mm:ss, separator 58. *)
Definition clock_text (h m s : Z) (l : bytes) : Prop :=
  exists a b c, digits 2 h a /\ digits 2 m b /\ digits 2 s c /\ l = a ++ [58] ++ b ++ [58] ++ c.
(** [l] writes [ns] nanoseconds of a second: nothing for none; otherwise a point
    and at least one digit, of which the first stands for tenths. *)
Definition fraction_text (ns : Z) (l : bytes) : Prop :=
  (l = [] /\ ns = 0) \/
  exists ds, l = 46 :: ds /\ ds <> [] /\ Forall is_digit ds /\ ns = dec_value ds * 10 ^ 9 / 10 ^ len ds.
(** At most [k] digits, no zero at the end, no loss: the way times are shown. *)
Definition short_fraction (k : nat) (ns : Z) (l : bytes) : Prop :=
  (l = [] /\ ns = 0) \/
  exists ds, l = 46 :: ds /\ ds <> [] /\ (length ds <= k)%nat /\ Forall is_digit ds /\ last ds 0 <> 48 /\
    ns * 10 ^ len ds = dec_value ds * 10 ^ 9.
(** +hh:mm or -hh:mm, for an offset in seconds. *)
Definition zone_text (off : Z) (l : bytes) : Prop :=
  exists sign h m a b, 0 <= h < 24 /\ 0 <= m < 60 /\ digits 2 h a /\ digits 2 m b /\ l = sign :: a ++ [58] ++ b /\
    ((sign = 43 /\ off = h * 3600 + m * 60) \/ (sign = 45 /\ off = - (h * 3600 + m * 60))).

(** [l] shows the instant [t] of UTC, to the nanosecond, as
    "yyyy-mm-dd hh:mm:ss.fffffffff" without zeros at the end. *)
Definition shows (l : bytes) (t : Z) : Prop :=
  exists x dt ct ft, valid_moment x /\ instant_of x 0 t /\
    date_text (m_date x) dt /\ clock_text (m_hour x) (m_minute x) (m_second x) ct /\
    short_fraction 9 (m_ns x) ft /\ l = dt ++ [32] ++ ct ++ ft.
(** [l] shows the time of day of the instant [t], cut to the millisecond. *)
Definition shows_time_of_day (l : bytes) (t : Z) : Prop :=
  exists x ct ft, valid_moment x /\ instant_of x 0 t /\
    clock_text (m_hour x) (m_minute x) (m_second x) ct /\
    short_fraction 3 (m_ns x - m_ns x mod 10 ^ 6) ft /\ l = ct ++ ft.
(** An xs:dateTime without its zone: the moment [x] with any number of digits of
    the second. *)
Definition local_text (x : moment) (l : bytes) : Prop :=
  valid_moment x /\ exists dt ct ft,
    date_text (m_date x) dt /\ clock_text (m_hour x) (m_minute x) (m_second x) ct /\
    fraction_text (m_ns x) ft /\ l = dt ++ [84] ++ ct ++ ft.

(** Every text that is read as a time, [t], on a clock [off] seconds ahead: as
    above with these liberties: the hour may have one digit, the fraction may
    begin with a comma (44), and a zone may be up to 24 hours or 60 minutes. *)
Definition accepted (l : bytes) (t off : Z) : Prop :=
  exists x dt a b c ft sign zh zm za zb,
    valid_moment x /\ instant_of x off t /\
    date_text (m_date x) dt /\
    (digits 2 (m_hour x) a \/ digits 1 (m_hour x) a) /\ digits 2 (m_minute x) b /\ digits 2 (m_second x) c /\
    (fraction_text (m_ns x) ft \/ exists ds, fraction_text (m_ns x) (46 :: ds) /\ ft = 44 :: ds) /\
    digits 2 zh za /\ digits 2 zm zb /\ zh <= 24 /\ zm <= 60 /\
    ((sign = 43 /\ off = zh * 3600 + zm * 60) \/ (sign = 45 /\ off = - (zh * 3600 + zm * 60))) /\
    l = dt ++ [84] ++ a ++ [58] ++ b ++ [58] ++ c ++ ft ++ [sign] ++ za ++ [58] ++ zb.
