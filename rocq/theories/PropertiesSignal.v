(** Signal kinds and signal references (C44, C45). *)
From Coq Require Import String.
From Verif Require Import Base FormatModel SignalModel SignalSpec SignalProofs.
Open Scope Z_scope.

(** ** C44: signal kind acronyms *)

(** The acronym of every kind (Unknown included) parses back to it. *)
Theorem C44_acronym_round_trip : forall k, 0 <= k <= 11 -> ParseSignalKindAcronym (Acronym k) = k.
Proof. exact acronym_parses. Qed.

(** The acronyms are the documented ones. *)
Theorem C44_acronyms_documented : forall k, 0 <= k <= 10 -> In (k, Acronym k) acronyms.
Proof. exact acronym_table. Qed.

(** Every other number has the acronym of an unknown kind. *)
Theorem C44_unknown_acronym : forall k, ~ (0 <= k <= 10) -> Acronym k = runes "??".
Proof. exact acronym_unknown. Qed.

(** Any spelling of a documented acronym - letter case, surrounding white space -
    parses to its kind, and nothing else parses to a known kind. *)
Theorem C44_parse_iff : forall s k, k <> 11 ->
  (ParseSignalKindAcronym s = k <-> exists a, In (k, a) acronyms /\ spelling s a).
Proof.
  intros s k N. split.
  - intros E. apply parse_only; assumption.
  - intros (a & I & S). eapply parse_spelling; eassumption.
Qed.

(** Everything else is Unknown. *)
Theorem C44_otherwise_unknown : forall s,
  ParseSignalKindAcronym s = 11 <-> ~ exists k a, In (k, a) acronyms /\ spelling s a.
Proof.
  intros s. split.
  - intros E (k & a & I & S). rewrite (parse_spelling k a s I S) in E. subst k.
    cbn in I. intuition discriminate.
  - intros H. destruct (Z.eq_dec (ParseSignalKindAcronym s) 11) as [E|N]; [exact E|].
    exfalso. apply H. destruct (parse_only s _ eq_refl N) as (a & I & S). eauto.
Qed.

Example C44_nonvacuous :
  ParseSignalKindAcronym (runes "  fQ ") = 2 /\ spelling (runes "  fQ ") (runes "FQ") /\
  ParseSignalKindAcronym (runes "F Q") = 11.
Proof.
  split; [reflexivity|]. split; [|reflexivity].
  exists [32; 32], [102; 81], [32]. split; [reflexivity|].
  unfold white, letter_variant.
  split; [repeat (constructor; [right; left; reflexivity|]); constructor|].
  split; [constructor; [right; left; reflexivity|constructor]|].
  constructor; [right; left; reflexivity|]. constructor; [left; reflexivity|constructor].
Qed.

(** ** C45: signal references *)

(** A reference built from any source text (which may contain '-'), a kind's
    acronym in any ASCII letter case and a number decodes into exactly these. *)
Theorem C45_reference_decodes_partial : forall source k acr m n,
  In (k, acr) acronyms -> Forall2 letter_variant m acr -> Forall (fun r => r < 128) m ->
  0 <= n < 2 ^ 63 ->
  ParseSignalReference (reference source m n) = Ok (source, k, n).
Proof. exact reference_ok. Qed.

(** Every reference with a '-' and at least two bytes after the last one: the source
    is what precedes that '-', the kind is the one the two bytes spell, the position
    the number that follows. *)
Theorem C45_exactly : forall source t : bytes, ~ In 45 t -> bytes_ok t -> (2 <= length t)%nat ->
  exists k n : Z, ParseSignalReference (source ++ 45 :: t) = Ok (source, k, n) /\
    written_kind (nth 0 t 0) (nth 1 t 0) k /\ written_position (skipn 2 t) n.
Proof. exact reference_written. Qed.
Example C45_exactly_nonvacuous :
  ParseSignalReference (runes "A-B-xx+007") = Ok (runes "A-B", 11, 7) /\ written_position (runes "+007") 7 /\
  ParseSignalReference (runes "A-FQ99999999999999999999") = Ok (runes "A", 2, 2 ^ 63 - 1) /\
  ParseSignalReference (runes "A-FQ7x") = Ok (runes "A", 2, 0).
Proof.
  split; [reflexivity|]. split; [|split; reflexivity]. left. exists (runes "007").
  split; [|reflexivity]. split; [right; reflexivity|]. split; [discriminate|].
  repeat constructor; discriminate.
Qed.

(** Whatever the text, a position fits the int it is returned as. *)
Theorem C45_position_fits : forall s source k n, ParseSignalReference s = Ok (source, k, n) -> is_i64 n.
Proof. exact reference_position. Qed.

Example C45_nonvacuous :
  reference (runes "SHELBY-A") (runes "Pm") 17 = runes "SHELBY-A-Pm17" /\
  ParseSignalReference (runes "SHELBY-A-Pm17") = Ok (runes "SHELBY-A", 1, 17).
Proof. split; reflexivity. Qed.

(** Exactly the references whose text after the last '-' is shorter than two
    bytes crash the program. *)
Theorem C45_panics_iff : forall s, ParseSignalReference s = Panic <->
  exists n, after_last_dash s = Some n /\ (n < 2)%nat.
Proof. exact reference_panic_iff. Qed.

Theorem C45_short_type_refuted : ParseSignalReference (runes "SHELBY-A") = Panic.
Proof. reflexivity. Qed.

(** A text without '-' is reported as a phase angle of an empty source. *)
Theorem C45_no_dash_is_angle_refuted : forall s, ~ In 45 s ->
  ParseSignalReference s = Ok ([], kAngle, 0).
Proof. exact reference_no_dash. Qed.

Print Assumptions C44_acronym_round_trip.
Print Assumptions C44_acronyms_documented.
Print Assumptions C44_parse_iff.
Print Assumptions C44_otherwise_unknown.
Print Assumptions C45_reference_decodes_partial.
Print Assumptions C45_panics_iff.
Print Assumptions C45_position_fits.
Print Assumptions C45_short_type_refuted.
Print Assumptions C45_no_dash_is_angle_refuted.
