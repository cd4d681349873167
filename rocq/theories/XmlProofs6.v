(** Reading the text of a field. *)
From Coq Require Import Lia ZifyBool ZifyNat String.
From Verif Require Import Base GuidModel FormatModel FormatSpec FormatProofs StrModel CalModel NumModel ExprModel StrProofs TableModel TableSpec TableProofs3 XmlModel XmlSpec.
Open Scope list_scope.
Open Scope Z_scope.

Lemma fold_dec_mono l : Forall is_digit l -> forall a, 0 <= a -> a <= fold_left (fun a c => 10 * a + (c - 48)) l a.
Proof. induction 1 as [|c l H F IH]; intros a A; cbn [fold_left]; [lia|]. unfold is_digit in H. specialize (IH (10 * a + (c - 48)) ltac:(lia)). lia. Qed.
Lemma int_digits_dec max l : Forall is_digit l -> forall a, 0 <= a -> fold_left (fun a c => 10 * a + (c - 48)) l a <= max ->
  int_digits 10 max l a = PValue (fold_left (fun a c => 10 * a + (c - 48)) l a).
Proof.
  induction 1 as [|c l H F IH]; intros a A M; cbn [fold_left int_digits] in *; [reflexivity|]. unfold is_digit in H. replace (c =? 95) with false by lia.
  unfold digit_of. replace ((48 <=? c) && (c <=? 57)) with true by lia. replace (10 <=? c - 48) with false by lia. cbv zeta.
  pose proof (fold_dec_mono l F (10 * a + (c - 48)) ltac:(lia)) as Q. replace (a * 10 + (c - 48)) with (10 * a + (c - 48)) by lia.
  replace (max <? 10 * a + (c - 48)) with false by lia. apply IH; [lia|exact M].
Qed.
Lemma no_underscore l : Forall is_digit l -> existsb (Z.eqb 95) l = false.
Proof. induction 1 as [|c l H F IH]; [reflexivity|]. cbn [existsb]. rewrite IH. unfold is_digit in H. lia. Qed.
Lemma parse_unsigned_dec bits x l : is_decimal_of x l -> 0 <= x < 2 ^ bits -> parse_unsigned bits l = PValue x.
Proof.
  intros (D & V & N & Z0) R. destruct l as [|b l]; [congruence|]. cbn [parse_unsigned]. inversion D as [|? ? Hb Dl]; subst. unfold is_digit in Hb.
  destruct (Z.eq_dec b 48) as [->|Nb].
  - assert (l = []) as -> by (destruct Z0 as [Z0|Z0]; [destruct l; [reflexivity|discriminate]|cbn in Z0; congruence]).
    cbn [int_base int_digits existsb andb]. unfold dec_value. cbn. reflexivity.
  - assert (int_base (b :: l) = (10, b :: l)) as ->.
    { cbn [int_base]. destruct b as [|p|p]; try lia. do 6 (destruct p as [p|p|]; try reflexivity; try lia). }
    unfold dec_value in *. rewrite int_digits_dec; [|exact D|lia|lia]. rewrite (no_underscore _ D). reflexivity.
Qed.
Lemma ParseUint_dec bits x l : is_decimal_of x l -> 0 <= x < 2 ^ bits -> ParseUint bits l = x.
Proof. intros H R. unfold ParseUint. rewrite (parse_unsigned_dec bits x l H R). reflexivity. Qed.
Lemma ParseInt_dec bits x l : is_decimal_of x l -> 0 < bits -> 0 <= x < 2 ^ (bits - 1) -> ParseInt bits l = x.
Proof.
  intros H B R. pose proof (Z.pow_lt_mono_r 2 (bits - 1) bits ltac:(lia) ltac:(lia) ltac:(lia)) as M.
  assert (P : parse_unsigned bits l = PValue x) by (apply parse_unsigned_dec; [exact H|lia]). destruct H as (D & _ & N & _).
  destruct l as [|b l]; [congruence|]. inversion D as [|? ? Hb Dl]; subst. unfold is_digit in Hb. unfold ParseInt.
  assert (split_sign (b :: l) = (false, b :: l)) as ->.
  { cbn [split_sign]. destruct b as [|p|p]; try lia. do 6 (destruct p as [p|p|]; try reflexivity; try lia). }
  rewrite P. cbn [negb andb]. replace (2 ^ (bits - 1) <=? x) with false by lia. reflexivity.
Qed.
Lemma ParseInt_neg bits x l : is_decimal_of x l -> 0 < bits -> 0 < x <= 2 ^ (bits - 1) -> ParseInt bits (45 :: l) = - x.
Proof.
  intros H B R. pose proof (Z.pow_lt_mono_r 2 (bits - 1) bits ltac:(lia) ltac:(lia) ltac:(lia)) as M.
  unfold ParseInt. cbn [split_sign]. rewrite (parse_unsigned_dec bits x l H) by lia. cbn [negb andb]. replace (2 ^ (bits - 1) <? x) with false by lia. reflexivity.
Qed.
Lemma ParseInt_text bits n : 0 < bits <= 64 -> - 2 ^ (bits - 1) <= n < 2 ^ (bits - 1) -> ParseInt bits (FormatInt n) = n.
Proof.
  intros B R. assert (M : 2 ^ (bits - 1) <= 2 ^ 63) by (apply Z.pow_le_mono_r; lia). unfold FormatInt. destruct (Z.ltb_spec n 0) as [L|L].
  - rewrite (ParseInt_neg bits (- n)); [lia| |lia|lia]. apply FormatUint_decimal. unfold is_u64. lia.
  - apply ParseInt_dec; [|lia|lia]. apply FormatUint_decimal. unfold is_u64. lia.
Qed.
Lemma ParseUint_text bits n : 0 < bits <= 64 -> 0 <= n < 2 ^ bits -> ParseUint bits (FormatInt n) = n.
Proof.
  intros B R. assert (M : 2 ^ bits <= 2 ^ 64) by (apply Z.pow_le_mono_r; lia). unfold FormatInt. replace (n <? 0) with false by lia.
  apply ParseUint_dec; [|lia]. apply FormatUint_decimal. unfold is_u64. lia.
Qed.
Lemma xml_cell_reads (X : xlib) t v c : reads_as X t v c -> xml_cell X t v = c.
Proof.
  destruct t; cbn [reads_as xml_cell]; try congruence.
  - intros [(-> & ->)|(-> & ->)]; reflexivity.
  - intros (n & R & -> & C). unfold decimal_text. cbn [int_range fst snd int_cell] in *. injection C as <-. rewrite ParseInt_text by lia. reflexivity.
  - intros (n & R & -> & C). unfold decimal_text. cbn [int_range fst snd int_cell] in *. injection C as <-. rewrite ParseInt_text by lia. reflexivity.
  - intros (n & R & -> & C). unfold decimal_text. cbn [int_range fst snd int_cell] in *. injection C as <-. rewrite ParseInt_text by lia. reflexivity.
  - intros (n & R & -> & C). unfold decimal_text. cbn [int_range fst snd int_cell] in *. injection C as <-. rewrite ParseInt_text by lia. f_equal. unfold i64. rewrite Z.mod_small; lia.
  - intros (n & R & -> & C). unfold decimal_text. cbn [int_range fst snd int_cell] in *. injection C as <-. rewrite ParseUint_text by lia. reflexivity.
  - intros (n & R & -> & C). unfold decimal_text. cbn [int_range fst snd int_cell] in *. injection C as <-. rewrite ParseUint_text by lia. reflexivity.
  - intros (n & R & -> & C). unfold decimal_text. cbn [int_range fst snd int_cell] in *. injection C as <-. rewrite ParseUint_text by lia. reflexivity.
  - intros (n & R & -> & C). unfold decimal_text. cbn [int_range fst snd int_cell] in *. injection C as <-. rewrite ParseUint_text by lia. f_equal. unfold u64. rewrite Z.mod_small; lia.
Qed.
