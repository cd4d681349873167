(** Literals, trees and groups of operators. *)
From Coq Require Import Lia ZifyBool ZifyNat String.
From Verif Require Import Base GuidModel FormatModel FormatSpec FormatProofs StrModel StrProofs CalModel NumModel ExprModel ExprSpec ExprProofs2 ExprProofs6 TableModel XmlModel XmlSpec XmlProofs6
  ParseModel ParseSpec ParseProofs ParseProofs2 ParseProofs3 ParseProofs4 LexModel LexSpec LexProofs LexProofs4 NumTextModel NumTextSpec NumTextProofs4 TextModel TextSpec.
Open Scope list_scope.
Open Scope Z_scope.

(** ** Literals *)

Lemma int_digits_over max l : Forall FormatSpec.is_digit l -> forall a, 0 <= a -> max < fold_left (fun a c => 10 * a + (c - 48)) l a -> a <= max ->
  int_digits 10 max l a = PRange max.
Proof.
  induction 1 as [|c l H F IH]; intros a A M K; cbn [fold_left int_digits] in *; [lia|]. unfold FormatSpec.is_digit in H. replace (c =? 95) with false by lia.
  unfold digit_of. replace ((48 <=? c) && (c <=? 57)) with true by lia. replace (10 <=? c - 48) with false by lia. cbv zeta.
  replace (a * 10 + (c - 48)) with (10 * a + (c - 48)) by lia. destruct (Z.ltb_spec max (10 * a + (c - 48))); [reflexivity|]. apply IH; [lia|exact M|lia].
Qed.
Lemma parse_over x l : is_decimal_of x l -> 2 ^ 64 <= x -> exists m, parse_unsigned 64 l = PRange m.
Proof.
  intros (D & V & N & Z0) R. destruct l as [|b l]; [congruence|]. cbn [parse_unsigned]. pose proof D as D'. inversion D' as [|? ? Hb Dl]; subst. unfold FormatSpec.is_digit in Hb.
  destruct (Z.eq_dec b 48) as [->|Nb].
  - assert (l = []) as -> by (destruct Z0 as [Z0|Z0]; [destruct l; [reflexivity|discriminate]|cbn in Z0; congruence]). cbn in R. lia.
  - assert (int_base (b :: l) = (10, b :: l)) as ->.
    { cbn [int_base]. destruct b as [|p|p]; try lia. do 6 (destruct p as [p|p|]; try reflexivity; try lia). }
    unfold dec_value in *. rewrite int_digits_over; [eauto|exact D|lia|lia|lia].
Qed.

Lemma hex_value c : hex c -> digit_of c = Some (hex_digit c) /\ 0 <= hex_digit c < 16 /\ c <> 95.
Proof.
  unfold hex, digit, digit_of, hex_digit, lower. intros H.
  assert (L : 65 <= c <= 70 \/ 97 <= c <= 102 -> Z.lor c 32 = if c <=? 70 then c + 32 else c).
  { intros Q. assert (R : In c [65;66;67;68;69;70;97;98;99;100;101;102]) by (cbn; lia). cbn in R. intuition (subst; reflexivity). }
  destruct ((48 <=? c) && (c <=? 57)) eqn:E.
  - replace (c <=? 57) with true by lia. repeat split; try lia. 
  - assert (Q : 65 <= c <= 70 \/ 97 <= c <= 102) by lia. rewrite (L Q). replace (c <=? 57) with false by lia. destruct (Z.leb_spec c 70); [|].
    + replace ((97 <=? c + 32) && (c + 32 <=? 122)) with true by lia. repeat split; try lia. f_equal. lia.
    + replace ((97 <=? c) && (c <=? 122)) with true by lia. repeat split; try lia. f_equal. lia.
Qed.
Lemma hex_mono x : Forall hex x -> forall a, 0 <= a -> a <= fold_left (fun n c => n * 16 + hex_digit c) x a.
Proof. induction 1 as [|c x H F IH]; intros a A; cbn [fold_left]; [lia|]. destruct (hex_value c H) as (_ & R & _). specialize (IH (a * 16 + hex_digit c) ltac:(lia)). lia. Qed.
Lemma int_digits_hex max x : Forall hex x -> forall a, 0 <= a -> fold_left (fun n c => n * 16 + hex_digit c) x a <= max ->
  int_digits 16 max x a = PValue (fold_left (fun n c => n * 16 + hex_digit c) x a).
Proof.
  induction 1 as [|c x H F IH]; intros a A M; cbn [fold_left int_digits] in *; [reflexivity|]. destruct (hex_value c H) as (V & R & N).
  replace (c =? 95) with false by lia. rewrite V. replace (16 <=? hex_digit c) with false by lia. cbv zeta.
  pose proof (hex_mono x F (a * 16 + hex_digit c) ltac:(lia)) as Q. replace (max <? a * 16 + hex_digit c) with false by lia. apply IH; [lia|exact M].
Qed.
Lemma hex_no_underscore x : Forall hex x -> existsb (Z.eqb 95) x = false.
Proof. induction 1 as [|c l H F IH]; [reflexivity|]. cbn [existsb]. rewrite IH. destruct (hex_value c H) as (_ & _ & N). replace (95 =? c) with false by lia. reflexivity. Qed.
Lemma parse_hex m x : m = 88 \/ m = 120 -> x <> [] -> Forall hex x -> hexadecimal x < 2 ^ 63 -> parse_unsigned 64 (48 :: m :: x) = PValue (hexadecimal x).
Proof.
  intros M N H B. destruct x as [|c x]; [congruence|].
  assert (int_base (48 :: m :: c :: x) = (16, c :: x)) as E by (destruct M as [-> | ->]; reflexivity). unfold parse_unsigned. rewrite E.
  unfold hexadecimal in *. rewrite int_digits_hex; [|exact H|lia|lia]. rewrite (hex_no_underscore _ H). reflexivity.
Qed.
Lemma hexadecimal_nonneg x : Forall hex x -> 0 <= hexadecimal x.
Proof. intros H. apply hex_mono; [exact H|lia]. Qed.

Lemma any_upper w x : (forall c, In c (lit w) -> 65 <= c <= 90) -> any_case w x -> is_ascii x /\ map ascii_upper x = lit w.
Proof.
  unfold any_case, is_ascii. intros W H. revert W. generalize (lit w) as l, H. clear. intros l H. induction H as [|c y l x E F IH]; intros W; [split; [constructor|reflexivity]|].
  specialize (W c (or_introl eq_refl)) as Wc. destruct IH as (A & U); [intros d D; apply W; right; exact D|].
  split; [constructor; [lia|exact A]|]. cbn [map]. f_equal; [|exact U]. unfold ascii_upper. destruct E as [-> | ->].
  - replace ((97 <=? c) && (c <=? 122)) with false by lia. reflexivity.
  - replace ((97 <=? c + 32) && (c + 32 <=? 122)) with true by lia. lia.
Qed.
Lemma bool_word (L : lib) w x : w = "TRUE"%string \/ w = "FALSE"%string -> ascii_tables L -> any_case w x -> ToUpper L x = lit w.
Proof.
  intros W T H. destruct (any_upper w x) as (A & U); [|exact H|].
  - intros c. destruct W as [-> | ->]; cbn; intuition (subst; lia).
  - rewrite ToUpper_ascii by assumption. exact U.
Qed.
Lemma unquote_quoted q x : unquote q (q :: x ++ [q]) = x.
Proof. unfold unquote. rewrite Z.eqb_refl. apply removelast_last. Qed.
Lemma unquote_plain q x : hd 0 x <> q -> unquote q x = x.
Proof. destruct x as [|c x]; [reflexivity|]. cbn. intros H. destruct (Z.eqb_spec c q); [congruence|reflexivity]. Qed.
Lemma exponent_in x : existsb (fun c => (c =? 69) || (c =? 101)) x = true <-> In 69 x \/ In 101 x.
Proof.
  rewrite existsb_exists. split.
  - intros (c & I & H). assert (c = 69 \/ c = 101) as [-> | ->] by lia; auto.
  - intros [H|H]; [exists 69|exists 101]; split; auto.
Qed.

Lemma literal_ok (L : lib) t v : ascii_tables L -> literal_denotes L t v -> literal_value L t = Ok v.
Proof.
  intros T H. destruct H as [n x D B|n x D B|m x M N H B|m k x PT B|x f E P|x Q|x t P|x g N P|x g P|x W|x W|]; cbn [literal_value].
  - f_equal. assert (0 <= n) by (destruct D as (D & <- & _); unfold dec_value; apply fold_dec_mono; [exact D|lia]).
    unfold parse_int64. rewrite (parse_unsigned_dec 64 n x D) by lia. replace (n <? 2 ^ 63) with true by lia. unfold integer.
    destruct (Z.ltb_spec (2 ^ 31 - 1) n), (Z.ltb_spec n (2 ^ 31)); try reflexivity; lia.
  - assert (P : parse_decimal x = Some (Dec n 0)).
    { pose proof D as (F & V & NE & _). rewrite (parse_decimal_text false n 0 0 x); [reflexivity| |reflexivity|reflexivity].
      exists [], x, []. split; [left; reflexivity|]. split; [|split; [left; auto|rewrite app_nil_r; reflexivity]]. exists x, []. rewrite app_nil_r. auto 10. }
    f_equal. unfold parse_int64, parse_uint64, parseNumericLiteral. destruct (Z_lt_le_dec n (2 ^ 64)) as [S|S].
    + rewrite (parse_unsigned_dec 64 n x D) by lia. replace (n <? 2 ^ 63) with false by lia. replace (2 ^ 63 - 1 <? n) with true by lia. rewrite P. reflexivity.
    + destruct (parse_over n x D S) as (m & ->). rewrite P. reflexivity.
  - f_equal. unfold parse_int64. rewrite (parse_hex m x M N H B). replace (hexadecimal x <? 2 ^ 63) with true by lia. unfold integer.
    destruct (Z.ltb_spec (2 ^ 31 - 1) (hexadecimal x)), (Z.ltb_spec (hexadecimal x) (2 ^ 31)); try reflexivity; lia.
  - assert (P : parse_decimal x = Some (Dec m (- k))).
    { rewrite (parse_decimal_text false m k 0 x); [reflexivity| |reflexivity|]; [|destruct PT as (w & f & _ & _ & _ & _ & _ & ->); unfold in_int32, len in *; lia].
      exists [], x, []. split; [left; reflexivity|]. split; [exact PT|]. split; [left; auto|]. rewrite app_nil_r. reflexivity. }
    assert (NE : ~ In 69 x /\ ~ In 101 x).
    { destruct PT as (w & f & W & F & _ & PX & _). assert (A : forall c, In c x -> c = 46 \/ FormatSpec.is_digit c).
      { intros c I. rewrite List.Forall_forall in W, F. destruct PX as [-> | [_ ->]]; [apply in_app_or in I as [I|[<-|I]]|]; auto. }
      split; intros I; apply A in I; unfold FormatSpec.is_digit in I; lia. }
    f_equal. destruct (existsb _ x) eqn:E; [apply exponent_in in E; tauto|]. unfold parseNumericLiteral. rewrite P. reflexivity.
  - f_equal. apply exponent_in in E. rewrite E, P. reflexivity.
  - rewrite unquote_quoted. reflexivity.
  - rewrite unquote_quoted, P. reflexivity.
  - rewrite unquote_plain by exact N. rewrite P. reflexivity.
  - rewrite unquote_quoted, P. reflexivity.
  - rewrite (bool_word L "TRUE" x (or_introl eq_refl) T W). replace (str_eqb (lit "TRUE") (lit "TRUE")) with true by reflexivity. reflexivity.
  - rewrite (bool_word L "FALSE" x (or_intror eq_refl) T W). replace (str_eqb (lit "FALSE") (lit "TRUE")) with false by reflexivity. reflexivity.
  - reflexivity.
Qed.

(** ** Trees *)

Lemma build_calls (L : lib) column args : (fix all l := match l with [] => Ok [] | x :: l => let* x := build L column x in let* l := all l in Ok (x :: l) end) args = build_all L column args.
Proof. induction args as [|a l IH]; [reflexivity|]. cbn [build_all]. rewrite <- IH. reflexivity. Qed.
Scheme denotes_mut := Induction for denotes Sort Prop with denote_all_mut := Induction for denote_all Sort Prop.
Lemma denotes_build (L : lib) (named : bytes -> expr -> Prop) column : ascii_tables L -> (forall n x, named n x -> column n = Ok x) ->
  forall e x, denotes L named e x -> build L column e = Ok x.
Proof.
  intros T C. refine (denotes_mut L named (fun e x _ => build L column e = Ok x) (fun l xs _ => build_all L column l = Ok xs) _ _ _ _ _ _ _ _ _ _ _ _ _ _ _).
  - intros t v H. cbn [build]. rewrite (literal_ok L t v T H). reflexivity.
  - intros n x H. cbn [build]. apply C, H.
  - intros f args xs H IH. cbn [build]. rewrite build_calls, IH. reflexivity.
  - intros a x H IH. cbn [build]. rewrite IH. reflexivity.
  - intros o u a x M H IH. cbn [build]. rewrite IH. cbn in M. repeat (destruct M as [M|M]; [inversion M; subst; reflexivity|]); destruct M.
  - intros o u a b x y M H IH H2 IH2. cbn [build]. rewrite IH, IH2. cbn in M. repeat (destruct M as [M|M]; [inversion M; subst; reflexivity|]); destruct M.
  - intros o u a b x y M H IH H2 IH2. cbn [build]. rewrite IH, IH2. cbn in M. repeat (destruct M as [M|M]; [inversion M; subst; reflexivity|]); destruct M.
  - intros o u a b x y M H IH H2 IH2. cbn [build]. rewrite IH, IH2. cbn in M. repeat (destruct M as [M|M]; [inversion M; subst; reflexivity|]); destruct M.
  - intros o u a b x y M H IH H2 IH2. cbn [build]. rewrite IH, IH2. cbn in M. repeat (destruct M as [M|M]; [inversion M; subst; reflexivity|]); destruct M.
  - intros n e u a b x y M H IH H2 IH2. cbn [build]. rewrite IH, IH2. cbn in M. repeat (destruct M as [M|M]; [inversion M; subst; reflexivity|]); destruct M.
  - intros a x H IH. cbn [build]. rewrite IH. reflexivity.
  - intros a x H IH. cbn [build]. rewrite IH. reflexivity.
  - intros n e a args x xs H IH H2 IH2. cbn [build]. rewrite IH, build_calls, IH2. reflexivity.
  - reflexivity.
  - intros a l x xs H IH H2 IH2. cbn [build_all]. rewrite IH, IH2. reflexivity.
Qed.

(** ** Rendering *)

Definition plain_start (ts : list token) : Prop := forall t, In t not_tokens -> hd_error ts <> Some t.
Lemma up_like ts e : says LUnary ts e -> says LLike ts e.
Proof. intros H. apply says_like_up, says_comparison_up, says_suffix_up, says_bitwise_up, says_math_up, H. Qed.
Lemma like_not ts e : says LLike ts e -> plain_start ts -> says LNot ts e.
Proof.
  intros H P. pose proof (says_begins _ _ _ H) as B. destruct ts as [|t ts]; [destruct B|]. apply says_not_up; [exact H|].
  intros I. apply (P t I). reflexivity.
Qed.
Lemma plain_app a b : a <> [] -> plain_start a -> plain_start (a ++ b).
Proof. destruct a; [congruence|]. intros _ H. exact H. Qed.
Lemma unary_logical ts e : says LUnary ts e -> plain_start ts -> says LLogical ts e.
Proof. intros H P. apply says_logical_up, like_not; [apply up_like, H|exact P]. Qed.
Lemma says_some l ts e : says l ts e -> ts <> [].
Proof. intros H. apply says_begins in H. destruct ts; [destruct H|congruence]. Qed.

Definition rendered (e : ptree) : Prop := says LUnary (render e) e /\ plain_start (render e).
Definition renders := fix list l := match l with [] => [] | [a] => render a | a :: l => render a ++ TSym Comma :: list l end.
Lemma parens_plain ts : plain_start (parens ts).
Proof. intros t I E. cbn in E. inversion E; subst. cbn in I. intuition congruence. Qed.
Lemma parens_say ts e : says LLogical ts e -> says LUnary (parens ts) e.
Proof. apply says_parentheses. Qed.
Lemma flag_maybe b t words : In t words -> maybe words b (flag b t).
Proof. destruct b; constructor; assumption. Qed.

Scheme tree_mut := Induction for tree Sort Prop with trees_mut := Induction for trees Sort Prop.
Lemma tree_rendered : forall e, tree e -> rendered e.
Proof.
  refine (tree_mut (fun e _ => rendered e) (fun l _ => l <> [] -> says_list (renders l) l) _ _ _ _ _ _ _ _ _ _ _ _ _ _).
  - intros t H. split; [apply says_literal, H|]. intros u I E. cbn in E. inversion E; subst. cbn in I. destruct H; intuition congruence.
  - intros n. split; [apply says_column|]. intros u I E. cbn in E. inversion E; subst. cbn in I. intuition congruence.
  - intros f args H IH. split.
    + destruct args as [|a l]; [apply says_call_empty|]. apply says_call. apply IH. congruence.
    + intros u I E. cbn in E. inversion E; subst. cbn in I. intuition congruence.
  - intros a H (S1 & P). split; [|apply parens_plain]. apply parens_say, says_logical_up, says_not; [cbn; auto|].
    apply like_not; [apply up_like, S1|exact P].
  - intros o a I H (S1 & P). split; [|apply parens_plain]. apply parens_say, unary_logical.
    + apply says_unary; [cbn in *; intuition|exact S1].
    + intros t J E. cbn in E. inversion E; subst. cbn in I, J. intuition congruence.
  - intros o a b I H (S1 & P1) H2 (S2 & P2). split; [|apply parens_plain]. apply parens_say, says_logical_up, like_not.
    + apply says_like_up, says_comparison_up, says_suffix_up, says_bitwise_up, says_math; [apply says_math_up, S1|exact I|exact S2].
    + apply plain_app; [eapply says_some, S1|exact P1].
  - intros o a b I H (S1 & P1) H2 (S2 & P2). split; [|apply parens_plain]. apply parens_say, says_logical_up, like_not.
    + apply says_like_up, says_comparison_up, says_suffix_up, says_bitwise; [apply says_bitwise_up, says_math_up, S1|exact I|apply says_math_up, S2].
    + apply plain_app; [eapply says_some, S1|exact P1].
  - intros o a b I H (S1 & P1) H2 (S2 & P2). split; [|apply parens_plain]. apply parens_say, says_logical_up, like_not.
    + apply says_like_up, says_comparison; [apply says_comparison_up, says_suffix_up, says_bitwise_up, says_math_up, S1|exact I|apply says_suffix_up, says_bitwise_up, says_math_up, S2].
    + apply plain_app; [eapply says_some, S1|exact P1].
  - intros o a b I H (S1 & P1) H2 (S2 & P2). split; [|apply parens_plain]. apply parens_say, says_logical; [apply unary_logical; assumption|exact I|].
    apply like_not; [apply up_like, S2|exact P2].
  - intros n x a b H (S1 & P1) H2 (S2 & P2). split; [|apply parens_plain]. apply parens_say, says_logical_up, like_not.
    + apply says_like; [apply up_like, S1|apply flag_maybe; cbn; auto|apply flag_maybe; cbn; auto|].
      apply says_comparison_up, says_suffix_up, says_bitwise_up, says_math_up, S2.
    + apply plain_app; [eapply says_some, S1|exact P1].
  - intros n a H (S1 & P1). split; [|apply parens_plain]. apply parens_say, says_logical_up, like_not.
    + apply says_like_up, says_comparison_up, says_is_null; [apply says_suffix_up, says_bitwise_up, says_math_up, S1|apply flag_maybe; cbn; auto].
    + apply plain_app; [eapply says_some, S1|exact P1].
  - intros n x a args H (S1 & P1) H2 IH N. split; [|apply parens_plain]. apply parens_say, says_logical_up, like_not.
    + apply says_like_up, says_comparison_up, says_in; [apply says_suffix_up, says_bitwise_up, says_math_up, S1|apply flag_maybe; cbn; auto|apply flag_maybe; cbn; auto|apply IH, N].
    + apply plain_app; [eapply says_some, S1|exact P1].
  - congruence.
  - intros a l H (S1 & P1) H2 IH _. destruct l as [|b l].
    + apply says_one, unary_logical; assumption.
    + apply says_more; [apply unary_logical; assumption|]. apply IH. congruence.
Qed.

(** ** Two operators *)

Lemma math_value t e : says LMath t e -> says LSuffix t e.
Proof. intros H. apply says_suffix_up, says_bitwise_up, H. Qed.
Lemma level_like t e : says LComparison t e \/ says LSuffix t e \/ says LBitwise t e \/ says LMath t e \/ says LUnary t e -> says LLike t e.
Proof.
  intros [H|[H|[H|[H|H]]]]; apply says_like_up; [exact H| | | |]; apply says_comparison_up; [exact H| | |]; apply says_suffix_up; [exact H| |]; apply says_bitwise_up; [exact H|].
  apply says_math_up, H.
Qed.

Lemma two_operators a A o1 n1 m1 b B o2 n2 m2 c C : operand a A -> operand b B -> operand c C -> group o1 n1 m1 -> group o2 n2 m2 ->
  says LLogical (a ++ o1 :: b ++ o2 :: c) (if (n1 <=? n2)%nat then m2 (m1 A B) C else m1 A (m2 B C)).
Proof.
  intros (SA & PA) (SB & PB) (SC & PC) G1 G2.
  assert (NA : a <> []) by (eapply says_some, SA). assert (NB : b <> []) by (eapply says_some, SB).
  assert (P : forall r, plain_start (a ++ r)) by (intros r; apply plain_app; assumption).
  assert (Q : forall r, plain_start (b ++ r)) by (intros r; apply plain_app; assumption).
  assert (LB : says LNot b B) by (apply like_not; [apply up_like, SB|exact PB]). assert (LC : says LNot c C) by (apply like_not; [apply up_like, SC|exact PC]).
  destruct G1 as [o1 I1|o1 I1|o1 I1|o1 I1], G2 as [o2 I2|o2 I2|o2 I2|o2 I2]; cbn [Nat.leb];
    try replace (a ++ o1 :: b ++ o2 :: c) with ((a ++ o1 :: b) ++ o2 :: c) by (rewrite <- app_assoc; reflexivity).
  (* math, then *)
  - apply says_logical_up, like_not; [apply level_like|rewrite <- app_assoc; apply P]. do 3 right; left. apply says_math; [apply says_math; [apply says_math_up|..]|..]; assumption.
  - apply says_logical_up, like_not; [apply level_like|rewrite <- app_assoc; apply P]. do 2 right; left.
    apply says_bitwise; [apply says_bitwise_up, says_math; [apply says_math_up|..]|..|apply says_math_up]; assumption.
  - apply says_logical_up, like_not; [apply level_like|rewrite <- app_assoc; apply P]. left.
    apply says_comparison; [apply says_comparison_up, math_value, says_math; [apply says_math_up|..]|..|apply math_value, says_math_up]; assumption.
  - apply says_logical; [|exact I2|exact LC]. apply says_logical_up, like_not; [apply level_like; do 3 right; left|apply P]. apply says_math; [apply says_math_up|..]; assumption.
  (* bitwise, then *)
  - rewrite <- app_assoc. apply says_logical_up, like_not; [apply level_like|apply P]. do 2 right; left. cbn [app].
    apply says_bitwise; [apply says_bitwise_up, says_math_up, SA|exact I1|]. apply says_math; [apply says_math_up|..]; assumption.
  - apply says_logical_up, like_not; [apply level_like|rewrite <- app_assoc; apply P]. do 2 right; left.
    apply says_bitwise; [apply says_bitwise; [apply says_bitwise_up, says_math_up, SA|exact I1|apply says_math_up, SB]|exact I2|apply says_math_up, SC].
  - apply says_logical_up, like_not; [apply level_like|rewrite <- app_assoc; apply P]. left.
    apply says_comparison; [apply says_comparison_up, says_suffix_up, says_bitwise; [apply says_bitwise_up, says_math_up, SA|exact I1|apply says_math_up, SB]|exact I2|apply math_value, says_math_up, SC].
  - apply says_logical; [|exact I2|exact LC]. apply says_logical_up, like_not; [apply level_like; do 2 right; left|apply P].
    apply says_bitwise; [apply says_bitwise_up, says_math_up, SA|exact I1|apply says_math_up, SB].
  (* comparison, then *)
  - rewrite <- app_assoc. apply says_logical_up, like_not; [apply level_like|apply P]. left. cbn [app].
    apply says_comparison; [apply says_comparison_up, math_value, says_math_up, SA|exact I1|]. apply math_value, says_math; [apply says_math_up|..]; assumption.
  - rewrite <- app_assoc. apply says_logical_up, like_not; [apply level_like|apply P]. left. cbn [app].
    apply says_comparison; [apply says_comparison_up, math_value, says_math_up, SA|exact I1|].
    apply says_suffix_up, says_bitwise; [apply says_bitwise_up, says_math_up, SB|exact I2|apply says_math_up, SC].
  - apply says_logical_up, like_not; [apply level_like|rewrite <- app_assoc; apply P]. left.
    apply says_comparison; [apply says_comparison; [apply says_comparison_up, math_value, says_math_up, SA|exact I1|apply math_value, says_math_up, SB]|exact I2|apply math_value, says_math_up, SC].
  - apply says_logical; [|exact I2|exact LC]. apply says_logical_up, like_not; [apply level_like; left|apply P].
    apply says_comparison; [apply says_comparison_up, math_value, says_math_up, SA|exact I1|apply math_value, says_math_up, SB].
  (* logical, then *)
  - rewrite <- app_assoc. cbn [app]. apply says_logical; [apply unary_logical; [exact SA|exact PA]|exact I1|].
    apply like_not; [apply level_like|apply Q]. do 3 right; left. apply says_math; [apply says_math_up|..]; assumption.
  - rewrite <- app_assoc. cbn [app]. apply says_logical; [apply unary_logical; [exact SA|exact PA]|exact I1|].
    apply like_not; [apply level_like|apply Q]. do 2 right; left. apply says_bitwise; [apply says_bitwise_up, says_math_up, SB|exact I2|apply says_math_up, SC].
  - rewrite <- app_assoc. cbn [app]. apply says_logical; [apply unary_logical; [exact SA|exact PA]|exact I1|].
    apply like_not; [apply level_like|apply Q]. left. apply says_comparison; [apply says_comparison_up, math_value, says_math_up, SB|exact I2|apply math_value, says_math_up, SC].
  - apply says_logical; [|exact I2|exact LC]. apply says_logical; [apply unary_logical; [exact SA|exact PA]|exact I1|exact LB].
Qed.
