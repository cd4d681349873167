(** The texts of numbers (C123, C124, C125) and the quotients of decimals (C126).  [L],
    [D] and [X] stand for the behaviour of other packages. *)
From Coq Require Import Reals Lia Lra ZifyBool ZifyNat QArith String.
From Verif Require Import Base GuidModel FormatModel FormatSpec StrModel NumModel GoTextModel NumTextModel NumTextSpec NumTextProofs NumTextProofs2 NumTextProofs3 NumTextProofs4 NumTextProofs5
  ExprModel TableModel XmlModel ParseModel LexSpec ParseSpec TextModel TextSpec ExprSpec FuncSpec ExprProofs ExprProofs2 FuncProofs FuncProofs7 PropertiesExpr PropertiesFunc PropertiesTable PropertiesText.
From Flocq Require Import Core.Core.
Close Scope R_scope.
Close Scope Q_scope.
Open Scope list_scope.
Open Scope Z_scope.

(** ** C123: the text of a number is read as the float nearest to it *)

(** With a sign or none, digits with a point or none, an exponent or none: a field of
    type xs:double or xs:float is the nearest number of that format, or infinite if that
    is beyond its range. *)
Theorem C123_field : forall X neg m k e s, number_text neg m k e s -> Z.abs e < 100000 -> let r := number_value neg m k e in
  ((Rabs (nearest_in 53 1024 r) < bpow radix2 1024)%R -> exists f, xml_cell X DDouble s = CDouble f /\ is_nearest 53 1024 neg r f) /\
  ((bpow radix2 1024 <= Rabs (nearest_in 53 1024 r))%R -> xml_cell X DDouble s = CDouble (S754_infinity neg)) /\
  ((Rabs (nearest_in 24 128 r) < bpow radix2 128)%R -> exists f, xml_cell X DSingle s = CSingle f /\ is_nearest 24 128 neg r f) /\
  ((bpow radix2 128 <= Rabs (nearest_in 24 128 r))%R -> xml_cell X DSingle s = CSingle (S754_infinity neg)).
Proof.
  intros X neg m k e s T B r. destruct (ParseFloat_rounds 53 1024 neg m k e s ltac:(lia) ltac:(lia) T B) as [A1 A2]. destruct (ParseFloat_rounds 24 128 neg m k e s ltac:(lia) ltac:(lia) T B) as [B1 B2].
  cbn [xml_cell]. unfold xsd_double, xsd_single, parse_float_value, parse_single_value. repeat split; intros H.
  - destruct (A1 H) as (f & -> & N). exists f. auto.
  - rewrite (A2 H). reflexivity.
  - destruct (B1 H) as (f & -> & N). exists f. auto.
  - rewrite (B2 H). reflexivity.
Qed.
Print Assumptions C123_field.
(** Convert(text, 'Double') likewise *)
Theorem C123_convert : forall L row x y neg m k e s name, ascii_tables L -> Evaluate L row x = Ok (vStr s) -> Evaluate L row y = Ok (vStr name) -> FuncSpec.denotes name VDouble ->
  number_text neg m k e s -> Z.abs e < 100000 -> let r := number_value neg m k e in
  ((Rabs (nearest_in 53 1024 r) < bpow radix2 1024)%R -> exists f, Evaluate L row (EFunction FConvert [x; y]) = Ok (vDouble f) /\ is_nearest 53 1024 neg r f) /\
  ((bpow radix2 1024 <= Rabs (nearest_in 53 1024 r))%R -> Evaluate L row (EFunction FConvert [x; y]) = Ok (vDouble (S754_infinity neg))).
Proof.
  intros L row x y neg m k e s name AT EX EY D T B r. destruct (ParseFloat_rounds 53 1024 neg m k e s ltac:(lia) ltac:(lia) T B) as [A1 A2].
  rewrite (convert_eval L row x y (vStr s) name VDouble AT EX ltac:(discriminate) EY D). change (Convert L (vStr s) VDouble) with (convertFromString L (vStr s) VDouble).
  unfold convertFromString. cbn [stringValue ve_value vStr bind NewValueExpression]. unfold float_of_string, parse_float, parse_float_value. split; intros H.
  - destruct (A1 H) as (f & -> & N). exists f. auto.
  - rewrite (A2 H). reflexivity.
Qed.
Print Assumptions C123_convert.
(** A number with an exponent in a filter expression *)
Theorem C123_literal : forall (D : dlib) m k e x s, ascii_tables D -> written [TNum x] s -> number_text false m k e x -> In 69 x \/ In 101 x -> Z.abs e < 100000 ->
  let r := number_value false m k e in (Rabs (nearest_in 53 1024 r) < bpow radix2 1024)%R ->
  exists f, EvaluateExpression D s = Some (Ok (vDouble f)) /\ is_nearest 53 1024 false r f.
Proof.
  intros D m k e x s AT W T X B r H. destruct (ParseFloat_rounds 53 1024 false m k e x ltac:(lia) ltac:(lia) T B) as [A1 _]. destruct (A1 H) as (f & P & N). exists f. split; [|exact N].
  apply (C98_literal D (TNum x)); [exact AT|exact W| |discriminate]. apply ld_exponent; [exact X|]. unfold parse_float. rewrite P. reflexivity.
Qed.
Print Assumptions C123_literal.
(** What is not above half the greatest power of two fits. *)
Theorem C123_fits : forall prec emax r, 0 < prec -> prec < emax -> (Rabs r <= bpow radix2 (emax - 1))%R -> (Rabs (nearest_in prec emax r) < bpow radix2 emax)%R.
Proof.
  intros prec emax r P E H. unfold nearest_in. apply Rle_lt_trans with (bpow radix2 (emax - 1)); [|apply bpow_lt; lia].
  assert (Prec_gt_0 prec) by exact P. apply abs_round_le_generic; [apply FLT_exp_valid; assumption|apply valid_rnd_N| |exact H]. apply generic_format_bpow. unfold FLT_exp. lia.
Qed.
Print Assumptions C123_fits.
(** Only these texts, infinities and NaN are read as numbers, apart from those with
    underscores and hexadecimal digits, which Go also accepts; ... *)
Theorem C123_only : forall prec emax s, ~ In 95 s -> ~ In 88 s -> ~ In 120 s -> ParseFloat prec emax s <> FSyntax ->
  (exists neg m k e, number_text neg m k e s) \/ (exists neg, infinity_text neg s) \/ nan_text s.
Proof. exact ParseFloat_only. Qed.
Print Assumptions C123_only.
Theorem C123_special : forall X s, (forall neg, infinity_text neg s -> xml_cell X DDouble s = CDouble (S754_infinity neg) /\ xml_cell X DSingle s = CSingle (S754_infinity neg)) /\
  (nan_text s -> xml_cell X DDouble s = CDouble S754_nan /\ xml_cell X DSingle s = CSingle S754_nan).
Proof.
  intros X s. cbn [xml_cell]. unfold xsd_double, xsd_single, parse_float_value, parse_single_value, ParseFloat. split.
  - intros neg H. rewrite (proj2 (special_iff s (S754_infinity neg)) (or_introl (ex_intro _ neg (conj eq_refl H)))). auto.
  - intros H. rewrite (proj2 (special_iff s S754_nan) (or_intror (conj eq_refl H))). auto.
Qed.
Print Assumptions C123_special.
(** ... any other field of a metadata document is read as zero, not refused. *)
Theorem C123_no_number_refuted : forall X s, ~ In 95 s -> ~ In 88 s -> ~ In 120 s ->
  ~ (exists neg m k e, number_text neg m k e s) -> (forall neg, ~ infinity_text neg s) -> ~ nan_text s ->
  xml_cell X DDouble s = CDouble (S754_zero false) /\ xml_cell X DSingle s = CSingle (S754_zero false).
Proof.
  intros X s U X1 X2 N1 N2 N3. assert (N : forall prec emax, ParseFloat prec emax s = FSyntax).
  { intros prec emax. destruct (ParseFloat prec emax s) eqn:P; [reflexivity| |]; exfalso; destruct (ParseFloat_only prec emax s U X1 X2 ltac:(rewrite P; discriminate)) as [H|[(neg & H)|H]]; [exact (N1 H)|exact (N2 neg H)|exact (N3 H)|exact (N1 H)|exact (N2 neg H)|exact (N3 H)]. }
  cbn [xml_cell]. unfold xsd_double, xsd_single, parse_float_value, parse_single_value. rewrite !N. auto.
Qed.
Print Assumptions C123_no_number_refuted.
Example C123_nonvacuous : number_text true 1250 2 3 (lit "-12.50e3") /\ number_text false 5 1 0 (lit ".5") /\ number_text false 7 0 (-400) (lit "+7.E-0400") /\
  (Rabs (nearest_in 53 1024 (number_value true 1250 2 3)) < bpow radix2 1024)%R /\
  (forall X, xml_cell X DDouble (lit "-12.50e3") = CDouble (S754_finite true 6871947673600000 (-39)) /\ xml_cell X DSingle (lit "1e39") = CSingle (S754_infinity false) /\
     xml_cell X DDouble (lit "1,5") = CDouble (S754_zero false) /\ xml_cell X DDouble (lit "-iNf") = CDouble (S754_infinity true)) /\
  EvaluateExpression example_dlib (lit "1.5E1") = Some (Ok (vDouble (S754_finite false 8444249301319680 (-49)))).
Proof.
  split; [|split; [|split; [|split; [|split]]]].
  - exists [45], (lit "12.50"), (lit "e3"). split; [reflexivity|]. split; [|split; [|reflexivity]].
    + exists (lit "12"), (lit "50"). repeat split; try reflexivity; [apply digits_test; reflexivity|apply digits_test; reflexivity|discriminate|left; reflexivity].
    + right. exists 101, false, [], (lit "3"). split; [auto|]. split; [left; reflexivity|]. split; [discriminate|]. split; [apply digits_test; reflexivity|]. split; reflexivity.
  - exists [], (lit ".5"), []. split; [left; reflexivity|]. split; [|split; [left; auto|reflexivity]]. exists [], (lit "5"). repeat split; try reflexivity; [apply Forall_nil|apply digits_test; reflexivity|discriminate|left; reflexivity].
  - exists [43], (lit "7."), (lit "E-0400"). split; [right; reflexivity|]. split; [|split; [|reflexivity]].
    + exists (lit "7"), []. repeat split; try reflexivity; [apply digits_test; reflexivity|apply Forall_nil|discriminate|left; reflexivity].
    + right. exists 69, true, [45], (lit "0400"). split; [auto|]. split; [reflexivity|]. split; [discriminate|]. split; [apply digits_test; reflexivity|]. split; reflexivity.
  - apply C123_fits; [lia|lia|]. unfold number_value, signed. change (3 - 2) with 1. cbn [powerRZ]. change (Pos.to_nat 1) with 1%nat. rewrite pow_1.
    replace (IZR 1250 * 10)%R with 12500%R by lra. rewrite Rabs_Ropp, Rabs_pos_eq by lra. apply Rle_trans with (bpow radix2 14); [|apply bpow_le; lia]. change (bpow radix2 14) with 16384%R. lra.
  - intros X. repeat split; vm_compute; reflexivity.
  - vm_compute. reflexivity.
Qed.

(** ** C124: the text of a decimal is read exactly *)

Definition written_number (neg : bool) (m k e : Z) : Q := (inject_Z (if neg then - m else m) * Qpower (inject_Z 10) (e - k))%Q.
(** The exponent and the power of the last digit must fit 32 bits. *)
Theorem C124_field : forall X neg m k e s, number_text neg m k e s -> - 2 ^ 31 <= e < 2 ^ 31 -> - 2 ^ 31 <= e - k < 2 ^ 31 ->
  exists d, xml_cell X DDecimal s = CDec d /\ (dec_number d == written_number neg m k e)%Q.
Proof.
  intros X neg m k e s T B1 B2. eexists. cbn [xml_cell]. unfold xsd_decimal. rewrite (parse_decimal_text neg m k e s T) by (unfold in_int32; lia). split; [reflexivity|]. reflexivity.
Qed.
Print Assumptions C124_field.
Theorem C124_convert : forall L row x y neg m k e s name, ascii_tables L -> Evaluate L row x = Ok (vStr s) -> Evaluate L row y = Ok (vStr name) ->
  number_text neg m k e s -> - 2 ^ 31 <= e < 2 ^ 31 -> - 2 ^ 31 <= e - k < 2 ^ 31 ->
  (FuncSpec.denotes name VDecimal -> exists d, Evaluate L row (EFunction FConvert [x; y]) = Ok (vDec d) /\ (dec_number d == written_number neg m k e)%Q) /\
  (FuncSpec.denotes name VInt64 -> forall n, is_truncated (written_number neg m k e) n -> is_i64 n -> Evaluate L row (EFunction FConvert [x; y]) = Ok (vInt64 n)).
Proof.
  intros L row x y neg m k e s name AT EX EY T B1 B2. pose proof (parse_decimal_text neg m k e s T ltac:(unfold in_int32; lia) ltac:(unfold in_int32; lia)) as P.
  destruct (C94_text L row x y s name (Dec (if neg then - m else m) (e - k)) S754_nan Empty 0 AT EX EY) as (H1 & H2 & _). split.
  - intros D. eexists. split; [exact (H1 D P)|reflexivity].
  - intros D n R I. exact (H2 D P n R I).
Qed.
Print Assumptions C124_convert.
(** A number with a point in a filter expression, and a whole number beyond 64 bits *)
Theorem C124_literal : forall (D : dlib) s x, ascii_tables D ->
  (forall m k, written [TNum x] s -> point_text m k x -> k <= 2 ^ 31 -> exists d, EvaluateExpression D s = Some (Ok (vDec d)) /\ (dec_number d == written_number false m k 0)%Q) /\
  (forall n, written [TInt x] s -> is_decimal_of n x -> 2 ^ 63 <= n -> exists d, EvaluateExpression D s = Some (Ok (vDec d)) /\ (dec_number d == inject_Z n)%Q).
Proof.
  intros D s x AT. split.
  - intros m k W P B. exists (Dec m (- k)). split; [|reflexivity]. apply (C98_literal D (TNum x)); [exact AT|exact W| |discriminate]. apply ld_number; assumption.
  - intros n W P B. exists (Dec n 0). split; [|unfold dec_number; cbn; apply Qmult_1_r]. apply (C98_literal D (TInt x)); [exact AT|exact W| |discriminate]. apply ld_large; assumption.
Qed.
Print Assumptions C124_literal.
(** Nothing else is read as a decimal, except a sign between the point and the digits,
    which counts as a digit. *)
Theorem C124_only_partial : forall s d, parse_decimal s = Some d -> exists neg m k e, (dec_number d == written_number neg m k e)%Q /\
  (number_text neg m k e s \/ exists sg f x, sg <> [] /\ sign_text neg sg /\ Forall is_digit f /\ f <> [] /\ m = dec_value f /\ k = len (sg ++ f) /\ exponent_text e x /\ s = 46 :: sg ++ f ++ x).
Proof. intros s d P. destruct (parse_decimal_only s d P) as (neg & m & k & e & -> & H). exists neg, m, k, e. split; [reflexivity|exact H]. Qed.
Print Assumptions C124_only_partial.
Theorem C124_sign_refuted : forall X L row, xml_cell X DDecimal (lit ".-5") = CDec (Dec (-5) (-2)) /\ xml_cell X DDecimal (lit "1,5") = CDec dec_zero /\
  Evaluate L row (EFunction FIsNumeric [text ".-5"]) = Ok (vBool true).
Proof. intros X L row. split; [vm_compute; reflexivity|]. split; vm_compute; reflexivity. Qed.
Print Assumptions C124_sign_refuted.
Example C124_nonvacuous : (forall X, xml_cell X DDecimal (lit "-12.50e3") = CDec (Dec (-1250) 1)) /\ (dec_number (Dec (-1250) 1) == inject_Z (-12500))%Q /\
  EvaluateExpression example_dlib (lit "0.1 + .2") = Some (Ok (vDec (Dec 3 (-1)))) /\ EvaluateExpression example_dlib (lit "9223372036854775808") = Some (Ok (vDec (Dec 9223372036854775808 0))).
Proof. split; [intros X; vm_compute; reflexivity|]. split; [reflexivity|]. split; vm_compute; reflexivity. Qed.

(** ** C125: a decimal is shown exactly *)

(** Without superfluous zeros, by Convert(d, 'String') and in the text of a row *)
Theorem C125_text : forall L row x y d name, ascii_tables L -> Evaluate L row x = Ok (vDec d) -> Evaluate L row y = Ok (vStr name) -> FuncSpec.denotes name VString ->
  exists s neg m k, Evaluate L row (EFunction FConvert [x; y]) = Ok (vStr s) /\ (forall D, cell_text D (CDec d) = s) /\
    canonical_text neg m k s /\ (dec_number d == written_number neg m k 0)%Q.
Proof.
  intros L row x y d name AT EX EY D. destruct (format_canonical d) as (neg & m & k & C & E & _). exists (format_decimal d), neg, m, k.
  rewrite (convert_eval L row x y (vDec d) name VString AT EX ltac:(discriminate) EY D). split; [reflexivity|]. split; [reflexivity|]. split; [exact C|]. rewrite <- E. reflexivity.
Qed.
Print Assumptions C125_text.
(** Equal decimals have equal texts, and only these. *)
Theorem C125_same : forall D a b, cell_text D (CDec a) = cell_text D (CDec b) <-> (dec_number a == dec_number b)%Q.
Proof. intros D a b. exact (format_same a b). Qed.
Print Assumptions C125_same.
(** The text is read back as the same number. *)
Theorem C125_round_trip : forall D X d, - 2 ^ 31 <= dexp d < 2 ^ 31 -> exists d', xml_cell X DDecimal (cell_text D (CDec d)) = CDec d' /\ (dec_number d' == dec_number d)%Q.
Proof. intros D X d B. destruct (format_parse d B) as (d' & P & E). exists d'. cbn [xml_cell cell_text]. unfold xsd_decimal. rewrite P. auto. Qed.
Print Assumptions C125_round_trip.
(** As a Double it is the nearest one. *)
Theorem C125_as_double : forall L row x y d name, ascii_tables L -> Evaluate L row x = Ok (vDec d) -> Evaluate L row y = Ok (vStr name) -> FuncSpec.denotes name VDouble ->
  let neg := coef d <? 0 in let r := number_value neg (Z.abs (coef d)) 0 (dexp d) in
  ((Rabs (nearest_in 53 1024 r) < bpow radix2 1024)%R -> exists f, Evaluate L row (EFunction FConvert [x; y]) = Ok (vDouble f) /\ is_nearest 53 1024 neg r f) /\
  ((bpow radix2 1024 <= Rabs (nearest_in 53 1024 r))%R -> Evaluate L row (EFunction FConvert [x; y]) = Ok (vDouble (S754_infinity neg))).
Proof.
  intros L row x y d name AT EX EY D neg r. rewrite (convert_eval L row x y (vDec d) name VDouble AT EX ltac:(discriminate) EY D).
  change (Convert L (vDec d) VDouble) with (Ok (vDouble (decimal_to_double d))). unfold decimal_to_double. fold neg.
  destruct (scaled_correct 53 1024 (eq_refl : 0 < 53) (eq_refl : 53 < 1024) neg (Z.abs (coef d)) (dexp d) ltac:(lia)) as [A O]. assert (ER : signed neg (IZR (Z.abs (coef d)) * powerRZ 10 (dexp d)) = r) by (unfold r, number_value; rewrite Z.sub_0_r; reflexivity). rewrite ER in A, O.
  split; intros H; [eexists; split; [reflexivity|exact (A H)]|rewrite (O H); reflexivity].
Qed.
Print Assumptions C125_as_double.
Example C125_nonvacuous : forall D, cell_text D (CDec (Dec (-1250) (-2))) = lit "-12.5" /\ cell_text D (CDec (Dec (-125) (-1))) = lit "-12.5" /\ cell_text D (CDec (Dec 5 (-3))) = lit "0.005" /\
  cell_text D (CDec (Dec 12 3)) = lit "12000" /\ canonical_text true 125 1 (lit "-12.5").
Proof.
  intros D. repeat (split; [vm_compute; reflexivity|]). exists (lit "12"), (lit "5"). split; [|split; [apply digits_test; reflexivity|]].
  - split; [apply digits_test; reflexivity|]. split; [reflexivity|]. split; [discriminate|]. right. discriminate.
  - repeat split; try reflexivity. discriminate.
Qed.

(** ** C126: the quotient of decimals *)

(** To sixteen decimals, the nearest; halves away from zero *)
Theorem C126_quotient : forall L row l r a b x y, Evaluate L row l = Ok a -> Evaluate L row r = Ok b -> number_of a x -> number_of b y ->
  ve_type a = VDecimal \/ ve_type b = VDecimal -> ~ (y == 0)%Q ->
  exists d n, Evaluate L row (EOperator ODivide l r) = Ok (vDec d) /\ (dec_number d * inject_Z (10 ^ 16) == inject_Z n)%Q /\ is_rounded (x / y * inject_Z (10 ^ 16)) n.
Proof. intros L row l r a b x y EL ER A B T N. rewrite (eval_op L row ODivide l r a b EL ER). exact (decimal_division L a b x y A B T N). Qed.
Print Assumptions C126_quotient.
Lemma rounded_exact q n : (q == inject_Z n)%Q -> forall k, is_rounded q k -> k = n.
Proof.
  intros E k [H1 H2]. destruct (Qlt_le_dec q 0) as [N|N].
  - destruct (H2 (Qlt_le_weak _ _ N)) as [A B]. rewrite E in A, B. unfold Qlt, Qle, Qminus, Qplus, Qopp, inject_Z in A, B. cbn in A, B. lia.
  - destruct (H1 N) as [A B]. rewrite E in A, B. unfold Qlt, Qle, Qplus, inject_Z in A, B. cbn in A, B. lia.
Qed.
(** A quotient that has no more decimals is exact. *)
Theorem C126_exact : forall L row l r a b x y k, Evaluate L row l = Ok a -> Evaluate L row r = Ok b -> number_of a x -> number_of b y ->
  ve_type a = VDecimal \/ ve_type b = VDecimal -> ~ (y == 0)%Q -> (x / y * inject_Z (10 ^ 16) == inject_Z k)%Q ->
  exists d, Evaluate L row (EOperator ODivide l r) = Ok (vDec d) /\ (dec_number d == x / y)%Q.
Proof.
  intros L row l r a b x y k EL ER A B T N K. destruct (C126_quotient L row l r a b x y EL ER A B T N) as (d & n & E & V & R). exists d. split; [exact E|].
  rewrite (rounded_exact _ _ K n R) in V. rewrite <- K in V. apply (proj1 (Qmult_inj_r (dec_number d) (x / y) (inject_Z (10 ^ 16)) ltac:(discriminate))). exact V.
Qed.
Print Assumptions C126_exact.
Example C126_nonvacuous : EvaluateExpression example_dlib (lit "2.0 / 3") = Some (Ok (vDec (Dec 6666666666666667 (-16)))) /\
  EvaluateExpression example_dlib (lit "-2.0 / 3") = Some (Ok (vDec (Dec (-6666666666666667) (-16)))) /\
  EvaluateExpression example_dlib (lit "1 / 8.0") = Some (Ok (vDec (Dec 1250000000000000 (-16)))) /\
  EvaluateExpression example_dlib (lit ".0000000000000001 / 2") = Some (Ok (vDec (Dec 1 (-16)))).
Proof. repeat split; vm_compute; reflexivity. Qed.
