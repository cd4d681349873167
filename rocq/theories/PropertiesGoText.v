(** The texts of identifiers and of floating-point numbers (C116, C117, C118), and
    format.Float on numbers (C69). *)
From Coq Require Import Lia QArith String SpecFloat.
From Verif Require Import Base GuidModel FormatModel FormatSpec FormatProofs StrModel NumModel GoTextModel GoTextSpec GoTextProofs GoTextProofs2 MeasTextProofs MeasTextProofs2.
From Verif Require Import ExprModel ExprSpec TableModel XmlModel LexModel LexSpec ParseModel TextModel TextSpec TextProofs2 GuidTextProofs PropertiesTable PropertiesExpr PropertiesText.
Open Scope list_scope.
Open Scope Z_scope.

(** ** C116: the text of an identifier *)

(** Exactly these texts are read, and as the identifier they write. *)
Theorem C116_parse : forall s g, guid_Parse s = (g, true) <-> id_text g s.
Proof. exact guid_Parse_true. Qed.
Print Assumptions C116_parse.
(** String writes the sixteen bytes in order, in lower case and in braces. *)
Theorem C116_string : forall g, guid_ok g -> exists s, guid_String g = 123 :: s ++ [125] /\ dashed g s /\ Forall (fun c => c = 45 \/ 48 <= c <= 57 \/ 97 <= c <= 102) s.
Proof.
  intros g O. exists (uuid_String g). split; [reflexivity|]. split; [apply uuid_String_dashed; exact O|]. destruct O as [_ B]. unfold uuid_String.
  assert (H : forall n m, Forall (fun c => c = 45 \/ 48 <= c <= 57 \/ 97 <= c <= 102) (hex_text (firstn n (skipn m g)))).
  { intros n m. eapply Forall_impl; [|apply hex_text_lower].
    - intros c C. right. exact C.
    - unfold bytes_ok in *. rewrite List.Forall_forall in *. intros x I. apply B. rewrite <- (firstn_skipn m g). apply in_or_app. right.
      rewrite <- (firstn_skipn n (skipn m g)). apply in_or_app. left. exact I. }
  apply Forall_app. split; [exact (H 4%nat 0%nat)|]. constructor; [left; reflexivity|]. apply Forall_app. split; [apply H|]. constructor; [left; reflexivity|].
  apply Forall_app. split; [apply H|]. constructor; [left; reflexivity|]. apply Forall_app. split; [apply H|]. constructor; [left; reflexivity|]. apply H.
Qed.
Print Assumptions C116_string.
Theorem C116_round_trip : forall g, guid_ok g -> guid_Parse (guid_String g) = (g, true).
Proof. exact guid_round_trip. Qed.
Print Assumptions C116_round_trip.
Theorem C116_distinct : forall g h, guid_ok g -> guid_ok h -> (guid_String g = guid_String h <-> g = h).
Proof. intros g h G H. split; [apply guid_String_injective; assumption|intros ->; reflexivity]. Qed.
Print Assumptions C116_distinct.
(** Fields of metadata: a Guid in any of the forms is read as itself; *)
Theorem C116_field : forall X s g, id_text g s -> xml_cell X DGuid s = CGuid g.
Proof. intros X s g T. apply guid_Parse_true in T. cbn [xml_cell]. unfold xsd_guid. rewrite T. reflexivity. Qed.
Print Assumptions C116_field.
(** what is no Guid is not NULL but the empty one, or the bytes before the mistake. *)
Theorem C116_field_refuted : forall X,
  xml_cell X DGuid (lit "none") = CGuid Empty /\
  xml_cell X DGuid (lit "01020304-0506-0708-090a-0b0c0d0e0f1?") = CGuid [1; 2; 3; 4; 5; 6; 7; 8; 9; 10; 11; 12; 13; 14; 15; 0] /\
  (forall g, ~ id_text g (lit "none")) /\ (forall g, ~ id_text g (lit "01020304-0506-0708-090a-0b0c0d0e0f1?")).
Proof.
  intros X. split; [reflexivity|]. split; [reflexivity|]. split; intros g T; apply guid_Parse_true in T; vm_compute in T; discriminate.
Qed.
(** The first and last of 38 bytes need not be braces. *)
Theorem C116_braces_refuted : guid_Parse (lit "(01020304-0506-0708-090a-0b0c0d0e0f10}") = ([1; 2; 3; 4; 5; 6; 7; 8; 9; 10; 11; 12; 13; 14; 15; 16], true).
Proof. reflexivity. Qed.
Example C116_nonvacuous : let g := [1; 2; 3; 4; 5; 6; 7; 8; 9; 16; 171; 205; 239; 14; 15; 255] in
  guid_ok g /\ guid_String g = lit "{01020304-0506-0708-0910-abcdef0e0fff}" /\ id_text g (lit "URN:Uuid:01020304-0506-0708-0910-abcDEF0e0fFF") /\
  id_text g (lit "01020304-0506-0708-0910-ABCDEF0E0FFF") /\ id_text g (lit "01020304050607080910abcDEF0e0fFF") /\ ~ id_text g (lit "01020304-0506-0708-0910abcdef0e0fff").
Proof.
  cbv zeta. split; [split; [reflexivity|repeat constructor; unfold is_u8; lia]|]. split; [reflexivity|].
  do 3 (split; [apply guid_Parse_true; reflexivity|]). intros T. apply guid_Parse_true in T. vm_compute in T. discriminate.
Qed.

(** ** C117: GUIDs in filter expressions *)

(** Without quotes or braces *)
Theorem C117_plain : forall (D : dlib) x g, ascii_tables D -> dashed g x -> EvaluateExpression D x = Some (Ok (VE VGuid (Some (GGuid g)))).
Proof.
  intros D x g T H. assert (GT : guid_text x) by (apply guid_text_dashed; eauto).
  assert (SH : guid_shape x).
  { destruct GT as (a & b & c & d & e & -> & A & B & C & D1 & E). exists a, [45], b, [45], c, [45], d, [45], e. split; [reflexivity|]. unfold dash. auto 10. }
  pose proof (shape_ascii x SH) as A. assert (E : encode_runes x = x) by (apply ExprProofs2.encode_ascii; exact A).
  apply (C98_literal D (TGuid x) _ _ T); [| |discriminate].
  - apply written_guid; [|exact A]. rewrite <- E at 1. apply sp_guid. exact GT.
  - apply ld_guid; [|apply parse_guid_some; apply it_dashed; exact H]. pose proof (shape_chars x SH) as F. destruct x as [|c x]; [cbn; discriminate|].
    apply List.Forall_cons_iff in F as [F _]. cbn [hd]. unfold hex, digit in F. lia.
Qed.
Print Assumptions C117_plain.
(** In quotes: the GUID with all dashes or with none; an error with some of them. *)
Theorem C117_quotes : forall (D : dlib) x, ascii_tables D -> guid_shape x ->
  (forall g, dashed g x \/ List.length g = 16%nat /\ hex_pairs x g -> EvaluateExpression D (39 :: x ++ [39]) = Some (Ok (VE VGuid (Some (GGuid g))))) /\
  ((forall g, ~ (dashed g x \/ List.length g = 16%nat /\ hex_pairs x g)) -> EvaluateExpression D (39 :: x ++ [39]) = Some Err).
Proof.
  intros D x T SH. pose proof (shape_ascii x SH) as A.
  assert (A' : is_ascii (39 :: x ++ [39])) by (unfold is_ascii in *; constructor; [lia|]; apply Forall_app; split; [exact A|repeat constructor; lia]).
  assert (E : encode_runes (39 :: x ++ [39]) = 39 :: x ++ [39]) by (apply ExprProofs2.encode_ascii; exact A').
  assert (W : written [TGuid (39 :: x ++ [39])] (39 :: x ++ [39])) by (apply written_guid; [rewrite <- E at 1; apply sp_guid_quotes; exact SH|exact A']).
  split.
  - intros g H. apply (C98_literal D _ _ _ T W); [|discriminate]. apply ld_guid_quoted. apply quotes_parse; assumption.
  - intros N. apply (bad_guid D _ (39 :: x ++ [39])); [apply written_tokens; exact W|discriminate|].
    replace (unquote 39 (39 :: x ++ [39])) with x.
    + destruct (parse_guid x) as [g|] eqn:P; [|reflexivity]. exfalso. apply (N g). apply quotes_parse in P; assumption.
    + unfold unquote. cbn [hd Z.eqb Pos.eqb]. rewrite ?Z.eqb_refl. cbn [tl]. rewrite removelast_last. reflexivity.
Qed.
Print Assumptions C117_quotes.
(** In braces: the GUID with all dashes; an error otherwise. *)
Theorem C117_braces : forall (D : dlib) x, ascii_tables D -> guid_shape x ->
  (forall g, dashed g x -> EvaluateExpression D (123 :: x ++ [125]) = Some (Ok (VE VGuid (Some (GGuid g))))) /\
  ((forall g, ~ dashed g x) -> EvaluateExpression D (123 :: x ++ [125]) = Some Err).
Proof.
  intros D x T SH. pose proof (shape_ascii x SH) as A.
  assert (A' : is_ascii (123 :: x ++ [125])) by (unfold is_ascii in *; constructor; [lia|]; apply Forall_app; split; [exact A|repeat constructor; lia]).
  assert (E : encode_runes (123 :: x ++ [125]) = 123 :: x ++ [125]) by (apply ExprProofs2.encode_ascii; exact A').
  assert (W : written [TGuid (123 :: x ++ [125])] (123 :: x ++ [125])) by (apply written_guid; [rewrite <- E at 1; apply sp_guid_braces; exact SH|exact A']).
  split.
  - intros g H. apply (C98_literal D _ _ _ T W); [|discriminate]. apply ld_guid; [discriminate|]. apply braces_parse; assumption.
  - intros N. apply (bad_guid D _ (123 :: x ++ [125])); [apply written_tokens; exact W|discriminate|].
    rewrite unquote_braces. destruct (parse_guid (123 :: x ++ [125])) as [g|] eqn:P; [|reflexivity]. exfalso. apply (N g). apply braces_parse in P; assumption.
Qed.
Print Assumptions C117_braces.
(** A text constant that looks like a GUID with a dash missing is an error, and so is
    a GUID in braces without dashes. *)
Theorem C117_some_dashes_refuted : forall D : dlib, ascii_tables D ->
  EvaluateExpression D (lit "'01020304-05060708090a-0b0c0d0e0f10'") = Some Err /\ EvaluateExpression D (lit "{0102030405060708090a0b0c0d0e0f10}") = Some Err.
Proof.
  intros D T. split.
  - apply (C117_quotes D (lit "01020304-05060708090a-0b0c0d0e0f10") T).
    + exists (lit "01020304"), [45], (lit "0506"), [], (lit "0708"), [], (lit "090a"), [45], (lit "0b0c0d0e0f10"). split; [reflexivity|].
      do 5 (split; [apply hexes_ok; vm_compute; reflexivity|]). unfold dash. auto.
    + intros g [H|[L H]]; [apply dashed_length in H as [H _]|apply hex_pairs_length in H; rewrite L in H]; discriminate.
  - apply (C117_braces D (lit "0102030405060708090a0b0c0d0e0f10") T).
    + exists (lit "01020304"), [], (lit "0506"), [], (lit "0708"), [], (lit "090a"), [], (lit "0b0c0d0e0f10"). split; [reflexivity|].
      do 5 (split; [apply hexes_ok; vm_compute; reflexivity|]). unfold dash. auto.
    + intros g H. apply dashed_length in H as [H _]. discriminate.
Qed.
Print Assumptions C117_some_dashes_refuted.
Example C117_nonvacuous : ascii_tables example_dlib /\ dashed [1; 2; 3; 4; 5; 6; 7; 8; 9; 10; 11; 12; 13; 14; 15; 16] (lit "01020304-0506-0708-090A-0B0C0D0E0F10") /\
  hex_pairs (lit "0102030405060708090a0b0c0d0e0f10") [1; 2; 3; 4; 5; 6; 7; 8; 9; 10; 11; 12; 13; 14; 15; 16].
Proof.
  split; [exact PropertiesExpr.example_tables|]. split.
  - apply parse_dashed_true; reflexivity.
  - apply (xtob_at_digits true); reflexivity.
Qed.

(** ** C118: the text of a floating-point number *)

(** With [prec] digits after the point, a finite number is written as the nearest
    such decimal, of two equally near the one with an even last digit. *)
Theorem C118_text : forall f prec, finite f -> exists n t, nearest_even (magnitude f * inject_Z (10 ^ Z.of_nat prec)) n /\ fixed_text n prec t /\
  FormatFloat f prec = (if negative f then [45] else []) ++ t.
Proof. intros f prec F. destruct (FormatFloat_ok f prec F) as (n & t & N & T & _ & E). exists n, t. auto. Qed.
Print Assumptions C118_text.
(** There is only one nearest decimal, one text of it, and a greater number does not
    have a smaller text. *)
Theorem C118_one_nearest : forall q n m, nearest_even q n -> nearest_even q m -> n = m.
Proof. exact nearest_even_unique. Qed.
Print Assumptions C118_one_nearest.
Theorem C118_exact : forall f prec k, finite f -> (magnitude f * inject_Z (10 ^ Z.of_nat prec) == inject_Z k)%Q ->
  exists t, fixed_text k prec t /\ FormatFloat f prec = (if negative f then [45] else []) ++ t.
Proof. intros f prec k F E. destruct (FormatFloat_ok f prec F) as (n & t & N & T & _ & EF). exists t. rewrite (nearest_even_integer _ _ _ N E) in T. auto. Qed.
Print Assumptions C118_exact.
Theorem C118_order : forall f g prec, finite f -> finite g -> (magnitude f <= magnitude g)%Q -> exists n m t u, fixed_text n prec t /\ fixed_text m prec u /\ n <= m /\
  FormatFloat f prec = (if negative f then [45] else []) ++ t /\ FormatFloat g prec = (if negative g then [45] else []) ++ u.
Proof.
  intros f g prec F G L. destruct (FormatFloat_ok f prec F) as (n & t & N & T & _ & EF). destruct (FormatFloat_ok g prec G) as (m & u & M & U & _ & EG).
  exists n, m, t, u. split; [exact T|]. split; [exact U|]. split; [|split; [exact EF|exact EG]]. apply (nearest_even_mono _ _ _ _ N M).
  apply Qmult_le_compat_r; [exact L|]. change 0%Q with (inject_Z 0). rewrite <- Zle_Qle. apply Z.pow_nonneg. lia.
Qed.
Print Assumptions C118_order.
(** Equal texts are texts of numbers with the same sign and the same nearest decimal. *)
Theorem C118_determines : forall f g prec, finite f -> FormatFloat f prec = FormatFloat g prec ->
  finite g /\ negative f = negative g /\ exists n, nearest_even (magnitude f * inject_Z (10 ^ Z.of_nat prec)) n /\ nearest_even (magnitude g * inject_Z (10 ^ Z.of_nat prec)) n.
Proof. exact FormatFloat_determines. Qed.
Print Assumptions C118_determines.
Theorem C118_special : forall prec, FormatFloat S754_nan prec = lit "NaN" /\ FormatFloat (S754_infinity false) prec = lit "+Inf" /\ FormatFloat (S754_infinity true) prec = lit "-Inf".
Proof. intros prec. repeat split. Qed.
(** Where the library uses it: six digits for the text of a value in expressions. *)
Theorem C118_expression_text : forall f, finite f -> exists n t, nearest_even (magnitude f * inject_Z (10 ^ 6)) n /\ fixed_text n 6 t /\
  format_float f = (if negative f then [45] else []) ++ t.
Proof. intros f F. exact (C118_text f 6 F). Qed.
Print Assumptions C118_expression_text.
Example C118_nonvacuous : finite (S754_finite true 9007199254740993 (-43)) /\ FormatFloat (S754_finite true 9007199254740993 (-43)) 3 = lit "-1024.000" /\
  FormatFloat (S754_finite false 5 (-1)) 0 = lit "2" /\ FormatFloat (S754_finite false 7 (-1)) 0 = lit "4" /\ FormatFloat (S754_finite false 1 (-3)) 2 = lit "0.12" /\
  FormatFloat (S754_finite false 3 (-3)) 2 = lit "0.38" /\ FormatFloat (S754_zero true) 1 = lit "-0.0" /\ FormatFloat (S754_finite false 1 70) 1 = lit "1180591620717411303424.0".
Proof. repeat split; vm_compute; reflexivity. Qed.

(** ** C69: format.Float *)

(** A finite number is written as its nearest decimal with the whole part in groups
    of three, for any symbols that are neither digits nor '-'. *)
Theorem C69_values : forall f prec dec s, finite f -> ~ FormatSpec.is_digit dec -> dec <> 45 -> ~ FormatSpec.is_digit s -> s <> 45 ->
  exists n whole fraction g, nearest_even (magnitude f * inject_Z (10 ^ Z.of_nat prec)) n /\
    is_decimal_of (n / 10 ^ Z.of_nat prec) whole /\ List.length fraction = prec /\ Forall FormatSpec.is_digit fraction /\ dec_value (whole ++ fraction) = n /\
    without s g = whole /\ grouped_by_three s g /\
    format_FloatWith f prec dec s = Ok ((if negative f then [45] else []) ++ g ++ if (prec =? 0)%nat then [] else dec :: fraction).
Proof. exact FloatWith_value. Qed.
Print Assumptions C69_values.
Theorem C69_infinity_refuted : forall prec, format_Float (S754_infinity false) prec = Ok (lit "+,Inf") /\ format_Float (S754_infinity true) prec = Ok (lit "-Inf") /\ format_Float S754_nan prec = Ok (lit "NaN").
Proof. intros prec. repeat split. Qed.
Print Assumptions C69_infinity_refuted.
Example C69_values_nonvacuous : format_Float (S754_finite true 9876543210 (-3)) 2 = Ok (lit "-1,234,567,901.25") /\ format_Float (S754_zero true) 2 = Ok (lit "-0.00").
Proof. split; vm_compute; reflexivity. Qed.
