(** C131: a computed column holds what its expression comes to, in the column's type.
    [D] and [X] stand for the behaviour of other packages. *)
From Coq Require Import Reals Lia Lra ZifyBool QArith String.
From Verif Require Import Base GuidModel FormatModel FormatSpec StrModel NumModel GoTextModel NumTextModel NumTextSpec NumTextProofs NumTextProofs2 NumTextProofs3 NumTextProofs4
  ExprModel TableModel XmlModel ExprSpec FuncSpec ExprProofs FuncProofs FuncProofs7 FloatSpec CellSpec CellProofs CellProofs2 PropertiesTable PropertiesNumText.
From Flocq Require Import Core.Core.
Close Scope R_scope.
Close Scope Q_scope.
Open Scope list_scope.
Open Scope Z_scope.

(** ** Columns of integers *)

(** The number without its fraction, if it is in the range of the column's type *)
Theorem C131_whole : forall D depth t vals i ty v q n lo hi, computed D depth t vals i ty v -> counts_as v q -> is_truncated q n ->
  whole_type ty lo hi -> lo <= n < hi -> exists c, TypedValue (S depth) D t vals i ty = Ok (Some c) /\ holds_whole n ty c.
Proof.
  intros D depth t vals i ty v q n lo hi C Q T W R. rewrite (computed_typed D depth t vals i ty v C).
  destruct (whole_exact D v q n ty lo hi Q T W R) as (c & -> & H). exists c. auto.
Qed.
Print Assumptions C131_whole.
(** Beyond it, unless the value is a Double, the number in the range with the same low bits *)
Theorem C131_wraps : forall D depth t vals i ty v q n lo hi, computed D depth t vals i ty v -> counts_as v q -> is_truncated q n ->
  whole_type ty lo hi -> ve_type v <> VDouble ->
  exists m c, TypedValue (S depth) D t vals i ty = Ok (Some c) /\ holds_whole m ty c /\ lo <= m < hi /\ (m - n) mod (hi - lo) = 0.
Proof.
  intros D depth t vals i ty v q n lo hi C Q T W ND. rewrite (computed_typed D depth t vals i ty v C).
  destruct (whole_wraps D v q n ty lo hi Q T W ND) as (m & c & -> & H & R & M). exists m, c. auto.
Qed.
Print Assumptions C131_wraps.

(** ** Columns of Booleans, decimals and texts *)

Theorem C131_boolean : forall D depth t vals i v q, computed D depth t vals i DBoolean v -> stands_for v q ->
  exists b, TypedValue (S depth) D t vals i DBoolean = Ok (Some (CBool b)) /\ (b = false <-> (q == 0)%Q).
Proof.
  intros D depth t vals i v q C Q. rewrite (computed_typed D depth t vals i DBoolean v C). destruct (boolean_cell D v q Q) as (b & -> & E). exists b. auto.
Qed.
Print Assumptions C131_boolean.
Theorem C131_boolean_special : forall D depth t vals i f, computed D depth t vals i DBoolean (vDouble f) -> (f = S754_nan \/ exists s, f = S754_infinity s) ->
  TypedValue (S depth) D t vals i DBoolean = Ok (Some (CBool true)).
Proof. intros D depth t vals i f C F. rewrite (computed_typed D depth t vals i DBoolean _ C). destruct F as [-> |([] & ->)]; reflexivity. Qed.
Print Assumptions C131_boolean_special.
Theorem C131_decimal : forall D depth t vals i v n, computed D depth t vals i DDecimal v -> counts_whole v n ->
  exists d, TypedValue (S depth) D t vals i DDecimal = Ok (Some (CDec d)) /\ (dec_number d == inject_Z n)%Q.
Proof.
  intros D depth t vals i v n C Q. rewrite (computed_typed D depth t vals i DDecimal v C). destruct (decimal_cell D v n Q) as (d & -> & E). exists d. auto.
Qed.
Print Assumptions C131_decimal.
(** The text that a column of the value's own type shows *)
Theorem C131_text : forall D depth t vals i v c, computed D depth t vals i DString v -> own_cell v c ->
  TypedValue (S depth) D t vals i DString = Ok (Some (CStr (cell_text D c))).
Proof. intros D depth t vals i v c C O. rewrite (computed_typed D depth t vals i DString v C), (own_text_cell D v c O). reflexivity. Qed.
Print Assumptions C131_text.

(** ** Columns of floating-point numbers *)

Theorem C131_float_whole : forall D depth t vals i v n, counts_whole v n ->
  (computed D depth t vals i DSingle v -> exists f, TypedValue (S depth) D t vals i DSingle = Ok (Some (CSingle f)) /\ is_nearest 24 128 (n <? 0) (IZR n) f) /\
  (computed D depth t vals i DDouble v -> exists f, TypedValue (S depth) D t vals i DDouble = Ok (Some (CDouble f)) /\ is_nearest 53 1024 (n <? 0) (IZR n) f).
Proof.
  intros D depth t vals i v n Q. destruct (whole_floats D v n Q) as [S1 S2]. pose proof (counts_i64 v n Q) as B. split; intros C; rewrite (computed_typed D depth t vals i _ v C).
  - rewrite S1. eexists. split; [reflexivity|]. apply of_Z_rounds; [lia..|exact B].
  - rewrite S2. eexists. split; [reflexivity|]. apply of_Z_rounds; [lia..|exact B].
Qed.
Print Assumptions C131_float_whole.
Theorem C131_single_of_double : forall D depth t vals i f, computed D depth t vals i DSingle (vDouble f) -> is_number f ->
  let r := real f in let neg := match f with S754_zero s | S754_finite s _ _ => s | _ => false end in
  ((Rabs (nearest_in 24 128 r) < bpow radix2 128)%R -> exists x, TypedValue (S depth) D t vals i DSingle = Ok (Some (CSingle x)) /\ is_nearest 24 128 neg r x) /\
  ((bpow radix2 128 <= Rabs (nearest_in 24 128 r))%R -> TypedValue (S depth) D t vals i DSingle = Ok (Some (CSingle (S754_infinity neg)))).
Proof.
  intros D depth t vals i f C N r neg. rewrite (computed_typed D depth t vals i _ _ C). change (computed_cell D (vDouble f) DSingle) with (Ok (CSingle (s_of_double f))).
  destruct (single_rounds f N) as [A B]. split; intros H; [eexists; split; [reflexivity|exact (A H)]|rewrite (B H); reflexivity].
Qed.
Print Assumptions C131_single_of_double.
Theorem C131_float_of_decimal : forall D depth t vals i d, let neg := coef d <? 0 in let r := number_value neg (Z.abs (coef d)) 0 (dexp d) in
  (Rabs (nearest_in 53 1024 r) < bpow radix2 1024)%R -> exists f, is_nearest 53 1024 neg r f /\
    (computed D depth t vals i DDouble (vDec d) -> TypedValue (S depth) D t vals i DDouble = Ok (Some (CDouble f))) /\
    (computed D depth t vals i DSingle (vDec d) -> (Rabs (nearest_in 24 128 (real f)) < bpow radix2 128)%R ->
     exists x, TypedValue (S depth) D t vals i DSingle = Ok (Some (CSingle x)) /\ is_nearest 24 128 neg (real f) x).
Proof.
  intros D depth t vals i d neg r H. exists (decimal_to_double d). assert (N : is_nearest 53 1024 neg r (decimal_to_double d)).
  { unfold decimal_to_double. destruct (scaled_correct 53 1024 (eq_refl : 0 < 53) (eq_refl : 53 < 1024) neg (Z.abs (coef d)) (dexp d) ltac:(lia)) as [A _].
    assert (ER : signed neg (IZR (Z.abs (coef d)) * powerRZ 10 (dexp d)) = r) by (unfold r, number_value; rewrite Z.sub_0_r; reflexivity). rewrite ER in A. exact (A H). }
  split; [exact N|]. split; intros C.
  - rewrite (computed_typed D depth t vals i _ _ C). reflexivity.
  - intros F. rewrite (computed_typed D depth t vals i _ _ C). change (computed_cell D (vDec d) DSingle) with (Ok (CSingle (s_of_double (decimal_to_double d)))).
    eexists. split; [reflexivity|]. destruct N as (V & _ & SG). destruct (single_rounds (decimal_to_double d)) as [A _].
    + split; [|exact V]. destruct (decimal_to_double d); try contradiction; reflexivity.
    + specialize (A F). destruct (decimal_to_double d); try contradiction; subst; exact A.
Qed.
Print Assumptions C131_float_of_decimal.

(** ** Texts in columns of other types *)

(** Signed integers: with a sign or none *)
Theorem C131_signed_text : forall D depth t vals i ty lo hi s n, computed D depth t vals i ty (vStr s) -> whole_type ty lo hi -> lo < 0 -> whole_text n s ->
  (lo <= n < hi -> exists c, TypedValue (S depth) D t vals i ty = Ok (Some c) /\ holds_whole n ty c) /\
  (~ lo <= n < hi -> TypedValue (S depth) D t vals i ty = Err).
Proof.
  intros D depth t vals i ty lo hi s n C W L T. rewrite (computed_typed D depth t vals i _ _ C). pose proof (signed_text D n s ty lo hi W L T) as H.
  destruct ((lo <=? n) && (n <? hi)) eqn:B; split; intros R; try lia.
  - destruct H as (c & -> & H). exists c. auto.
  - rewrite H. reflexivity.
Qed.
Print Assumptions C131_signed_text.
(** Unsigned ones: without a sign *)
Theorem C131_unsigned_text : forall D depth t vals i ty hi s, computed D depth t vals i ty (vStr s) -> whole_type ty 0 hi ->
  (forall n, is_decimal_of n s -> n < hi -> exists c, TypedValue (S depth) D t vals i ty = Ok (Some c) /\ holds_whole n ty c) /\
  (forall n, is_decimal_of n s -> hi <= n -> TypedValue (S depth) D t vals i ty = Err) /\
  (forall c r, s = c :: r -> c = 43 \/ c = 45 -> TypedValue (S depth) D t vals i ty = Err).
Proof.
  intros D depth t vals i ty hi s C W. rewrite (computed_typed D depth t vals i _ _ C). repeat split.
  - intros n T R. pose proof (unsigned_text D n s ty hi W T) as H. replace (n <? hi) with true in H by lia. destruct H as (c & -> & H). exists c. auto.
  - intros n T R. pose proof (unsigned_text D n s ty hi W T) as H. replace (n <? hi) with false in H by lia. rewrite H. reflexivity.
  - intros c r -> S. rewrite (unsigned_sign D c r ty hi W S). reflexivity.
Qed.
Print Assumptions C131_unsigned_text.
Theorem C131_boolean_text : forall D depth t vals i s, computed D depth t vals i DBoolean (vStr s) ->
  (In s (map lit true_texts) -> TypedValue (S depth) D t vals i DBoolean = Ok (Some (CBool true))) /\
  (In s (map lit false_texts) -> TypedValue (S depth) D t vals i DBoolean = Ok (Some (CBool false))) /\
  (~ In s (map lit true_texts) -> ~ In s (map lit false_texts) -> TypedValue (S depth) D t vals i DBoolean = Err).
Proof.
  intros D depth t vals i s C. rewrite (computed_typed D depth t vals i _ _ C). repeat split.
  - intros H. apply (boolean_text D s true) in H. rewrite H. reflexivity.
  - intros H. apply (boolean_text D s false) in H. rewrite H. reflexivity.
  - intros A B. rewrite (boolean_text_err D s A B). reflexivity.
Qed.
Print Assumptions C131_boolean_text.
(** Numbers with a point or an exponent; a Double that is too great is an error. *)
Theorem C131_number_text : forall D depth t vals i s neg m k e, number_text neg m k e s ->
  (computed D depth t vals i DDecimal (vStr s) -> - 2 ^ 31 <= e < 2 ^ 31 -> - 2 ^ 31 <= e - k < 2 ^ 31 ->
   exists d, TypedValue (S depth) D t vals i DDecimal = Ok (Some (CDec d)) /\ (dec_number d == written_number neg m k e)%Q) /\
  (computed D depth t vals i DDouble (vStr s) -> Z.abs e < 100000 -> let r := number_value neg m k e in
   ((Rabs (nearest_in 53 1024 r) < bpow radix2 1024)%R -> exists f, TypedValue (S depth) D t vals i DDouble = Ok (Some (CDouble f)) /\ is_nearest 53 1024 neg r f) /\
   ((bpow radix2 1024 <= Rabs (nearest_in 53 1024 r))%R -> TypedValue (S depth) D t vals i DDouble = Err)).
Proof.
  intros D depth t vals i s neg m k e T. split.
  - intros C B1 B2. rewrite (computed_typed D depth t vals i _ _ C). change (computed_cell D (vStr s) DDecimal) with (let* d := some_or_err (parse_decimal s) in Ok (CDec d)).
    rewrite (parse_decimal_text neg m k e s T) by (unfold in_int32; lia). eexists. split; reflexivity.
  - intros C B r. rewrite (computed_typed D depth t vals i _ _ C). change (computed_cell D (vStr s) DDouble) with (let* f := some_or_err (parse_float s) in Ok (CDouble f)).
    destruct (ParseFloat_rounds 53 1024 neg m k e s ltac:(lia) ltac:(lia) T B) as [A1 A2]. unfold parse_float. split; intros H.
    + destruct (A1 H) as (f & -> & N). exists f. auto.
    + rewrite (A2 H). reflexivity.
Qed.
Print Assumptions C131_number_text.
(** GUIDs and dates as other packages read them *)
Theorem C131_other_text : forall (D : dlib) depth t vals i s,
  (computed D depth t vals i DGuid (vStr s) -> TypedValue (S depth) D t vals i DGuid = match parse_guid s with Some g => Ok (Some (CGuid g)) | None => Err end) /\
  (computed D depth t vals i DDateTime (vStr s) -> TypedValue (S depth) D t vals i DDateTime = match parse_date D s with Some d => Ok (Some (CTime d)) | None => Err end).
Proof.
  intros D depth t vals i s. split; intros C; rewrite (computed_typed D depth t vals i _ _ C).
  - change (computed_cell D (vStr s) DGuid) with (let* g := some_or_err (parse_guid s) in Ok (CGuid g)). destruct (parse_guid s); reflexivity.
  - change (computed_cell D (vStr s) DDateTime) with (let* g := some_or_err (parse_date D s) in Ok (CTime g)). destruct (parse_date D s); reflexivity.
Qed.
Print Assumptions C131_other_text.
(** What cannot be read in a type is an error. *)
Theorem C131_impossible : forall D depth t vals i ty v, computed D depth t vals i ty v -> well_typed v -> ~ readable (ve_type v) ty -> TypedValue (S depth) D t vals i ty = Err.
Proof. intros D depth t vals i ty v C W R. rewrite (computed_typed D depth t vals i ty v C), (unreadable D v ty W R). reflexivity. Qed.
Print Assumptions C131_impossible.

(** ** The property fails *)

(** A table of one computed column, the value of whose expression is [v] *)
Definition one_column (ty : dtype) (v : ve) : dtable := Table (lit "T") [] [DCol (lit "A") ty (Some (Ok (EValue v))) 0] [].
Lemma one_computed D depth ty v : ve_type v <> VUndefined -> computed D depth (one_column ty v) [None] 0 ty v.
Proof. intros N. exists (DCol (lit "A") ty (Some (Ok (EValue v))) 0), (EValue v). repeat split. destruct v as [[] o]; try reflexivity. contradiction N. reflexivity. Qed.

(** A number that the column cannot hold reads as another one: 300 as 44, -1 as 255. *)
Theorem C131_range_refuted : forall D, TypedValue 1 D (one_column DUInt8 (vInt32 300)) [None] 0 DUInt8 = Ok (Some (CUInt8 44)) /\
  TypedValue 1 D (one_column DUInt8 (vInt32 (-1))) [None] 0 DUInt8 = Ok (Some (CUInt8 255)).
Proof. intros D. split; reflexivity. Qed.
Print Assumptions C131_range_refuted.
(** A Double that is not a number makes the read of a Decimal column panic. *)
Theorem C131_panic_refuted : forall D depth t vals i f, computed D depth t vals i DDecimal (vDouble f) -> (f = S754_nan \/ exists s, f = S754_infinity s) ->
  TypedValue (S depth) D t vals i DDecimal = Panic.
Proof. intros D depth t vals i f C F. rewrite (computed_typed D depth t vals i _ _ C). destruct F as [-> |(s & ->)]; reflexivity. Qed.
Print Assumptions C131_panic_refuted.
(** A text in a column of type Single is rounded twice, and not to the nearest. *)
Definition near_tie : string := "1.0000000596046447753906251".
Theorem C131_single_text_refuted : forall D, exists x, TypedValue 1 D (one_column DSingle (vStr (lit near_tie))) [None] 0 DSingle = Ok (Some (CSingle x)) /\
  number_text false 10000000596046447753906251 25 0 (lit near_tie) /\ ~ is_nearest 24 128 false (number_value false 10000000596046447753906251 25 0) x.
Proof.
  intros D. exists (S754_finite false 8388608 (-23)). split; [vm_compute; reflexivity|].
  assert (T : number_text false 10000000596046447753906251 25 0 (lit near_tie)).
  { exists [], (lit near_tie), []. split; [left; reflexivity|]. split; [|split; [left; split; reflexivity|rewrite app_nil_r; reflexivity]].
    exists (lit "1"), (lit "0000000596046447753906251"). split; [apply digits_test; reflexivity|]. split; [apply digits_test; reflexivity|]. split; [discriminate|].
    split; [left; reflexivity|]. split; reflexivity. }
  split; [exact T|]. intros (_ & N & _). destruct (ParseFloat_rounds 24 128 false _ _ _ _ ltac:(lia) ltac:(lia) T ltac:(lia)) as [A _].
  destruct A as (f & P & _ & R & _).
  - apply C123_fits; [lia..|]. unfold number_value, signed. apply Rle_trans with 2%R.
    + rewrite Rabs_pos_eq; [|apply Rmult_le_pos; [apply IZR_le; lia|apply powerRZ_le; lra]]. change (0 - 25) with (-25). unfold powerRZ.
      change (Pos.to_nat 25) with 25%nat. assert (E25 : (10 ^ 25 = 10000000000000000000000000)%R) by (simpl; lra). rewrite E25. lra.
    + change 2%R with (bpow radix2 1). apply bpow_le. lia.
  - rewrite <- N in R. vm_compute in P. injection P as <-. unfold BinarySingleNaN.SF2R, F2R in R. cbn [Fnum Fexp cond_Zopp] in R.
    apply Rmult_eq_reg_r in R; [apply eq_IZR in R; discriminate|pose proof (bpow_gt_0 radix2 (-23)); lra].
Qed.
Print Assumptions C131_single_text_refuted.

Example C131_nonvacuous : forall D,
  computed D 0 (one_column DInt16 (vDec (Dec (-1299) (-2)))) [None] 0 DInt16 (vDec (Dec (-1299) (-2))) /\
  TypedValue 1 D (one_column DInt16 (vDec (Dec (-1299) (-2)))) [None] 0 DInt16 = Ok (Some (CInt16 (-12))) /\
  TypedValue 1 D (one_column DInt64 (vTime 1999999999)) [None] 0 DInt64 = Ok (Some (CInt64 1)) /\
  TypedValue 1 D (one_column DInt8 (vStr (lit "-128"))) [None] 0 DInt8 = Ok (Some (CInt8 (-128))) /\
  TypedValue 1 D (one_column DInt8 (vStr (lit "128"))) [None] 0 DInt8 = Err /\
  TypedValue 1 D (one_column DSingle (vInt32 16777217)) [None] 0 DSingle = Ok (Some (CSingle (S754_finite false 8388608 1))) /\
  TypedValue 1 D (one_column DString (vDec (Dec (-1250) (-2)))) [None] 0 DString = Ok (Some (CStr (lit "-12.5"))) /\
  TypedValue 1 D (one_column DGuid (vInt32 1)) [None] 0 DGuid = Err /\
  whole_text (-128) (lit "-128") /\ counts_as (vTime 1999999999) (inject_Z 1).
Proof.
  intros D. split; [apply one_computed; discriminate|]. repeat (split; [vm_compute; reflexivity|]). split.
  - exists (lit "128"). split; [|right; split; [lia|reflexivity]]. split; [apply digits_test; reflexivity|]. split; [reflexivity|]. split; [discriminate|]. right. discriminate.
  - apply (counts_date 1999999999 1); [lia|unfold is_i64; lia|reflexivity].
Qed.
