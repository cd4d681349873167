(** Proofs about the values of computed columns (C131). *)
From Coq Require Import String QArith Lia ZifyBool.
From Verif Require Import Base GuidModel FormatSpec FormatProofs StrModel NumModel CalModel GoTextModel GoTextProofs ExprModel ExprSpec ExprProofs FuncSpec FuncProofs FuncProofs7 TableModel TableProofs3 XmlProofs6 CellSpec.
Close Scope Q_scope.
Open Scope list_scope.
Open Scope Z_scope.

Lemma computed_typed D depth t vals i ty v : computed D depth t vals i ty v ->
  TypedValue (S depth) D t vals i ty = let* x := computed_cell D v ty in Ok (Some x).
Proof.
  intros (c & e & C & <- & T & V & E). rewrite (typed_computed' t vals i c e depth D C T V). rewrite E. reflexivity.
Qed.

(** ** Whole numbers *)

Lemma int_cell_wraps ty lo hi n : whole_type ty lo hi -> exists m c, int_or_err ty n = Ok c /\ holds_whole m ty c /\ lo <= m < hi /\ (m - n) mod (hi - lo) = 0.
Proof.
  intros W. destruct W; unfold int_or_err; cbn [int_cell]; do 2 eexists; (split; [reflexivity|]); (split; [constructor|]);
    unfold i8, i16, i32, i64, u8, u16, u32, u64; split; try (Z.div_mod_to_equations; lia).
Qed.

Lemma whole_divides ty lo hi : whole_type ty lo hi -> lo < hi /\ (hi - lo | 2 ^ 64).
Proof.
  intros W. destruct W; split; try reflexivity.
  - exists (2 ^ 56). reflexivity.
  - exists (2 ^ 48). reflexivity.
  - exists (2 ^ 32). reflexivity.
  - exists (2 ^ 56). reflexivity.
  - exists (2 ^ 48). reflexivity.
  - exists (2 ^ 32). reflexivity.
Qed.
Lemma dec_trunc_mod d q n : (q == dec_number d)%Q -> is_truncated q n -> (dec_intpart d - n) mod 2 ^ 64 = 0.
Proof.
  intros E T. unfold dec_intpart. assert (X : (if 0 <=? dexp d then coef d * 10 ^ dexp d else Z.quot (coef d) (10 ^ (- dexp d))) = n).
  { destruct (Z.leb_spec 0 (dexp d)) as [D|D].
    - pose proof (scaled_truncated q _ 1 n (scaled_integer q _ (dec_integer d q E D)) T) as H. rewrite Z.quot_1_r in H. symmetry. exact H.
    - symmetry. exact (scaled_truncated q _ _ n (dec_scaled d q E D) T). }
  rewrite X. clear. unfold i64. Z.div_mod_to_equations; lia.
Qed.
Lemma seconds_unix t n : n * 1000000000 <= t < (n + 1) * 1000000000 -> is_i64 n -> i64 (Unix t) = n.
Proof.
  intros H B. unfold Unix. change ns_per_second with 1000000000. replace (t / 1000000000) with n by (Z.div_mod_to_equations; lia). unfold is_i64, i64 in *. rewrite Z.mod_small; lia.
Qed.
Lemma integer_truncated (q : Q) n k : (q == inject_Z n)%Q -> is_truncated q k -> k = n.
Proof. intros E T. rewrite (scaled_truncated q n 1 k (scaled_integer q n E) T). apply Z.quot_1_r. Qed.
Lemma passed D v q n ty lo hi : counts_as v q -> is_truncated q n -> whole_type ty lo hi -> ve_type v <> VDouble ->
  exists k, computed_cell D v ty = int_or_err ty k /\ (k - n) mod 2 ^ 64 = 0.
Proof.
  intros C T W ND. destruct C as [v q S|t m q R B E].
  - destruct S as [v m q WH E|d q E|f q E]; [| |contradiction ND; reflexivity].
    + rewrite (integer_truncated q m n E T). exists m. rewrite Z.sub_diag. split; [|reflexivity].
      destruct WH as [b|v m [m' X|m' X]]; destruct W; reflexivity.
    + exists (dec_intpart d). split; [destruct W; reflexivity|]. exact (dec_trunc_mod d q n E T).
  - rewrite (integer_truncated q m n E T). exists m. rewrite Z.sub_diag. split; [|reflexivity].
    transitivity (int_or_err ty (i64 (Unix t))); [destruct W; reflexivity|]. rewrite (seconds_unix t m R B). reflexivity.
Qed.
Lemma same_in_range lo hi m n : lo <= m < hi -> lo <= n < hi -> (m - n) mod (hi - lo) = 0 -> m = n.
Proof. intros A B C. apply Z.mod_divide in C; [|lia]. destruct C as [k C]. destruct (Z.lt_trichotomy k 0) as [K|[->|K]]; [exfalso; nia|lia|exfalso; nia]. Qed.
Lemma whole_wraps D v q n ty lo hi : counts_as v q -> is_truncated q n -> whole_type ty lo hi -> ve_type v <> VDouble ->
  exists m c, computed_cell D v ty = Ok c /\ holds_whole m ty c /\ lo <= m < hi /\ (m - n) mod (hi - lo) = 0.
Proof.
  intros C T W ND. destruct (passed D v q n ty lo hi C T W ND) as (k & -> & K). destruct (int_cell_wraps ty lo hi k W) as (m & c & E & H & R & M).
  exists m, c. repeat split; try assumption; try lia. destruct (whole_divides ty lo hi W) as [P (j & J)]. apply Z.mod_divide; [lia|].
  apply Z.mod_divide in K; [|lia]. apply Z.mod_divide in M; [|lia]. destruct K as [a K], M as [b M]. exists (b + a * j).
  replace (m - n) with (b * (hi - lo) + a * 2 ^ 64) by lia. rewrite J. ring.
Qed.
Lemma whole_exact D v q n ty lo hi : counts_as v q -> is_truncated q n -> whole_type ty lo hi -> lo <= n < hi ->
  exists c, computed_cell D v ty = Ok c /\ holds_whole n ty c.
Proof.
  intros C T W R. destruct (ve_type v) eqn:VT; try (destruct (whole_wraps D v q n ty lo hi C T W ltac:(congruence)) as (m & c & E & H & M & X);
    rewrite (same_in_range lo hi m n M R X) in H; exists c; auto).
  destruct C as [v q S|t m q B1 B2 E]; [|discriminate]. destruct S as [v m q WH E|d q E|f q E]; [destruct WH as [b|v m [m' X|m' X]]; discriminate|discriminate|].
  assert (X : computed_cell D (vDouble f) ty = int_or_err ty n).
  { transitivity (int_or_err ty (float_to_int D ty f)); [destruct W; reflexivity|]. unfold float_to_int. rewrite (double_trunc f q n E T).
    destruct W; cbn [int_range fst snd]; match goal with |- context [if ?b then _ else _] => replace b with true by lia end; reflexivity. }
  rewrite X. destruct (int_cell_wraps ty lo hi n W) as (m & c & E' & H & M & Y). rewrite (same_in_range lo hi m n M R Y) in H. exists c. auto.
Qed.

(** ** Booleans and decimals *)

Lemma boolean_cell D v q : stands_for v q -> exists b, computed_cell D v DBoolean = Ok (CBool b) /\ (b = false <-> (q == 0)%Q).
Proof.
  intros S. destruct (to_boolean D v q S) as (b & C & E). exists b. split; [|exact E].
  destruct S as [v m q W _|d q _|f q _]; [destruct W as [bb|v m [m' R|m' R]]; [destruct bb|..]|..]; cbn in C; injection C as <-; reflexivity.
Qed.
Lemma decimal_cell D v n : counts_whole v n -> exists d, computed_cell D v DDecimal = Ok (CDec d) /\ (dec_number d == inject_Z n)%Q.
Proof.
  intros W. exists (dec_of_Z n). split; [|unfold dec_number, dec_of_Z; cbn; ring]. destruct W as [v n W|t n R B].
  - destruct W as [b|v m [m' R|m' R]]; reflexivity.
  - transitivity (Ok (CDec (dec_of_Z (i64 (Unix t))))); [reflexivity|]. rewrite (seconds_unix t n R B). reflexivity.
Qed.

(** ** Texts *)

Lemma own_text_cell D v c : own_cell v c -> computed_cell D v DString = Ok (CStr (cell_text D c)).
Proof. intros O. destruct O; reflexivity. Qed.

Lemma int_digits_range max l : Forall is_digit l -> forall a, 0 <= a <= max -> max < fold_left (fun a c => 10 * a + (c - 48)) l a ->
  int_digits 10 max l a = PRange max.
Proof.
  induction 1 as [|c l H F IH]; intros a A M; cbn [fold_left int_digits] in *; [lia|]. unfold is_digit in H. replace (c =? 95) with false by lia.
  unfold digit_of. replace ((48 <=? c) && (c <=? 57)) with true by lia. replace (10 <=? c - 48) with false by lia. cbv zeta.
  replace (a * 10 + (c - 48)) with (10 * a + (c - 48)) by lia. destruct (Z.ltb_spec max (10 * a + (c - 48))); [reflexivity|]. apply IH; [lia|exact M].
Qed.
Lemma parse_unsigned_range bits x l : is_decimal_of x l -> 0 < bits -> 2 ^ bits <= x -> parse_unsigned bits l = PRange (2 ^ bits - 1).
Proof.
  intros (D & V & N & Z0) B R. pose proof (Z.pow_pos_nonneg 2 bits ltac:(lia) ltac:(lia)) as P. pose proof (Z.pow_gt_1 2 bits ltac:(lia)) as [P1 _]. specialize (P1 B).
  destruct l as [|b l]; [congruence|]. cbn [parse_unsigned]. inversion D as [|? ? Hb Dl]; subst. unfold is_digit in Hb.
  destruct (Z.eq_dec b 48) as [->|Nb].
  - assert (l = []) as -> by (destruct Z0 as [Z0|Z0]; [destruct l; [reflexivity|discriminate]|cbn in Z0; congruence]).
    unfold dec_value in R. cbn [fold_left] in R. lia.
  - assert (int_base (b :: l) = (10, b :: l)) as ->.
    { cbn [int_base]. destruct b as [|p|p]; try lia. do 6 (destruct p as [p|p|]; try reflexivity; try lia). }
    unfold dec_value in *. rewrite int_digits_range; [reflexivity|exact D|lia|lia].
Qed.
Lemma split_digits x l : is_decimal_of x l -> split_sign l = (false, l).
Proof.
  intros (D & _ & N & _). destruct l as [|b l]; [congruence|]. inversion D as [|? ? Hb Dl]; subst. unfold is_digit in Hb.
  cbn [split_sign]. destruct b as [|p|p]; try lia. do 6 (destruct p as [p|p|]; try reflexivity; try lia).
Qed.
Lemma decimal_nonneg x l : is_decimal_of x l -> 0 <= x.
Proof. intros (D & V & _). subst x. unfold dec_value. apply (fold_dec_mono l D 0). lia. Qed.
Lemma split_whole n s : whole_text n s -> exists neg d, split_sign s = (neg, d) /\ is_decimal_of (Z.abs n) d /\ (if neg then n <= 0 else 0 <= n).
Proof.
  intros (d & D & [(P & [->| ->])|(P & ->)]).
  - exists false, d. split; [exact (split_digits _ d D)|]. auto.
  - exists false, d. auto.
  - exists true, d. auto.
Qed.
Lemma parse_int_whole bits n s : 0 < bits -> whole_text n s ->
  parse_int bits s = if (- 2 ^ (bits - 1) <=? n) && (n <? 2 ^ (bits - 1)) then Some n else None.
Proof.
  intros B W. destruct (split_whole n s W) as (neg & d & S & D & P). unfold parse_int. rewrite S.
  assert (M : 2 ^ bits = 2 * 2 ^ (bits - 1)) by (rewrite <- Z.pow_succ_r by lia; f_equal; lia).
  pose proof (Z.pow_pos_nonneg 2 (bits - 1) ltac:(lia) ltac:(lia)) as Q. set (h := 2 ^ (bits - 1)) in *. clearbody h.
  destruct (Z_lt_le_dec (Z.abs n) (2 ^ bits)) as [L|L].
  - rewrite (parse_unsigned_dec bits _ d D) by lia. destruct neg.
    + destruct (Z.ltb_spec h (Z.abs n)); [replace (- h <=? n) with false by lia; reflexivity|]. replace ((- h <=? n) && (n <? h)) with true by lia. f_equal. lia.
    + destruct (Z.leb_spec h (Z.abs n)); [replace (n <? h) with false by lia; rewrite Bool.andb_false_r; reflexivity|]. replace ((- h <=? n) && (n <? h)) with true by lia. f_equal. lia.
  - rewrite (parse_unsigned_range bits _ d D B L). replace ((- h <=? n) && (n <? h)) with false by lia. reflexivity.
Qed.
Lemma parse_uint_whole bits n s : 0 < bits -> is_decimal_of n s -> parse_uint bits s = if n <? 2 ^ bits then Some n else None.
Proof.
  intros B D. pose proof (decimal_nonneg n s D) as P. unfold parse_uint. destruct (Z.ltb_spec n (2 ^ bits)).
  - rewrite (parse_unsigned_dec bits n s D) by lia. reflexivity.
  - rewrite (parse_unsigned_range bits n s D B) by lia. reflexivity.
Qed.
Lemma parse_uint_sign bits c s : c = 43 \/ c = 45 -> parse_uint bits (c :: s) = None.
Proof. intros [-> | ->]; reflexivity. Qed.
Lemma signed_text D n s ty lo hi : whole_type ty lo hi -> lo < 0 -> whole_text n s ->
  if (lo <=? n) && (n <? hi) then exists c, computed_cell D (vStr s) ty = Ok c /\ holds_whole n ty c else computed_cell D (vStr s) ty = Err.
Proof.
  intros W L T.
  assert (X : forall b, 0 < b -> lo = - 2 ^ (b - 1) -> hi = 2 ^ (b - 1) -> computed_cell D (vStr s) ty = (let* k := some_or_err (parse_int b s) in int_or_err ty k) ->
    if (lo <=? n) && (n <? hi) then exists c, computed_cell D (vStr s) ty = Ok c /\ holds_whole n ty c else computed_cell D (vStr s) ty = Err).
  { intros b B E1 E2 E. rewrite E, (parse_int_whole b n s B T), <- E1, <- E2. destruct ((lo <=? n) && (n <? hi)) eqn:R; [|reflexivity]. cbn [some_or_err bind].
    destruct (int_cell_wraps ty lo hi n W) as (m & c & -> & H & M & Y). rewrite (same_in_range lo hi m n M ltac:(lia) Y) in H. exists c. auto. }
  destruct W; try lia; [apply (X 8)|apply (X 16)|apply (X 32)|apply (X 64)]; reflexivity.
Qed.
Lemma unsigned_text D n s ty hi : whole_type ty 0 hi -> is_decimal_of n s ->
  if n <? hi then exists c, computed_cell D (vStr s) ty = Ok c /\ holds_whole n ty c else computed_cell D (vStr s) ty = Err.
Proof.
  intros W T. pose proof (decimal_nonneg n s T) as P.
  assert (X : forall b, 0 < b -> hi = 2 ^ b -> computed_cell D (vStr s) ty = (let* k := some_or_err (parse_uint b s) in int_or_err ty k) ->
    if n <? hi then exists c, computed_cell D (vStr s) ty = Ok c /\ holds_whole n ty c else computed_cell D (vStr s) ty = Err).
  { intros b B E2 E. rewrite E, (parse_uint_whole b n s B T), <- E2. destruct (n <? hi) eqn:R; [|reflexivity]. cbn [some_or_err bind].
    destruct (int_cell_wraps ty 0 hi n W) as (m & c & -> & H & M & Y). rewrite (same_in_range 0 hi m n M ltac:(lia) Y) in H. exists c. auto. }
  inversion W; subst; [apply (X 8)|apply (X 16)|apply (X 32)|apply (X 64)]; reflexivity.
Qed.
Lemma unsigned_sign D c s ty hi : whole_type ty 0 hi -> c = 43 \/ c = 45 -> computed_cell D (vStr (c :: s)) ty = Err.
Proof. intros W C. inversion W; subst; destruct C as [-> | ->]; reflexivity. Qed.
Lemma boolean_text D s b : computed_cell D (vStr s) DBoolean = Ok (CBool b) <-> In s (map lit (if b then true_texts else false_texts)).
Proof.
  change (computed_cell D (vStr s) DBoolean) with (let* b := some_or_err (parse_bool s) in Ok (CBool b)). split.
  - unfold parse_bool. intros H. destruct (existsb (GuidModel.bytes_eqb s) (map byte_text ["1"; "t"; "T"; "TRUE"; "true"; "True"]%string)) eqn:E1.
    + injection H as <-. apply existsb_exists in E1 as (x & I & Q). apply GoTextProofs.bytes_eqb_spec in Q. subst x. cbn in I |- *. tauto.
    + destruct (existsb (GuidModel.bytes_eqb s) (map byte_text ["0"; "f"; "F"; "FALSE"; "false"; "False"]%string)) eqn:E2; [|discriminate].
      injection H as <-. apply existsb_exists in E2 as (x & I & Q). apply GoTextProofs.bytes_eqb_spec in Q. subst x. cbn in I |- *. tauto.
  - intros H. destruct b; cbn in H; decompose [or] H; try contradiction; subst s; reflexivity.
Qed.
Lemma boolean_text_err D s : ~ In s (map lit true_texts) -> ~ In s (map lit false_texts) -> computed_cell D (vStr s) DBoolean = Err.
Proof.
  intros A B. destruct (parse_bool s) as [b|] eqn:E.
  - exfalso. assert (H : computed_cell D (vStr s) DBoolean = Ok (CBool b)) by (change (computed_cell D (vStr s) DBoolean) with (let* b := some_or_err (parse_bool s) in Ok (CBool b)); rewrite E; reflexivity).
    apply boolean_text in H. destruct b; contradiction.
  - change (computed_cell D (vStr s) DBoolean) with (let* b := some_or_err (parse_bool s) in Ok (CBool b)). rewrite E. reflexivity.
Qed.
Lemma unreadable D v ty : well_typed v -> ~ readable (ve_type v) ty -> computed_cell D v ty = Err.
Proof.
  intros [U W] R. destruct v as [vt o]. cbn [ve_type ve_value] in *. destruct vt; cbn [readable] in R; try contradiction; try tauto;
    (destruct ty; try (exfalso; apply R; (split; discriminate) || (left; reflexivity) || (right; reflexivity) || discriminate || exact I));
    (destruct o as [g|]; [specialize (W g eq_refl); destruct g; try contradiction|]; reflexivity).
Qed.
