(** Which functions can panic, and the theorem for whole expressions (C48). *)
From Coq Require Import Lia ZifyBool ZifyNat.
From Verif Require Import Base BaseProofs GuidModel GuidSpec FormatModel StrModel CalModel NumModel ExprModel ExprSpec ExprProofs ExprPanic StrProofs PowProofs.
Open Scope Z_scope.

(** ** Readers that do not panic *)
Lemma str_np v : well_typed v -> is_str v = true -> stringValue v <> Panic.
Proof. intros W T. apply vtype_eqb_spec in T. acc W. auto. Qed.
Lemma int_np v d : well_typed v -> integerValue v d <> Panic.
Proof. intros W. acc W. unfold integerValue. destruct (ve_type v); try discriminate; tauto. Qed.
Lemma convert_np L v t : well_typed v -> t <> VInt32 -> t <> VDecimal -> Convert L v t <> Panic.
Proof. intros W A B. rewrite Convert_panic by exact W. intros [(b & _ & E)|(f & _ & _ & E)]; congruence. Qed.
Lemma ic_np L v : well_typed v -> ignore_case L v <> Panic.
Proof.
  intros W. unfold ignore_case. apply np_bind; [apply convert_np; [exact W|discriminate..]|].
  intros b E. assert (Wb : well_typed b) by (eapply wt_convert; [exact W| |exact E]; discriminate).
  acc Wb. apply Convert_type in E. tauto.
Qed.
Lemma date_np L v d : Convert L v VDateTime = Ok d -> well_typed v -> dateTimeValue d <> Panic.
Proof.
  intros E W. assert (Wd : well_typed d) by (eapply wt_convert; [exact W| |exact E]; discriminate).
  acc Wd. apply Convert_type in E. tauto.
Qed.
Lemma interval_np L n : ParseTimeInterval L n <> Panic.
Proof. unfold ParseTimeInterval. destruct (find _ _) as [[? ?]|]; discriminate. Qed.

Ltac is_strs := repeat match goal with
  | H : negb (is_str _) = false |- _ => apply negb_false_iff in H end.
Ltac np :=
  repeat first
    [ progress is_strs
    | discriminate
    | assumption
    | match goal with
      | |- (if ?b then _ else _) <> Panic => let E := fresh "E" in destruct b eqn:E
      | |- stringValue _ <> Panic => apply str_np; assumption
      | |- integerValue _ _ <> Panic => apply int_np; assumption
      | |- ignore_case _ _ <> Panic => apply ic_np; assumption
      | |- Convert _ _ VDateTime <> Panic => apply convert_np; [assumption|discriminate|discriminate]
      | |- ParseTimeInterval _ _ <> Panic => apply interval_np
      | |- bind _ _ <> Panic => apply np_bind; [|intros]
      | |- dateTimeValue _ <> Panic => eapply date_np; eassumption
      end ].

Ltac npf := match goal with |- ?a = ?b -> False => change (a <> b) end; np.

Lemma unary_np u v : well_typed v -> applyUnary u v <> Panic.
Proof.
  intros W. acc W. unfold applyUnary. destruct (IsNull v); [discriminate|].
  destruct (ve_type v); try discriminate; (apply np_bind; [tauto|intros]); destruct u; discriminate.
Qed.
Lemma abs_np v : well_typed v -> fn_abs v <> Panic.
Proof.
  intros W. acc W. unfold fn_abs. destruct (negb _); [discriminate|]. destruct (IsNull v); [discriminate|].
  destruct (ve_type v); try discriminate; (apply np_bind; [tauto|intros; discriminate]).
Qed.
Lemma integral_np f g v : well_typed v -> fn_integral f g v <> Panic.
Proof.
  intros W. acc W. unfold fn_integral. destruct (negb _); [discriminate|]. destruct (IsNull v); [discriminate|].
  destruct (IsIntegerType _); [discriminate|].
  destruct (ve_type v); try discriminate; (apply np_bind; [tauto|intros; discriminate]).
Qed.
Lemma string_test_np f L a b c : well_typed a -> well_typed b -> well_typed c -> fn_string_test f L a b c <> Panic.
Proof. intros A B C. unfold fn_string_test. np. Qed.
Lemma dateAdd_np L a b c : well_typed a -> well_typed b -> well_typed c -> fn_dateAdd L a b c <> Panic.
Proof. intros A B C. unfold fn_dateAdd. np. Qed.
Lemma dateDiff_np L a b c : well_typed a -> well_typed b -> well_typed c -> fn_dateDiff L a b c <> Panic.
Proof. intros A B C. unfold fn_dateDiff. np. Qed.
Lemma datePart_np L a b : well_typed a -> well_typed b -> fn_datePart L a b <> Panic.
Proof. intros A B. unfold fn_datePart. np. Qed.
Lemma string_find_np f L a b c : well_typed a -> well_typed b -> well_typed c -> fn_string_find f L a b c <> Panic.
Proof. intros A B C. unfold fn_string_find. np. Qed.
Lemma isDate_np L a : well_typed a -> fn_isDate L a <> Panic.
Proof. intros A. unfold fn_isDate. np. Qed.
Lemma isInteger_np L a : well_typed a -> fn_isInteger L a <> Panic.
Proof. intros A. unfold fn_isInteger. np. Qed.
Lemma isGuid_np L a : well_typed a -> fn_isGuid L a <> Panic.
Proof. intros A. unfold fn_isGuid. np. Qed.
Lemma isNumeric_np L a : well_typed a -> fn_isNumeric L a <> Panic.
Proof. intros A. unfold fn_isNumeric. np. Qed.
Lemma isNull_np a b : fn_isNull a b <> Panic.
Proof. unfold fn_isNull. np. Qed.
Lemma len_np a : well_typed a -> fn_len a <> Panic.
Proof. intros A. unfold fn_len. np. Qed.
Lemma string_map_np f a : well_typed a -> fn_string_map f a <> Panic.
Proof. intros A. unfold fn_string_map. np. Qed.
Lemma replace_np L a b c d : well_typed a -> well_typed b -> well_typed c -> well_typed d -> fn_replace L a b c d <> Panic.
Proof. intros A B C D. unfold fn_replace. np. Qed.
Lemma sqrt_np L v : well_typed v -> fn_sqrt L v <> Panic.
Proof.
  intros W. acc W. unfold fn_sqrt. destruct (negb _); [discriminate|]. destruct (IsNull v); [discriminate|].
  apply np_bind; [|discriminate].
  destruct (ve_type v); try discriminate; try tauto; (apply np_bind; [tauto|intros; discriminate]).
Qed.
Lemma strCount_np L a b c : well_typed a -> well_typed b -> well_typed c -> fn_strCount L a b c <> Panic.
Proof. intros A B C. unfold fn_strCount. np. Qed.
Lemma strCmp_np L a b c : well_typed a -> well_typed b -> well_typed c -> fn_strCmp L a b c <> Panic.
Proof. intros A B C. unfold fn_strCmp. np. Qed.

(** ** Functions that can *)
Lemma fn_convert_panic L v t : well_typed v -> well_typed t -> fn_convert L v t = Panic ->
  (exists b, v = vBool b) \/ exists f, v = vDouble f /\ d_is_finite f = false.
Proof.
  intros W T. unfold fn_convert. destruct (negb (is_str t)) eqn:S; [discriminate|]. destruct (IsNull t); [discriminate|].
  intros E. apply bind_panic in E as [E|(s & _ & E)]; [exfalso; revert E; npf|].
  destruct (convert_type (ToUpper L s)); [|discriminate E]. apply Convert_panic in E; [|exact W].
  destruct E as [(b & -> & _)|(f & -> & F & _)]; eauto.
Qed.

(** A non-empty text is never looked for past the end. *)
Lemma nth_index_np n s t r : t <> [] -> nth_index_loop n s t r <> Panic.
Proof.
  intros T. revert s r. induction n as [|n IH]; intros s r; cbn [nth_index_loop]; [discriminate|].
  cbv zeta. destruct (Index s t =? -1) eqn:E; [discriminate|].
  apply np_bind; [|intros; apply IH].
  destruct (Index_spec s t) as [[E' _]|[O _]]; [lia|]. apply occurs_nonneg in O.
  assert (0 < len t) by (destruct t; [congruence|unfold len; cbn; lia]).
  unfold slice_from. destruct (_ || _) eqn:Q; [lia|discriminate].
Qed.
Lemma find_nth_np s t i : t <> [] -> findNthIndex s t i <> Panic.
Proof. intros T. unfold findNthIndex. apply np_bind; [apply nth_index_np, T|discriminate]. Qed.
Lemma encode_rune_nonempty r : encode_rune r <> [].
Proof.
  unfold encode_rune. repeat match goal with |- (if ?b then _ else _) <> _ => destruct b end; discriminate.
Qed.
Lemma decode_nonempty s : s <> [] -> decode s <> [].
Proof.
  destruct s as [|b0 s1]; [congruence|]. intros _. cbn [decode].
  repeat match goal with |- (if ?b then _ else _) <> _ => destruct b end; try discriminate;
    destruct s1 as [|b1 [|b2 [|b3 s4]]]; repeat match goal with |- (if ?b then _ else _) <> _ => destruct b end; discriminate.
Qed.
Lemma ToUpper_nonempty L s : s <> [] -> ToUpper L s <> [].
Proof.
  intros N. unfold ToUpper, encode_runes, runes_of. pose proof (decode_nonempty s N) as D.
  destruct (decode s) as [|[c b] l]; [congruence|]. cbn.
  pose proof (encode_rune_nonempty (rune_upper L c)). destruct (encode_rune (rune_upper L c)); [congruence|discriminate].
Qed.
Lemma fold_nonempty L b s : s <> [] -> fold_if L b s <> [].
Proof. destruct b; cbn; [apply ToUpper_nonempty|auto]. Qed.

(** A string value that reads as s. *)
Lemma stringValue_str v s : well_typed v -> is_str v = true -> IsNull v = false -> stringValue v = Ok s -> v = vStr s.
Proof.
  intros W T N E. apply vtype_eqb_spec in T. apply IsNull_false in N. vcases W N; try discriminate T.
  injection E as ->. reflexivity.
Qed.

Ltac rd E := let x := fresh "x" in let Hx := fresh "Hx" in
  apply bind_panic in E as [E|(x & Hx & E)]; [exfalso; revert E; npf|].

Lemma nthIndexOf_panic L a b c d : well_typed a -> well_typed b -> well_typed c -> well_typed d ->
  fn_nthIndexOf L a b c d = Panic -> b = vStr [].
Proof.
  intros A B C D E. unfold fn_nthIndexOf in E.
  repeat match type of E with (if ?x then _ else _) = _ => let Q := fresh "Q" in destruct x eqn:Q; [discriminate E|] end.
  is_strs. rd E. rd E. rd E. rd E.
  destruct x1 as [|y t].
  - eapply stringValue_str; eassumption.
  - exfalso. apply bind_panic in E as [E|(n & _ & E)]; [|discriminate].
    revert E. apply find_nth_np, fold_nonempty. discriminate.
Qed.

Lemma power_panic L a b : well_typed a -> well_typed b -> fn_power L a b = Panic ->
  bool_int32 a b.
Proof.
  intros A B E. unfold fn_power in E.
  destruct (negb (IsNumericType (ve_type a))) eqn:T1; [discriminate E|].
  destruct (negb (IsNumericType (ve_type b))) eqn:T2; [discriminate E|].
  destruct (IsNull a || IsNull b) eqn:N; [discriminate E|].
  apply orb_false_iff in N as [Na Nb]. apply IsNull_false in Na, Nb.
  assert (D : forall t, deriveArithmetic OMultiply (ve_type a) (ve_type b) = Ok t ->
    t <> VUndefined /\ (ve_type a = VBoolean -> t = VInt32 -> ve_type b = VInt32) /\ (t = VDecimal -> ve_type a <> VDouble)).
  { intros t D. destruct (ve_type a), (ve_type b); cbn in *; try discriminate; injection D as <-; repeat split; congruence. }
  apply bind_panic in E as [E|(t & Et & E)].
  { exfalso. destruct (ve_type a), (ve_type b); discriminate E. }
  specialize (D t Et) as (TU & D1 & D2).
  apply bind_panic in E as [E|(s & Es & E)].
  { apply Convert_panic in E; [|exact A]. apply convert_crash_type in E as [[E1 E2]|[E1 E2]].
    - split; [exact Na|]. split; [exact Nb|]. left. auto.
    - exfalso. apply D2; assumption. }
  assert (Ws : well_typed s) by (eapply wt_convert; [exact A|exact TU|exact Es]).
  assert (Ns : ~ null s) by (rewrite (Convert_null _ _ _ _ Es); [exact Na|apply A]).
  pose proof (Convert_type _ _ _ _ Es) as Ts.
  apply bind_panic in E as [E|(e & Ee & E)].
  { apply Convert_panic in E; [|exact Ws]. exfalso. apply convert_crash_type in E as [[E1 E2]|[E1 E2]]; congruence. }
  assert (We : well_typed e) by (eapply wt_convert; [exact Ws|exact TU|exact Ee]).
  pose proof (Convert_type _ _ _ _ Ee) as Te. acc Ws. acc We. rewrite Ts in *.
  destruct t; try discriminate E; try (exfalso; revert E; np_on).
  exfalso. vcases Ws Ns; try discriminate Ts. cbn in Ee. injection Ee as <-.
  unfold on2r in E. cbn -[decimal_pow] in E. destruct (decimal_pow_self x) as [r R]. rewrite R in E. discriminate E.
Qed.

Lemma regEx_panic L a b v : well_typed a -> well_typed b -> fn_regEx L a b v = Panic ->
  v = true /\ exists p f s lo hi, regex_find L p = Some f /\ f s = Some (lo, hi) /\ ~ (0 <= lo <= hi /\ hi <= len s).
Proof.
  intros A B E. unfold fn_regEx in E.
  destruct (negb (is_str a)) eqn:T1; [discriminate E|]. destruct (negb (is_str b)) eqn:T2; [discriminate E|].
  destruct (IsNull a || IsNull b); [discriminate E|]. is_strs. rd E.
  destruct (regex_find L x) as [f|] eqn:F; [|discriminate E]. rd E.
  destruct (f x0) as [[lo hi]|] eqn:M; [|discriminate E].
  destruct v; [|discriminate E]. split; [reflexivity|]. exists x, f, x0, lo, hi. split; [exact F|]. split; [exact M|].
  intros R. apply bind_panic in E as [E|(y & _ & E)]; [|discriminate E].
  unfold slice in E. destruct (_ || _) eqn:Q; [lia|discriminate E].
Qed.


Lemma integerValue_val v d n : well_typed v -> IsNull v = false -> integerValue v d = Ok n ->
  IsIntegerType (ve_type v) = true -> whole v n.
Proof.
  intros W N E T. apply IsNull_false in N. vcases W N; try discriminate T; cbn in E.
  - destruct x; injection E as <-; [apply (whole_bool true)|apply (whole_bool false)].
  - injection E as <-. apply whole_int, int_of_32, R.
  - injection E as <-. apply whole_int, int_of_64, R.
Qed.
Lemma subStr_panic a b c : well_typed a -> well_typed b -> well_typed c -> fn_subStr a b c = Panic ->
  exists s i n, a = vStr s /\ whole b i /\ whole c n /\ 0 <= i < len s /\ 2 ^ 63 <= i + n.
Proof.
  intros A B C E. unfold fn_subStr in E.
  repeat match type of E with (if ?x then _ else _) = _ => let Q := fresh "Q" in destruct x eqn:Q; [discriminate E|] end.
  is_strs. rd E. rd E.
  destruct ((x0 <? 0) || (len x <=? x0)) eqn:Q4; [discriminate E|].
  assert (R : (let* r := slice_from x x0 in NewValueExpression VString (GStr r)) <> Panic).
  { unfold slice_from. destruct ((x0 <? 0) || (len x <? x0)) eqn:Q5; [lia|discriminate]. }
  cbv zeta in E. destruct (IsNull c) eqn:NC; [contradiction|].
  apply bind_panic in E as [E|(n & Hn & E)]; [exfalso; revert E; npf|].
  destruct (n <=? 0) eqn:Q5; [discriminate E|].
  destruct (i64 (x0 + n) <? len x) eqn:Q6; [|contradiction].
  apply negb_false_iff in Q0, Q1.
  exists x, x0, n. split; [eapply stringValue_str; eassumption|].
  split; [eapply integerValue_val; eassumption|]. split; [eapply integerValue_val; eassumption|].
  split; [lia|].
  destruct (Z_lt_le_dec (x0 + n) (2 ^ 63)) as [L|L]; [|exact L].
  exfalso. assert (i64 (x0 + n) = x0 + n) as W.
  { unfold i64. rewrite Z.mod_small; lia. }
  rewrite W in *. apply bind_panic in E as [E|(y & _ & E)]; [|discriminate E].
  unfold slice in E. destruct ((x0 <? 0) || (x0 + n <? x0) || (len x <? x0 + n)) eqn:Q7; [lia|discriminate E].
Qed.

(** ** The n-th occurrence *)
Lemma nth_index_loop_spec n s t r ps : occurrences s t ps -> t <> [] ->
  nth_index_loop n s t r =
  match n with
  | O => Ok r
  | S k => Ok (if (S k <=? length ps)%nat then r + (nth k ps 0 + 1) else 0)
  end.
Proof.
  intros OC T. assert (LT : 0 < len t) by (destruct t; [congruence|unfold len; cbn; lia]).
  revert s r ps OC. induction n as [|n IH]; intros s r ps OC; [reflexivity|].
  cbn [nth_index_loop]. cbv zeta. destruct ps as [|p ps].
  - rewrite (occurrences_nil _ _ OC). reflexivity.
  - destruct (occurrences_cons _ _ _ _ OC) as (-> & B & R).
    destruct (Z.eqb_spec p (-1)); [lia|].
    assert (P : p + 1 <= len s).
    { assert (O : occurs_at s t p) by (apply OC; left; reflexivity). apply occurs_nonneg in O. lia. }
    unfold slice_from. destruct ((p + 1 <? 0) || (len s <? p + 1)) eqn:Q; [lia|]. cbn [bind].
    rewrite (IH _ _ _ (R P)). destruct n as [|k].
    + cbn [nth length Nat.leb]. reflexivity.
    + rewrite map_length. change (S (S k) <=? length (p :: ps))%nat with (S k <=? length ps)%nat. destruct (S k <=? length ps)%nat eqn:K; [|reflexivity].
      cbn [nth]. rewrite nth_map_lt by lia. f_equal. lia.
Qed.
Lemma nth_index_loop_empty n s r :
  nth_index_loop n s [] r = if len s <? Z.of_nat n then Panic else Ok (r + Z.of_nat n).
Proof.
  revert s r. induction n as [|n IH]; intros s r; cbn [nth_index_loop].
  - destruct (Z.ltb_spec (len s) (Z.of_nat 0)); [unfold len in *; lia|]. f_equal. lia.
  - assert (E : Index s [] = 0) by (destruct s; reflexivity). rewrite E. cbn [Z.eqb].
    unfold slice_from. destruct s as [|x s].
    + cbn -[Z.ltb Z.of_nat]. unfold len. cbn [length]. destruct (Z.ltb_spec (Z.of_nat 0) (Z.of_nat (S n))); [reflexivity|lia].
    + replace ((0 + 1 <? 0) || (len (x :: s) <? 0 + 1)) with false by (unfold len; cbn [length]; lia).
      change (Z.to_nat (0 + 1)) with 1%nat. cbn [bind skipn]. rewrite IH.
      unfold len. cbn [length].
      destruct (Z.ltb_spec (Z.of_nat (length s)) (Z.of_nat n)), (Z.ltb_spec (Z.of_nat (S (length s))) (Z.of_nat (S n))); try lia; [reflexivity|].
      f_equal. lia.
Qed.

(** findNthIndex: position of the (i+1)-th occurrence; -1 when there is none. *)
Definition nth_occurrence (ps : list Z) (i : Z) : Z :=
  if (0 <=? i) && (i <? len ps) then nth (Z.to_nat i) ps 0 else -1.
Lemma findNthIndex_spec s t i ps : occurrences s t ps -> t <> [] -> is_i64 i ->
  findNthIndex s t i = Ok (if i =? 2 ^ 63 - 1 then -1 else nth_occurrence ps i).
Proof.
  intros OC T I. unfold findNthIndex, is_i64 in *. rewrite (nth_index_loop_spec _ _ _ _ _ OC T). unfold nth_occurrence.
  destruct (Z.eqb_spec i (2 ^ 63 - 1)) as [-> |N].
  - reflexivity.
  - assert (W : i64 (i + 1) = i + 1) by (unfold i64; rewrite Z.mod_small; lia). rewrite W.
    destruct (Z.ltb_spec i 0).
    + replace (0 <=? i) with false by lia. replace (Z.to_nat (i + 1)) with 0%nat by lia. reflexivity.
    + replace (0 <=? i) with true by lia. replace (Z.to_nat (i + 1)) with (S (Z.to_nat i)) by lia. cbn [bind andb].
      destruct (Z.ltb_spec i (len ps)); unfold len in *.
      * replace (S (Z.to_nat i) <=? length ps)%nat with true by lia. f_equal. lia.
      * replace (S (Z.to_nat i) <=? length ps)%nat with false by lia. reflexivity.
Qed.

(** Splitting at a single byte stays inside the text. *)
Lemma split_np s d i : is_i64 i -> forall lo hi, splitNthIndex s [d] i = Ok (Some (lo, hi)) -> 0 <= lo <= hi /\ hi <= len s.
Proof.
  intros I lo hi. destruct (occurrences_exist s [d]) as (ps & OC). unfold splitNthIndex.
  rewrite (findNthIndex_spec s [d] _ ps OC) by (try discriminate; unfold i64, is_i64; pose proof (Z.mod_pos_bound (i - 1 + 2 ^ 63) (2 ^ 64)); lia).
  rewrite (findNthIndex_spec s [d] i ps OC) by (try discriminate; exact I). cbn [bind].
  assert (BP : forall k, (k < length ps)%nat -> 0 <= nth k ps 0 /\ nth k ps 0 + 1 <= len s).
  { intros k K. assert (In (nth k ps 0) ps) as H by (apply nth_In; exact K). apply OC, occurs_nonneg in H.
    unfold len in *. cbn in H. lia. }
  assert (LP : len ps <= len s).
  { assert (G : forall k, (k < length ps)%nat -> Z.of_nat k <= nth k ps 0).
    { destruct OC as [_ M]. induction k as [|k IH]; intros K; [apply BP; exact K|].
      specialize (M k (S k)). lia. }
    destruct (Nat.eq_dec (length ps) 0) as [E|E]; [unfold len; lia|].
    specialize (G (length ps - 1)%nat). specialize (BP (length ps - 1)%nat). unfold len in *. lia. }
  change (len [d]) with 1. unfold is_i64 in I.
  set (f := if i64 (i - 1) =? 2 ^ 63 - 1 then -1 else nth_occurrence ps (i64 (i - 1))).
  set (g := if i =? 2 ^ 63 - 1 then -1 else nth_occurrence ps i).
  assert (F : f = -1 \/ (1 <= i <= len ps /\ f = nth (Z.to_nat (i - 1)) ps 0)).
  { unfold f, nth_occurrence. destruct (Z.eq_dec i (- 2 ^ 63)) as [-> |N]; [auto|].
    assert (W : i64 (i - 1) = i - 1) by (unfold i64; rewrite Z.mod_small; lia). rewrite W.
    destruct (i - 1 =? 2 ^ 63 - 1); [auto|]. destruct ((0 <=? i - 1) && (i - 1 <? len ps)) eqn:Q; [right|auto]. split; [lia|reflexivity]. }
  assert (G : g = -1 \/ (0 <= i < len ps /\ g = nth (Z.to_nat i) ps 0)).
  { unfold g, nth_occurrence. destruct (i =? 2 ^ 63 - 1); [auto|].
    destruct ((0 <=? i) && (i <? len ps)) eqn:Q; [right|auto]. split; [lia|reflexivity]. }
  clearbody f g. intros E. injection E as E.
  assert (f = -1 \/ g = -1 \/ f + 1 <= g).
  { destruct F as [F|[F1 F2]]; [auto|]. destruct G as [G|[G1 G2]]; [auto|]. right; right.
    destruct OC as [_ M]. specialize (M (Z.to_nat (i - 1)) (Z.to_nat i)). unfold len in *. lia. }
  assert (f <= len s - 1 /\ g <= len s - 1).
  { destruct F as [F|[F1 F2]], G as [G|[G1 G2]]; subst; unfold len in *;
      repeat match goal with |- context [nth ?k ps 0] => pose proof (BP k ltac:(lia)); generalize dependent (nth k ps 0); intros end; lia. }
  destruct ((f <=? 0) && (g <=? 0)) eqn:Q1; [discriminate|].
  destruct (f <=? 0) eqn:Q2; [injection E as <- <-; lia|].
  destruct (g <=? 0) eqn:Q3; injection E as <- <-; lia.
Qed.

Lemma split_panic L a b c : well_typed a -> well_typed b -> well_typed c ->
  fn_split L a b c (NullValue VBoolean) = Panic -> exists d, b = vStr d /\ len d <> 1.
Proof.
  intros A B C E. unfold fn_split in E.
  repeat match type of E with (if ?x then _ else _) = _ => let Q := fresh "Q" in destruct x eqn:Q; [discriminate E|] end.
  is_strs. change (ignore_case L (NullValue VBoolean)) with (Ok false) in E. cbn [bind fold_if] in E.
  rd E. rd E. rd E.
  exists x1. split; [eapply stringValue_str; eassumption|]. intros D.
  destruct x1 as [|d [|d' x1]]; unfold len in D; cbn in D; try lia.
  apply bind_panic in E as [E|([[lo hi]|] & Hr & E)]; [| |discriminate E].
  - revert E. unfold splitNthIndex. apply np_bind; [apply find_nth_np; discriminate|].
    intros f _. apply np_bind; [apply find_nth_np; discriminate|discriminate].
  - apply bind_panic in E as [E|(y & _ & E)]; [|discriminate E].
    apply split_np in Hr; [|eapply integerValue_range; [exact C| |exact Hx]; unfold is_i64; lia].
    unfold slice in E. destruct ((lo <? 0) || (hi <? lo) || (len x0 <? hi)) eqn:QQ; [lia|discriminate E].
Qed.

(** ** Loops over arguments *)
Definition loop_op (L : lib) (op : ve -> ve -> vtype -> res ve) : Prop :=
  op = greaterThanOp L \/ op = lessThanOp L \/ exists x, op = fun l r t => equalOp L l r t x.
Lemma loop_op_panic L op l r t : loop_op L op -> well_typed l -> well_typed r -> t <> VUndefined ->
  op l r t = Panic -> ~ null l /\ ~ null r /\ (convert_crash l t \/ convert_crash r t).
Proof.
  intros O Wl Wr T E.
  assert (K : exists k, withOperands L l r t k = Panic /\
    forall a b, well_typed a -> well_typed b -> ve_type a = t -> ve_type b = t -> k a b <> Panic).
  { destruct O as [-> |[-> |(x & ->)]]; unfold greaterThanOp, lessThanOp, equalOp in E; eexists; (split; [exact E|]);
    clear E; intros a b Wa Wb Ta Tb; cbn beta; acc Wa; acc Wb; destruct t; try discriminate; np_on. }
  destruct K as (k & K1 & K2). apply operands_panic in K1; [|assumption..].
  destruct K1 as (A & B & C). split; [exact A|]. split; [exact B|].
  destruct C as [C|[(_ & _ & C)|(l' & r' & C1 & C2 & C3)]]; [auto|auto|].
  exfalso. revert C3. apply K2.
  - eapply wt_convert; [exact Wl|exact T|exact C1].
  - eapply wt_convert; [exact Wr|exact T|exact C2].
  - eapply Convert_type; eassumption.
  - eapply Convert_type; eassumption.
Qed.
Lemma loop_op_bool L op l r t v : loop_op L op -> op l r t = Ok v -> null v \/ exists b, v = vBool b.
Proof.
  intros O E. assert (K : exists k, withOperands L l r t k = Ok v /\ forall a b w, k a b = Ok w -> exists c, w = vBool c).
  { destruct O as [-> |[-> |(x & ->)]]; unfold greaterThanOp, lessThanOp, equalOp in E; eexists; (split; [exact E|]);
    clear E; intros a b w K; cbn beta in K; unfold on2 in K; destruct t; try discriminate K;
    repeat match type of K with bind ?y _ = Ok _ => destruct y; cbn [bind] in K; try discriminate K end;
    cbn in K; injection K as <-; eexists; reflexivity. }
  destruct K as (k & K1 & K2). unfold withOperands in K1.
  destruct (IsNull l || IsNull r); [injection K1 as <-; left; reflexivity|].
  destruct (Convert L l t); cbn [bind] in K1; try discriminate K1.
  destruct (Convert L r t); cbn [bind] in K1; try discriminate K1. right. eapply K2, K1.
Qed.
Lemma loop_op_read L op l r t v : loop_op L op -> op l r t = Ok v -> booleanValue v <> Panic.
Proof.
  intros O E. apply (loop_op_bool L) in E as [N|(b & ->)]; [|discriminate|exact O].
  unfold booleanValue. rewrite N. discriminate.
Qed.

Lemma comparison_mixed a b t : deriveComparison a b = Ok t ->
  (a = VBoolean -> t = VInt32 -> b = VInt32) /\ (b = VBoolean -> t = VInt32 -> a = VInt32) /\
  (t = VDecimal -> a <> VDouble /\ b <> VDouble).
Proof. destruct a, b; cbn; intros E; try discriminate E; injection E as <-; repeat split; congruence. Qed.
Lemma loop_op_mixed L op l r a b t : loop_op L op -> well_typed l -> well_typed r -> t <> VUndefined ->
  (a = l /\ b = r \/ a = r /\ b = l) -> deriveComparison (ve_type a) (ve_type b) = Ok t -> op l r t = Panic -> bool_int32 l r.
Proof.
  intros O Wl Wr T AB D E. destruct (loop_op_panic _ _ _ _ _ O Wl Wr T E) as (Nl & Nr & C).
  split; [exact Nl|]. split; [exact Nr|]. destruct (comparison_mixed _ _ _ D) as (D1 & D2 & D3).
  destruct AB as [[-> ->]|[-> ->]]; destruct C as [C|C]; apply convert_crash_type in C as [[C1 C2]|[C1 C2]]; auto;
    destruct (D3 C2); contradiction.
Qed.
Lemma comparison_defined a b t : a <> VUndefined -> b <> VUndefined -> deriveComparison a b = Ok t -> t <> VUndefined.
Proof. intros A B E ->. destruct a, b; cbn in E; congruence. Qed.
Lemma comparison_np a b : deriveComparison a b <> Panic.
Proof. destruct a, b; discriminate. Qed.

Section Whole.
  Variables (L : lib) (row : option row_reader).
  Hypothesis RO : row_ok row.
  Definition thunk (a : expr) : arg := fun t => evaluateAs L row a t.
  (** An argument whose crashes are accounted for. *)
  Definition arg_ok (a : expr) : Prop :=
    literals_ok a /\ forall t, evaluateAs L row a t = Panic -> exists x, subexpr x a /\ crashes L row x.
  Lemma arg_wt a t v : arg_ok a -> t <> VUndefined -> evaluateAs L row a t = Ok v -> well_typed v.
  Proof. intros [LO _] T. eapply wt_evaluateAs; eauto. Qed.
  Lemma as_Evaluate e t v : evaluateAs L row e t = Ok v -> ~ null v -> Evaluate L row e = Ok v.
  Proof.
    unfold Evaluate. destruct e; cbn [evaluateAs]; auto.
    - intros H N. injection H as <-. exfalso; apply N; reflexivity.
    - destruct (vtype_eqb (ve_type v0) VUndefined); auto.
      intros H N. injection H as <-. exfalso; apply N; reflexivity.
  Qed.

  Definition arg_crash (args : list expr) : Prop := exists a x, In a args /\ subexpr x a /\ crashes L row x.

  Lemma extreme_panic op all args test y : loop_op L op -> Forall arg_ok all -> incl args all -> In y all ->
    Evaluate L row y = Ok test -> extreme_rest op test (map thunk args) = Panic ->
    arg_crash all \/ exists x y a b, In x all /\ In y all /\ Evaluate L row x = Ok a /\ Evaluate L row y = Ok b /\ bool_int32 a b.
  Proof.
    intros O AO. revert test y. induction args as [|a args IH]; intros test y I Hy Ey E; cbn [map extreme_rest] in E; [discriminate E|].
    assert (Ia : In a all) by (apply I; left; reflexivity).
    assert (OA : arg_ok a) by (eapply List.Forall_forall in AO; eauto).
    assert (OY : arg_ok y) by (eapply List.Forall_forall in AO; eauto).
    assert (Wt : well_typed test) by (eapply (arg_wt y VBoolean); [exact OY|discriminate|exact Ey]).
    apply bind_panic in E as [E|(next & En & E)].
    { left. destruct (proj2 OA _ E) as (x & Sx & Cx). exists a, x. auto. }
    assert (Wn : well_typed next) by (eapply (arg_wt a VBoolean); [exact OA|discriminate|exact En]).
    apply bind_panic in E as [E|(t & Et & E)]; [exfalso; revert E; apply comparison_np|].
    assert (T : t <> VUndefined) by (eapply comparison_defined; [apply Wt|apply Wn|exact Et]).
    apply bind_panic in E as [E|(r & Er & E)].
    { right. exists a, y, next, test. do 4 (split; [assumption|]). eapply loop_op_mixed; [exact O|exact Wn|exact Wt|exact T| |exact Et|exact E]. auto. }
    apply bind_panic in E as [E|(b & Eb & E)]; [exfalso; revert E; eapply loop_op_read; eassumption|].
    destruct (b || (IsNull test && negb (IsNull next))).
    - eapply IH; [| | |exact E]; [|exact Ia|exact En]. intros z Hz. apply I. right. exact Hz.
    - eapply IH; [| | |exact E]; [|exact Hy|exact Ey]. intros z Hz. apply I. right. exact Hz.
  Qed.

  Lemma in_list_panic e v args n m : arg_ok e -> Forall arg_ok args -> Evaluate L row e = Ok v ->
    in_list L v (map thunk args) n m = Panic ->
    arg_crash args \/ exists x b, In x args /\ Evaluate L row x = Ok b /\ bool_int32 v b.
  Proof.
    intros OE AO Ev. assert (Wv : well_typed v) by (eapply (arg_wt e VBoolean); [exact OE|discriminate|exact Ev]).
    induction AO as [|a args OA AO IH]; intros E; cbn [map in_list] in E; [discriminate E|].
    assert (KEEP : arg_crash args \/ (exists x b, In x args /\ Evaluate L row x = Ok b /\ bool_int32 v b) ->
      arg_crash (a :: args) \/ (exists x b, In x (a :: args) /\ Evaluate L row x = Ok b /\ bool_int32 v b)).
    { intros [(y & x & I & H)|(x & b & I & H)]; [left; exists y, x|right; exists x, b]; split; auto; right; exact I. }
    apply bind_panic in E as [E|(w & Ew & E)].
    { left. destruct (proj2 OA _ E) as (x & Sx & Cx). exists a, x. split; [left; reflexivity|auto]. }
    assert (Ww : well_typed w) by (eapply (arg_wt a VBoolean); [exact OA|discriminate|exact Ew]).
    apply bind_panic in E as [E|(t & Et & E)]; [exfalso; revert E; apply comparison_np|].
    assert (T : t <> VUndefined) by (eapply comparison_defined; [apply Wv|apply Ww|exact Et]).
    assert (O : loop_op L (fun l r t => equalOp L l r t m)) by (right; right; exists m; reflexivity).
    apply bind_panic in E as [E|(r & Er & E)].
    { right. exists a, w. split; [left; reflexivity|]. split; [exact Ew|].
      eapply (loop_op_mixed L (fun l r t => equalOp L l r t m)); [exact O|exact Wv|exact Ww|exact T| |exact Et|exact E]. auto. }
    apply bind_panic in E as [E|(b & Eb & E)]; [exfalso; revert E; eapply (loop_op_read L (fun l r t => equalOp L l r t m)); [exact O|exact Er]|].
    destruct b; [discriminate E|]. apply KEEP, IH, E.
  Qed.

  Lemma coalesce_panic args v : Forall arg_ok args -> coalesce_rest v (map thunk args) = Panic -> arg_crash args.
  Proof.
    induction 1 as [|a args OA AO IH]; intros E; cbn [map coalesce_rest] in E; [discriminate E|].
    apply bind_panic in E as [E|(w & Ew & E)].
    - destruct (proj2 OA _ E) as (x & Sx & Cx). exists a, x. split; [left; reflexivity|auto].
    - destruct (negb (IsNull w)); [discriminate E|]. destruct (IH E) as (y & x & I & H). exists y, x. split; [right; exact I|exact H].
  Qed.

  (** One more argument is evaluated. *)
  Lemma arg_step {B} a t (k : ve -> res B) args : In a args -> Forall arg_ok args -> t <> VUndefined ->
    bind (thunk a t) k = Panic ->
    arg_crash args \/ exists v, evaluateAs L row a t = Ok v /\ well_typed v /\ k v = Panic.
  Proof.
    intros I AO T E. assert (OA : arg_ok a) by (eapply List.Forall_forall in AO; eauto).
    apply bind_panic in E as [E|(v & Ev & E)].
    - left. destruct (proj2 OA _ E) as (x & Sx & Cx). exists a, x. auto.
    - right. exists v. split; [exact Ev|]. split; [eapply arg_wt; eauto|exact E].
  Qed.

  Ltac step E AO :=
    match type of E with
    | bind (thunk ?a ?t) ?k = Panic =>
      let H := fresh "H" in
      pose proof (fun I => arg_step a t k _ I AO ltac:(discriminate) E) as H; clear E;
      specialize (H ltac:(cbn [In]; tauto));
      let v := fresh "v" in let Ev := fresh "Ev" in let Wv := fresh "Wv" in
      destruct H as [H|(v & Ev & Wv & E)]; [left; exact H|]; cbn beta in E
    end.
  Ltac arity args E :=
    destruct args as [|?a [|?a [|?a [|?a [|?a args]]]]]; cbn [map] in E; cbv zeta iota in E; try discriminate E.
  Ltac nopanic E := exfalso; revert E;
    first [apply abs_np|apply integral_np|apply string_test_np|apply dateAdd_np|apply dateDiff_np|apply datePart_np
          |apply string_find_np|apply isDate_np|apply isInteger_np|apply isGuid_np|apply isNumeric_np|apply isNull_np
          |apply len_np|apply string_map_np|apply replace_np|apply sqrt_np|apply strCount_np|apply strCmp_np];
    first [assumption|apply wt_null; discriminate].

  Lemma function_panic f args : Forall arg_ok args -> evaluateFunction L f (map thunk args) = Panic ->
    arg_crash args \/ crashes L row (EFunction f args).
  Proof.
    intros AO E. unfold evaluateFunction in E.
    destruct f; cbv beta zeta iota in E; try solve [arity args E; repeat step E AO; nopanic E].
    - (* Coalesce *)
      destruct args as [|a args]; [discriminate E|].
      destruct (length (map thunk (a :: args)) <? 2)%nat; [discriminate E|]. left. inversion AO as [|? ? OA AO']; subst.
      cbn [map fn_coalesce] in E. apply bind_panic in E as [E|(v & Ev & E)].
      + destruct (proj2 OA _ E) as (x & Sx & Cx). exists a, x. split; [left; reflexivity|auto].
      + destruct (negb (IsNull v)); [discriminate E|]. destruct (coalesce_panic _ _ AO' E) as (y & x & I & H).
        exists y, x. split; [right; exact I|exact H].
    - (* Convert *)
      arity args E. repeat step E AO. right.
      apply fn_convert_panic in E as [(b & ->)|(g & -> & G)]; [| |assumption..].
      + eapply crash_convert_bool. eapply as_Evaluate; [exact Ev|discriminate].
      + eapply crash_convert_double; [eapply as_Evaluate; [exact Ev|discriminate]|exact G].
    - (* IIf *)
      arity args E. step E AO. unfold fn_iif in E.
      destruct (negb (vtype_eqb (ve_type v) VBoolean)) eqn:T; [discriminate E|]. apply negb_false_iff, vtype_eqb_spec in T.
      acc Wv. apply bind_panic in E as [E|(b & Eb & E)]; [exfalso; tauto|].
      assert (K : forall t (k : expr), In k [a; a0; a1] -> thunk k t = Panic -> arg_crash [a; a0; a1]).
      { intros t k I P. eapply List.Forall_forall in AO; [|exact I]. destruct (proj2 AO _ P) as (x & Sx & Cx). exists k, x. auto. }
      left. destruct b; (eapply K; [|exact E]); cbn; tauto.
    - (* MaxOf *)
      destruct args as [|a args]; [discriminate E|].
      destruct (length (map thunk (a :: args)) <? 2)%nat; [discriminate E|]. cbn [map fn_extreme] in E.
      step E AO.
      assert (EV : Evaluate L row a = Ok v) by exact Ev.
      destruct (extreme_panic (greaterThanOp L) (a :: args) args v a ltac:(left; reflexivity) AO ltac:(intros z Hz; right; exact Hz) ltac:(left; reflexivity) EV E)
        as [C|(x & y & p & q & Ix & Iy & Ex & Ey & M)]; [left; exact C|right]. apply (crash_extreme L row _ _ x y p q); auto.
    - (* MinOf *)
      destruct args as [|a args]; [discriminate E|].
      destruct (length (map thunk (a :: args)) <? 2)%nat; [discriminate E|]. cbn [map fn_extreme] in E.
      step E AO.
      assert (EV : Evaluate L row a = Ok v) by exact Ev.
      destruct (extreme_panic (lessThanOp L) (a :: args) args v a ltac:(right; left; reflexivity) AO ltac:(intros z Hz; right; exact Hz) ltac:(left; reflexivity) EV E)
        as [C|(x & y & p & q & Ix & Iy & Ex & Ey & M)]; [left; exact C|right]. apply (crash_extreme L row _ _ x y p q); auto.
    - (* NthIndexOf *)
      arity args E; repeat step E AO; right; (apply nthIndexOf_panic in E; [|first [assumption|apply wt_null; discriminate]..]); subst;
        apply crash_nth_index; (eapply as_Evaluate; [eassumption|discriminate]).
    - (* Power *)
      arity args E. repeat step E AO. right. apply power_panic in E as M; [|assumption..].
      eapply crash_power_mixed; [| |exact M]; (eapply as_Evaluate; [eassumption|]); apply M.
    - (* RegExMatch *)
      arity args E. repeat step E AO. apply regEx_panic in E as [E _]; [discriminate E|assumption..].
    - (* RegExVal *)
      arity args E. repeat step E AO. right. apply regEx_panic in E as (_ & p & f & s & lo & hi & E1 & E2 & E3); [|assumption..].
      eapply crash_regex; eassumption.
    - (* Split *)
      arity args E; repeat step E AO; right.
      + apply split_panic in E as (d & -> & D); [|assumption..]. eapply crash_split; [|exact D]. eapply as_Evaluate; [eassumption|discriminate].
      + apply crash_split_case.
    - (* SubStr *)
      arity args E; repeat step E AO; right.
      + apply subStr_panic in E as (s & i & n & -> & Wb & Wn & B1 & B2); [|first [assumption|apply wt_null; discriminate]..].
        exfalso. inversion Wn as [|? ? K]; inversion K.
      + apply subStr_panic in E as (s & i & n & -> & Wb & Wn & B1 & B2); [|assumption..].
        eapply crash_substr; [eapply as_Evaluate; [eassumption|discriminate]| | |exact Wb|exact Wn|exact B1|exact B2];
          (eapply as_Evaluate; [eassumption|]).
        * inversion Wb as [|? ? K]; [discriminate|inversion K; discriminate].
        * inversion Wn as [|? ? K]; [discriminate|inversion K; discriminate].
  Qed.

  (** C48: whatever panics inside an expression is one of the listed operations. *)
  Lemma evaluate_panic e : literals_ok e -> forall t, evaluateAs L row e t = Panic -> exists x, subexpr x e /\ crashes L row x.
  Proof.
    induction e using expr_ind'; intros LO t E; cbn [evaluateAs] in E; try discriminate E.
    - (* unary *)
      apply bind_panic in E as [E|(v & Ev & E)].
      + destruct (IHe (literals_sub _ _ (sub_unary _ u _ (sub_here _)) LO) _ E) as (x & S & C). exists x. split; [apply sub_unary, S|exact C].
      + exfalso. revert E. apply unary_np. eapply wt_evaluateAs; [exact RO| | |exact Ev]; [|discriminate].
        eapply literals_sub; [|exact LO]. apply sub_unary, sub_here.
    - (* column *)
      exfalso. unfold evaluateColumn in E. destruct row as [get|]; [|discriminate E]. destruct c as [c|]; [|discriminate E].
      destruct (RO get eq_refl (col_index c) (col_type c)) as [NP CO].
      apply bind_panic in E as [E|(v & Ev & E)]; [contradiction|]. destruct v as [x|]; [|discriminate E].
      specialize (CO x Ev). destruct x, (col_type c); cbn in CO; try contradiction; cbn in E; try discriminate E.
      destruct (_ <? n) in E; discriminate E.
    - (* IN *)
      assert (LE : literals_ok e) by (eapply literals_sub; [|exact LO]; apply sub_in_value, sub_here).
      assert (OE : arg_ok e) by (split; [exact LE|apply IHe, LE]).
      assert (AO : Forall arg_ok args).
      { apply List.Forall_forall. intros a Ia. assert (LA : literals_ok a) by (eapply literals_sub; [|exact LO]; eapply sub_in_arg; [exact Ia|apply sub_here]).
        split; [exact LA|]. eapply List.Forall_forall in H; [|exact Ia]. apply H, LA. }
      apply bind_panic in E as [E|(v & Ev & E)].
      + destruct (IHe LE _ E) as (x & S & C). exists x. split; [apply sub_in_value, S|exact C].
      + destruct (IsNull v); [discriminate E|].
        destruct (in_list_panic e v args n m OE AO Ev E) as [(a & x & Ia & S & C)|(x & b & Ix & Ex & M)].
        * exists x. split; [eapply sub_in_arg; eassumption|exact C].
        * eexists. split; [apply sub_here|]. eapply crash_in; eauto.
    - (* function *)
      assert (AO : Forall arg_ok args).
      { apply List.Forall_forall. intros a Ia. assert (LA : literals_ok a) by (eapply literals_sub; [|exact LO]; eapply sub_arg; [exact Ia|apply sub_here]).
        split; [exact LA|]. eapply List.Forall_forall in H; [|exact Ia]. apply H, LA. }
      destruct (function_panic f args AO E) as [(a & x & Ia & S & C)|C].
      + exists x. split; [eapply sub_arg; eassumption|exact C].
      + eexists. split; [apply sub_here|exact C].
    - (* operator *)
      assert (L1 : literals_ok e1) by (eapply literals_sub; [|exact LO]; apply sub_left, sub_here).
      assert (L2 : literals_ok e2) by (eapply literals_sub; [|exact LO]; apply sub_right, sub_here).
      apply bind_panic in E as [E|(a & Ea & E)].
      { destruct (IHe1 L1 _ E) as (x & S & C). exists x. split; [apply sub_left, S|exact C]. }
      apply bind_panic in E as [E|(b & Eb & E)].
      { destruct (IHe2 L2 _ E) as (x & S & C). exists x. split; [apply sub_right, S|exact C]. }
      eexists. split; [apply sub_here|]. apply operator_panic in E.
      + destruct E as [[O M]|D]; [eapply crash_mixed; eauto|eapply crash_zero; eauto].
      + eapply wt_evaluateAs; [exact RO|exact L1| |exact Ea]; discriminate.
      + eapply wt_evaluateAs; [exact RO|exact L2| |exact Eb]; discriminate.
  Qed.
End Whole.
