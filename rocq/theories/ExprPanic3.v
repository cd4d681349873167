(** Exactly when a function panics (C48). *)
From Coq Require Import Lia ZifyBool ZifyNat String.
From Verif Require Import Base BaseProofs GuidModel GuidSpec FormatModel StrModel CalModel NumModel ExprModel ExprSpec ExprProofs ExprPanic StrProofs ExprPanic2 PanicSpec PowProofs.
Open Scope list_scope.
Open Scope Z_scope.

(** ** The optional flag *)
Lemma ignore_caseless L v b : well_typed v -> (ignore_case L v = Ok b <-> caseless L [v] b).
Proof.
  intros W. unfold ignore_case. destruct (IsNull v) eqn:N.
  - pose proof N as N'. apply IsNull_spec in N. unfold Convert. rewrite N'. cbn. split.
    + intros E. injection E as <-. apply caseless_null, N.
    + inversion 1; subst; [reflexivity|contradiction].
  - apply IsNull_false in N. split.
    + intros E. destruct (Convert L v VBoolean) as [w| |] eqn:C; cbn in E; try discriminate E.
      apply caseless_given; [exact N|]. rewrite C.
      assert (Ww : well_typed w) by (eapply wt_convert; [exact W| |exact C]; discriminate).
      assert (Nw : ~ null w) by (rewrite (Convert_null _ _ _ _ C); [exact N|apply W]).
      pose proof (Convert_type _ _ _ _ C) as T. vcases Ww Nw; try discriminate T. injection E as <-. reflexivity.
    + inversion 1; subst; [contradiction|]. match goal with H : Convert _ _ _ = _ |- _ => rewrite H end. reflexivity.
Qed.
Definition opt (o : list ve) : ve := match o with [v] => v | _ => NullValue VBoolean end.
Lemma ignore_opt L o b : (o = [] \/ exists v, o = [v] /\ well_typed v) -> (ignore_case L (opt o) = Ok b <-> caseless L o b).
Proof.
  intros [->|(v & -> & W)].
  - cbn. split; [intros E; injection E as <-; constructor|inversion 1; reflexivity].
  - apply ignore_caseless, W.
Qed.

(** ** Convert *)
Lemma convert_named U n t : In (n, t) [(lit "INT32", VInt32); (lit "DECIMAL", VDecimal)] ->
  (convert_type U = Some t <-> U = n \/ U = lit "SYSTEM." ++ n).
Proof.
  intros Hn.
  assert (K : forall name,
    (match find (fun p => str_eqb name (fst p)) vtype_names with
     | Some (_, VUndefined) => None
     | Some (_, u) => Some u
     | None =>
       if str_eqb name (lit "SINGLE") || HasPrefix name (lit "FLOAT") then Some VDouble
       else if str_eqb name (lit "BOOL") then Some VBoolean
       else if HasPrefix name (lit "INT") || HasPrefix name (lit "UINT") then Some VInt64
       else if str_eqb name (lit "DATE") || str_eqb name (lit "TIME") then Some VDateTime
       else if str_eqb name (lit "UUID") then Some VGuid
       else None
     end = Some t <-> name = n)).
  { intros name. unfold vtype_names. cbn [find fst].
    repeat match goal with |- context [str_eqb ?nm ?x] => is_var nm;
      let E := fresh "E" in destruct (str_eqb nm x) eqn:E; [apply str_eqb_spec in E; subst nm|] end.
    all: cbn [orb].
    all: repeat match goal with |- context [HasPrefix ?nm ?x] => is_var nm; destruct (HasPrefix nm x) eqn:? end; cbn [orb].
    all: destruct Hn as [H|[H|[]]]; injection H as <- <-; split; intros H; try discriminate H; try reflexivity; try (vm_compute in H; discriminate H); subst;
      match goal with E : str_eqb _ _ = false |- _ => vm_compute in E; discriminate E end. }
  unfold convert_type. destruct (HasPrefix U (lit "SYSTEM.") && (7 <? len U)) eqn:P.
  - apply andb_true_iff in P as [P _]. apply HasPrefix_spec in P as (v & ->).
    rewrite K. change (skipn 7 (lit "SYSTEM." ++ v)) with v. split.
    + intros ->. right. reflexivity.
    + intros [E|E]; [destruct Hn as [H|[H|[]]]; injection H as <- <-; discriminate E|]. apply app_inv_head in E. exact E.
  - rewrite K. split; [auto|]. intros [E|E]; [exact E|]. subst U. exfalso.
    destruct Hn as [H|[H|[]]]; injection H as <- <-; discriminate P.
Qed.
Lemma fn_convert_iff L v t : well_typed v -> well_typed t ->
  (fn_convert L v t = Panic <-> function_crash L FConvert [v; t]).
Proof.
  intros W T. unfold fn_convert. split.
  - destruct (negb (is_str t)) eqn:TT; [discriminate|]. apply negb_false_iff in TT. destruct (IsNull t) eqn:N; [discriminate|].
    intros E. apply bind_panic in E as [E|(s & Es & E)]; [exfalso; revert E; npf|].
    pose proof (stringValue_str t s T TT N Es). subst t.
    destruct (convert_type (ToUpper L s)) as [u|] eqn:C; [|discriminate E]. apply Convert_panic in E; [|exact W].
    destruct E as [(b & -> & ->)|(f & -> & F & ->)].
    + apply fc_convert_bool. unfold names. apply (convert_named _ (lit "INT32") VInt32); [cbn; auto|exact C].
    + apply fc_convert_double; [exact F|]. unfold names. apply (convert_named _ (lit "DECIMAL") VDecimal); [cbn; auto|exact C].
  - inversion 1 as [b s N|g s F N| | | | | |f before next after u O]; subst.
    + cbn -[Convert convert_type]. assert (convert_type (ToUpper L s) = Some VInt32) as -> by (apply (convert_named _ (lit "INT32") VInt32); [cbn; auto|exact N]).
      apply Convert_panic; [exact W|]. left. eauto.
    + cbn -[Convert convert_type]. assert (convert_type (ToUpper L s) = Some VDecimal) as -> by (apply (convert_named _ (lit "DECIMAL") VDecimal); [cbn; auto|exact N]).
      apply Convert_panic; [exact W|]. right. eauto.
    + destruct O; discriminate.
Qed.

(** ** Power *)
Lemma power_iff L a b : well_typed a -> well_typed b -> (fn_power L a b = Panic <-> function_crash L FPower [a; b]).
Proof.
  intros A B. split.
  - intros E. unfold fn_power in E.
    destruct (negb (IsNumericType (ve_type a))) eqn:T1; [discriminate E|].
    destruct (negb (IsNumericType (ve_type b))) eqn:T2; [discriminate E|].
    destruct (IsNull a || IsNull b) eqn:N; [discriminate E|].
    apply orb_false_iff in N as [Na Nb]. apply IsNull_false in Na, Nb.
    assert (M : numeric (ve_type a) /\ numeric (ve_type b)).
    { unfold numeric. destruct (ve_type a); try discriminate T1; destruct (ve_type b); try discriminate T2; cbn; lia. }
    assert (D : forall t, deriveArithmetic OMultiply (ve_type a) (ve_type b) = Ok t ->
      t <> VUndefined /\ (ve_type a = VBoolean -> t = VInt32 -> ve_type b = VInt32) /\ (t = VDecimal -> ve_type a <> VDouble) /\
      wider (ve_type a) (ve_type b) t).
    { intros t D. unfold wider. destruct (ve_type a), (ve_type b); cbn in *; try discriminate; injection D as <-; cbn; repeat split; try congruence; auto; lia. }
    apply bind_panic in E as [E|(t & Et & E)].
    { exfalso. destruct (ve_type a), (ve_type b); discriminate E. }
    specialize (D t Et) as (TU & D1 & D2 & D3).
    apply bind_panic in E as [E|(s & Es & E)].
    { apply Convert_panic in E; [|exact A]. destruct E as [(x & -> & ->)|(x & -> & _ & ->)].
      - cbn in D1. specialize (D1 eq_refl eq_refl). vcases B Nb; try discriminate D1. apply fc_power_mixed.
      - exfalso. apply D2; reflexivity. }
    assert (Ws : well_typed s) by (eapply wt_convert; [exact A|exact TU|exact Es]).
    assert (Ns : ~ null s) by (rewrite (Convert_null _ _ _ _ Es); [exact Na|apply A]).
    pose proof (Convert_type _ _ _ _ Es) as Ts.
    apply bind_panic in E as [E|(e & Ee & E)].
    { apply Convert_panic in E; [|exact Ws]. exfalso. apply convert_crash_type in E as [[E1 E2]|[E1 E2]]; congruence. }
    assert (We : well_typed e) by (eapply wt_convert; [exact Ws|exact TU|exact Ee]).
    pose proof (Convert_type _ _ _ _ Ee) as Te. acc Ws. acc We. rewrite Ts in *.
    destruct t; try discriminate E; try (exfalso; revert E; np_on).
    vcases Ws Ns; try discriminate Ts. cbn in Ee. injection Ee as <-.
    unfold on2r in E. cbn -[decimal_pow] in E. destruct (decimal_pow_self x) as [r R]. rewrite R in E. discriminate E.
  - inversion 1 as [ | |x n| | | | |f before next after u O]; subst.
    + destruct x; reflexivity.
    + destruct O; discriminate.
Qed.

(** ** NthIndexOf *)
Lemma findNth_empty s i : is_i64 i -> len s < 2 ^ 60 ->
  findNthIndex s [] i = if i =? 2 ^ 63 - 1 then Ok (-1) else if i <? 0 then Ok (-1) else if len s <=? i then Panic else Ok i.
Proof.
  intros I H. unfold findNthIndex. rewrite nth_index_loop_empty. unfold is_i64 in I.
  destruct (Z.eqb_spec i (2 ^ 63 - 1)) as [-> |N].
  - change (i64 (2 ^ 63 - 1 + 1)) with (- 2 ^ 63). change (Z.of_nat (Z.to_nat (- 2 ^ 63))) with 0.
    destruct (Z.ltb_spec (len s) 0); [unfold len in *; lia|reflexivity].
  - assert (W : i64 (i + 1) = i + 1) by (unfold i64; rewrite Z.mod_small; lia). rewrite W.
    destruct (Z.ltb_spec i 0).
    + replace (Z.of_nat (Z.to_nat (i + 1))) with 0 by lia.
      destruct (Z.ltb_spec (len s) 0); [unfold len in *; lia|reflexivity].
    + replace (Z.of_nat (Z.to_nat (i + 1))) with (i + 1) by lia.
      destruct (Z.ltb_spec (len s) (i + 1)), (Z.leb_spec (len s) i); try lia; cbn [bind]; [reflexivity|]. f_equal. lia.
Qed.
Lemma find_empty_panic s i : is_i64 i -> (findNthIndex s [] i = Panic <-> len s <= i < 2 ^ 63 - 1).
Proof.
  intros I. unfold findNthIndex. rewrite nth_index_loop_empty. unfold is_i64 in I.
  assert (0 <= len s) by (unfold len; lia).
  destruct (Z.eq_dec i (2 ^ 63 - 1)) as [-> |N].
  - change (i64 (2 ^ 63 - 1 + 1)) with (- 2 ^ 63). change (Z.of_nat (Z.to_nat (- 2 ^ 63))) with 0.
    destruct (Z.ltb_spec (len s) 0); [lia|]. cbn [bind]. split; [discriminate|lia].
  - assert (W : i64 (i + 1) = i + 1) by (unfold i64; rewrite Z.mod_small; lia). rewrite W.
    destruct (Z.ltb_spec (len s) (Z.of_nat (Z.to_nat (i + 1)))); cbn [bind]; split; try discriminate; try reflexivity; lia.
Qed.
Lemma whole_read v i d : whole v i -> integerValue v d = Ok i /\ IsIntegerType (ve_type v) = true /\ IsNull v = false.
Proof.
  inversion 1 as [b|w n O]; subst; [destruct b; auto|]. inversion O; subst; auto.
Qed.
Lemma whole_range v i : well_typed v -> whole v i -> is_i64 i.
Proof.
  intros W H. destruct (whole_read v i 0 H) as (E & _). eapply integerValue_range; [exact W| |exact E]. unfold is_i64; lia.
Qed.
Lemma fold_cased L b s : fold_if L b s = cased L b s. Proof. reflexivity. Qed.
Definition opt_ok (o : list ve) : Prop := o = [] \/ exists v, o = [v] /\ well_typed v.
Lemma opt_wt o : opt_ok o -> well_typed (opt o).
Proof. intros [->|(v & -> & W)]; [apply wt_null; discriminate|exact W]. Qed.

Lemma nthIndexOf_iff L a b c o : well_typed a -> well_typed b -> well_typed c -> opt_ok o ->
  (fn_nthIndexOf L a b c (opt o) = Panic <-> function_crash L FNthIndexOf (a :: b :: c :: o)).
Proof.
  intros A B C OO. pose proof (opt_wt o OO) as D. split.
  - intros E. unfold fn_nthIndexOf in E.
    repeat match type of E with (if ?x then _ else _) = _ => let Q := fresh "Q" in destruct x eqn:Q; [discriminate E|] end.
    is_strs. apply bind_panic in E as [E|(ic & Hic & E)]; [exfalso; revert E; npf|].
    rd E. rd E. rd E. apply negb_false_iff in Q1.
    pose proof (stringValue_str a x A ltac:(assumption) ltac:(assumption) ltac:(assumption)). subst a.
    pose proof (stringValue_str b x0 B ltac:(assumption) ltac:(assumption) ltac:(assumption)). subst b.
    pose proof (integerValue_val c (-1) x1 C ltac:(assumption) ltac:(assumption) ltac:(assumption)) as WC.
    apply (ignore_opt L o ic OO) in Hic.
    apply bind_panic in E as [E|(n & _ & E)]; [|discriminate E].
    destruct x0 as [|y t].
    + replace (fold_if L ic []) with (@nil Z) in E by (destruct ic; reflexivity).
      apply find_empty_panic in E; [|exact (whole_range c x1 C WC)].
      eapply fc_nth_index; [exact WC|exact Hic|exact E].
    + exfalso. revert E. apply find_nth_np, fold_nonempty. discriminate.
  - inversion 1 as [ | | |s v i o' ic WC IC R| | | |f before next after u O]; subst.
    + destruct (whole_read c i (-1) WC) as (Ei & Ti & Ni).
      assert (Eic : ignore_case L (opt o) = Ok ic) by (apply (ignore_opt L o ic OO); assumption).
      unfold fn_nthIndexOf. cbn -[ignore_case opt IsIntegerType IsNull integerValue fold_if findNthIndex].
      rewrite Ti, Ni, Eic. cbn -[integerValue fold_if findNthIndex]. rewrite Ei. cbn [bind].
            change (fold_if L ic s) with (cased L ic s). replace (fold_if L ic []) with (@nil Z) by (destruct ic; reflexivity).
      assert (findNthIndex (cased L ic s) [] i = Panic) as -> by (apply find_empty_panic; [exact (whole_range c i C WC)|exact R]). reflexivity.
    + destruct O; discriminate.
Qed.

(** ** Split *)
Lemma position_exists ps k : exists x, position ps k x.
Proof.
  unfold position. destruct (Z_le_dec 0 k); [destruct (Z_lt_dec k (len ps))|]; eexists; [left; split; [lia|reflexivity]|right; split; [lia|reflexivity]..].
Qed.
Lemma position_fun ps k x y : position ps k x -> position ps k y -> x = y.
Proof. intros [[A ->]|[A ->]] [[B ->]|[B ->]]; try reflexivity; tauto. Qed.
Lemma occurrences_fun s t ps qs : occurrences s t ps -> occurrences s t qs -> ps = qs.
Proof.
  intros [A1 A2] [B1 B2].
  assert (G : forall ps qs : list Z, (forall i, In i ps <-> In i qs) ->
    (forall j k, (j < k)%nat -> (k < length ps)%nat -> nth j ps 0 < nth k ps 0) ->
    (forall j k, (j < k)%nat -> (k < length qs)%nat -> nth j qs 0 < nth k qs 0) -> ps = qs).
  { clear. induction ps as [|p ps IH]; intros [|q qs] M P Q; auto.
    - exfalso. apply (M q). left; reflexivity.
    - exfalso. apply (M p). left; reflexivity.
    - assert (LP : forall z, In z ps -> p < z).
      { intros z Hz. apply (In_nth _ _ 0) in Hz as (n & Hn & <-). apply (P 0%nat (S n)); cbn; lia. }
      assert (LQ : forall z, In z qs -> q < z).
      { intros z Hz. apply (In_nth _ _ 0) in Hz as (n & Hn & <-). apply (Q 0%nat (S n)); cbn; lia. }
      assert (p = q) as <-.
      { destruct (proj1 (M p) (or_introl eq_refl)) as [E|E]; [auto|]. apply LQ in E.
        destruct (proj2 (M q) (or_introl eq_refl)) as [F|F]; [auto|]. apply LP in F. lia. }
      f_equal. apply IH.
      + intros z. split; intros Hz.
        * pose proof (LP z Hz). destruct (proj1 (M z) (or_intror Hz)); [lia|assumption].
        * pose proof (LQ z Hz). destruct (proj2 (M z) (or_intror Hz)); [lia|assumption].
      + intros j k J K. apply (P (S j) (S k)); cbn; lia.
      + intros j k J K. apply (Q (S j) (S k)); cbn; lia. }
  apply G; [|exact A2|exact B2]. intros i. rewrite A1, B1. reflexivity.
Qed.
Lemma occurrences_bound U D ps : occurrences U D ps -> D <> [] ->
  len ps <= len U /\ forall k, (k < length ps)%nat -> 0 <= nth k ps 0 /\ nth k ps 0 + len D <= len U.
Proof.
  intros OC DN. assert (0 < len D) by (destruct D; [congruence|unfold len; cbn; lia]).
  assert (BP : forall k, (k < length ps)%nat -> 0 <= nth k ps 0 /\ nth k ps 0 + len D <= len U).
  { intros k K. assert (In (nth k ps 0) ps) as H1 by (apply nth_In; exact K). apply OC, occurs_nonneg in H1. lia. }
  split; [|exact BP].
  assert (G : forall k, (k < length ps)%nat -> Z.of_nat k <= nth k ps 0).
  { destruct OC as [_ M]. induction k as [|k IH]; intros K; [apply BP; exact K|].
    specialize (M k (S k)). lia. }
  destruct (Nat.eq_dec (length ps) 0) as [E|E]; [unfold len in *; lia|].
  specialize (G (length ps - 1)%nat). specialize (BP (length ps - 1)%nat). unfold len in *. lia.
Qed.

Lemma cut_iff s U D i : is_i64 i -> len U < 2 ^ 60 -> len s < 2 ^ 60 ->
  ((let* range := splitNthIndex U D i in
    match range with
    | None => Ok vEmptyString
    | Some (lo, hi) => let* piece := slice s lo hi in NewValueExpression VString (GStr piece)
    end) = Panic <-> bad_cut s U D i).
Proof.
  intros I HU Hs. assert (0 <= len U /\ 0 <= len s) as [PU Ps] by (unfold len; lia).
  assert (IM : is_i64 (i64 (i - 1))) by (unfold i64, is_i64; pose proof (Z.mod_pos_bound (i - 1 + 2 ^ 63) (2 ^ 64)); lia).
  assert (SL : forall lo hi, ((let* piece := slice s lo hi in NewValueExpression VString (GStr piece)) = Panic <-> ~ (0 <= lo <= hi /\ hi <= len s))).
  { intros lo hi. unfold slice. destruct ((lo <? 0) || (hi <? lo) || (len s <? hi)) eqn:Q; cbn [bind].
    - split; [lia|reflexivity].
    - split; [discriminate|lia]. }
  unfold is_i64 in I.
  assert (WI : i = - 2 ^ 63 \/ i64 (i - 1) = i - 1).
  { destruct (Z.eq_dec i (- 2 ^ 63)); [auto|right]. unfold i64. rewrite Z.mod_small; lia. }
  destruct D as [|d0 D].
  - unfold bad_cut, splitNthIndex. rewrite (findNth_empty U _ IM HU), (findNth_empty U i I HU).
    destruct (Z.eq_dec i (- 2 ^ 63)) as [-> |N].
    { cbn. split; [discriminate|]. intros [[_ K]|[K _]]; [lia|congruence]. }
    destruct WI as [WI|WI]; [contradiction|]. rewrite WI.
    destruct (Z.eqb_spec (i - 1) (2 ^ 63 - 1)); [lia|].
    destruct (Z.ltb_spec (i - 1) 0).
    + cbn [bind]. destruct (Z.eqb_spec i (2 ^ 63 - 1)); [lia|].
      destruct (Z.ltb_spec i 0).
      { cbn. split; [discriminate|]. intros [[_ K]|[K _]]; [lia|congruence]. }
      assert (i = 0) by lia. subst i. destruct (Z.leb_spec (len U) 0).
      * cbn [bind]. split; [intros _; left; split; [reflexivity|lia]|reflexivity].
      * cbn. split; [discriminate|]. intros [[_ K]|[K _]]; [lia|congruence].
    + destruct (Z.leb_spec (len U) (i - 1)).
      { cbn [bind]. split; [intros _; left; split; [reflexivity|lia]|reflexivity]. }
      cbn [bind]. destruct (Z.eqb_spec i (2 ^ 63 - 1)); [lia|]. destruct (Z.ltb_spec i 0); [lia|].
      destruct (Z.leb_spec (len U) i).
      { cbn [bind]. split; [intros _; left; split; [reflexivity|lia]|reflexivity]. }
      cbn [bind]. change (len (@nil Z)) with 0.
      destruct ((i - 1 <=? 0) && (i <=? 0)) eqn:Q1; [lia|].
      destruct (Z.leb_spec (i - 1) 0).
      * rewrite SL. split; [intros K; left; split; [reflexivity|lia]|intros [[_ K]|[K _]]; [lia|congruence]].
      * destruct (Z.leb_spec i 0); [lia|].
        rewrite SL. split; [intros K; left; split; [reflexivity|lia]|intros [[_ K]|[K _]]; [lia|congruence]].
  - assert (DN : d0 :: D <> []) by discriminate. revert DN. generalize (d0 :: D). clear d0 D. intros D DN.
    destruct (occurrences_exist U D) as (ps & OC). unfold splitNthIndex.
    rewrite (findNthIndex_spec U D _ ps OC DN IM), (findNthIndex_spec U D i ps OC DN I). cbn [bind].
    destruct (occurrences_bound U D ps OC DN) as [LP BP].
    assert (LD : 0 < len D) by (destruct D; [congruence|unfold len; cbn; lia]).
    destruct (position_exists ps (i - 1)) as (x & Px). destruct (position_exists ps i) as (y & Py).
    set (f := if i64 (i - 1) =? 2 ^ 63 - 1 then -1 else nth_occurrence ps (i64 (i - 1))).
    set (g := if i =? 2 ^ 63 - 1 then -1 else nth_occurrence ps i).
    assert (F : x = Z.max 0 f).
    { unfold f, nth_occurrence. destruct Px as [[X1 X2]|[X1 X2]].
      - destruct WI as [WI|WI]; [lia|]. rewrite WI. destruct (Z.eqb_spec (i - 1) (2 ^ 63 - 1)); [lia|].
        destruct ((0 <=? i - 1) && (i - 1 <? len ps)) eqn:Q; [|lia].
        specialize (BP (Z.to_nat (i - 1))). unfold len in *. lia.
      - destruct WI as [->|WI]; [rewrite X2; reflexivity|]. rewrite WI. destruct (i - 1 =? 2 ^ 63 - 1); [lia|].
        destruct ((0 <=? i - 1) && (i - 1 <? len ps)) eqn:Q; lia. }
    assert (G : y = Z.max 0 g).
    { unfold g, nth_occurrence. destruct Py as [[X1 X2]|[X1 X2]].
      - destruct (Z.eqb_spec i (2 ^ 63 - 1)); [lia|].
        destruct ((0 <=? i) && (i <? len ps)) eqn:Q; [|lia].
        specialize (BP (Z.to_nat i)). unfold len in *. lia.
      - destruct (i =? 2 ^ 63 - 1); [lia|].
        destruct ((0 <=? i) && (i <? len ps)) eqn:Q; lia. }
    assert (BX : x = 0 \/ x + len D <= len U).
    { destruct Px as [[X1 X2]|[X1 X2]]; [right|auto]. specialize (BP (Z.to_nat (i - 1))). unfold len in *. lia. }
    assert (BC : bad_cut s U D i <-> ((y <> 0 /\ len s < y) \/ (x <> 0 /\ y <> 0 /\ y < x + len D) \/ (x <> 0 /\ y = 0 /\ len s < len U))).
    { unfold bad_cut. split.
      - intros [[K _]|(_ & qs & x' & y' & OC' & Px' & Py' & K)]; [contradiction|].
        pose proof (occurrences_fun _ _ _ _ OC OC'). subst qs.
        rewrite (position_fun _ _ _ _ Px Px'), (position_fun _ _ _ _ Py Py'). exact K.
      - intros K. right. split; [exact DN|]. exists ps, x, y. auto. }
    rewrite BC. clearbody f g. clear BC OC Px Py BP.
    destruct ((f <=? 0) && (g <=? 0)) eqn:Q1; [split; [discriminate|lia]|].
    destruct (Z.leb_spec f 0); [rewrite SL; lia|].
    destruct (Z.leb_spec g 0); rewrite SL; lia.
Qed.

Lemma short_cased L s b : short_text L (vStr s) -> len (cased L b s) < 2 ^ 60.
Proof. intros H. destruct (H s eq_refl). destruct b; assumption. Qed.

Lemma split_iff L a b c o : well_typed a -> well_typed b -> well_typed c -> opt_ok o -> short_text L a ->
  (fn_split L a b c (opt o) = Panic <-> function_crash L FSplit (a :: b :: c :: o)).
Proof.
  intros A B C OO SH. pose proof (opt_wt o OO) as D. split.
  - intros E. unfold fn_split in E.
    repeat match type of E with (if ?x then _ else _) = _ => let Q := fresh "Q" in destruct x eqn:Q; [discriminate E|] end.
    is_strs. apply bind_panic in E as [E|(ic & Hic & E)]; [exfalso; revert E; npf|].
    rd E. rd E. rd E. apply negb_false_iff in Q1.
    pose proof (stringValue_str a x0 A ltac:(assumption) ltac:(assumption) ltac:(assumption)). subst a.
    pose proof (stringValue_str b x1 B ltac:(assumption) ltac:(assumption) ltac:(assumption)). subst b.
    pose proof (integerValue_val c (-1) x C ltac:(assumption) ltac:(assumption) ltac:(assumption)) as WC.
    apply (ignore_opt L o ic OO) in Hic.
    apply cut_iff in E; [|exact (whole_range c x C WC)|apply (short_cased L x0 ic SH)|apply (SH x0 eq_refl)].
    eapply fc_split; [exact WC|exact Hic|exact E].
  - inversion 1 as [ | | | |s d v i o' ic WC IC R| | |f before next after u O]; subst.
    + destruct (whole_read c i (-1) WC) as (Ei & Ti & Ni).
      assert (Eic : ignore_case L (opt o) = Ok ic) by (apply (ignore_opt L o ic OO); assumption).
      unfold fn_split. cbn -[ignore_case opt IsIntegerType IsNull integerValue fold_if splitNthIndex slice].
      rewrite Ti, Ni, Eic. cbn -[integerValue fold_if splitNthIndex slice]. rewrite Ei. cbn -[fold_if splitNthIndex slice].
      apply cut_iff; [exact (whole_range c i C WC)|apply (short_cased L s ic SH)|apply (SH s eq_refl)|exact R].
    + destruct O; discriminate.
Qed.

(** ** SubStr, RegExVal *)
Lemma subStr_iff L a b c : well_typed a -> well_typed b -> well_typed c -> short_text L a ->
  (fn_subStr a b c = Panic <-> function_crash L FSubStr [a; b; c]).
Proof.
  intros A B C SH. split.
  - intros E. apply subStr_panic in E as (s & i & n & -> & WB & WC & R1 & R2); [|assumption..].
    eapply fc_substr; eassumption.
  - inversion 1 as [ | | | | |s v w i n WB WC R1 R2| |f before next after u O]; subst.
    + destruct (whole_read b i 0 WB) as (Ei & Ti & Ni). destruct (whole_read c n 0 WC) as (En & Tn & Nn).
      pose proof (whole_range b i B WB) as I. pose proof (whole_range c n C WC) as N. unfold is_i64 in *.
      destruct (SH s eq_refl) as [LS _].
      unfold fn_subStr. cbn -[integerValue IsIntegerType IsNull slice slice_from]. rewrite Ti, Tn, Ni.
      cbn -[integerValue IsNull slice slice_from Z.leb Z.ltb i64]. rewrite Ei. cbn -[integerValue IsNull slice slice_from Z.leb Z.ltb i64].
      destruct ((i <? 0) || (len s <=? i)) eqn:Q; [lia|]. rewrite Nn, En. cbn [bind].
      destruct (Z.leb_spec n 0); [lia|].
      assert (W : i64 (i + n) = i + n - 2 ^ 64).
      { unfold i64. replace (i + n + 2 ^ 63) with (i + n - 2 ^ 63 + 1 * 2 ^ 64) by lia. rewrite Z_mod_plus_full, Z.mod_small; lia. }
      rewrite W. destruct (Z.ltb_spec (i + n - 2 ^ 64) (len s)); [|lia].
      unfold slice. destruct ((i <? 0) || (i + n - 2 ^ 64 <? i) || (len s <? i + n - 2 ^ 64)) eqn:Q2; [reflexivity|lia].
    + destruct O; discriminate.
Qed.
Lemma regExVal_iff L a b : well_typed a -> well_typed b -> (fn_regEx L a b true = Panic <-> function_crash L FRegExVal [a; b]).
Proof.
  intros A B. split.
  - intros E. unfold fn_regEx in E.
    destruct (negb (is_str a)) eqn:T1; [discriminate E|]. destruct (negb (is_str b)) eqn:T2; [discriminate E|].
    destruct (IsNull a || IsNull b) eqn:N; [discriminate E|]. apply orb_false_iff in N as [Na Nb]. is_strs. rd E.
    destruct (regex_find L x) as [f|] eqn:F; [|discriminate E]. rd E.
    pose proof (stringValue_str a x A T1 Na Hx). pose proof (stringValue_str b x0 B T2 Nb Hx0). subst.
    destruct (f x0) as [[lo hi]|] eqn:M; [|discriminate E].
    eapply fc_regex; [exact F|exact M|].
    intros R. apply bind_panic in E as [E|(y & _ & E)]; [|discriminate E].
    unfold slice in E. destruct (_ || _) eqn:Q; [lia|discriminate E].
  - inversion 1 as [ | | | | | |p s find lo hi F M R|f before next after u O]; subst.
    + unfold fn_regEx. cbn. rewrite F, M. unfold slice. destruct ((lo <? 0) || (hi <? lo) || (len s <? hi)) eqn:Q; [reflexivity|lia].
    + destruct O; discriminate.
Qed.
