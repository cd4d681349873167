(** The string functions (C59). *)
From Coq Require Import Lia ZifyBool ZifyNat QArith String.
From Verif Require Import Base BaseProofs GuidModel GuidSpec GuidProofs FormatModel StrModel CalModel NumModel ExprModel ExprSpec ExprProofs ExprPanic StrProofs ExprPanic2 ExprProofs2 ExprProofs3.
Close Scope Q_scope.
Open Scope list_scope.
Open Scope Z_scope.

Lemma texts_args L row args s t (k : ve -> ve -> ve -> res ve) (f : func) (Q : res ve -> Prop) :
  ascii_tables L -> texts L row args s t ->
  (forall ts, length ts = 2%nat \/ length ts = 3%nat ->
     evaluateFunction L f ts =
       match ts with
       | [a; b] => let* v := a VString in let* w := b VString in k v w (NullValue VBoolean)
       | [a; b; c] => let* v := a VString in let* w := b VString in let* x := c VBoolean in k v w x
       | _ => Err
       end) ->
  (forall s0 t0 ic b, (ic = vNull VBoolean /\ b = false) \/ ic = vBool b ->
     fold_if L b s0 = s -> fold_if L b t0 = t -> Q (k (vStr s0) (vStr t0) ic)) ->
  Q (Evaluate L row (EFunction f args)).
Proof.
  intros AT T F K. unfold Evaluate. cbn [evaluateAs].
  destruct T as [x y s t X Y|x y z s t X Y Z|x y z s t X Y Z S T].
  - rewrite F by (left; reflexivity). cbn [map].
    rewrite (Evaluate_as _ _ _ VString _ X) by discriminate. rewrite (Evaluate_as _ _ _ VString _ Y) by discriminate. cbn [bind].
    apply (K s t (NullValue VBoolean) false); auto.
  - rewrite F by (right; reflexivity). cbn [map].
    rewrite (Evaluate_as _ _ _ VString _ X) by discriminate. rewrite (Evaluate_as _ _ _ VString _ Y) by discriminate.
    rewrite (Evaluate_as _ _ _ VBoolean _ Z) by discriminate. cbn [bind].
    apply (K s t (vBool false) false); auto.
  - rewrite F by (right; reflexivity). cbn [map].
    rewrite (Evaluate_as _ _ _ VString _ X) by discriminate. rewrite (Evaluate_as _ _ _ VString _ Y) by discriminate.
    rewrite (Evaluate_as _ _ _ VBoolean _ Z) by discriminate. cbn [bind].
    apply (K s t (vBool true) true); auto; cbn [fold_if]; apply ToUpper_ascii; assumption.
Qed.

Lemma ic_value L ic b : (ic = vNull VBoolean /\ b = false) \/ ic = vBool b -> ignore_case L ic = Ok b.
Proof. intros [[-> ->]| ->]; [reflexivity|]. destruct b; reflexivity. Qed.

Ltac fn_shape := intros ts [H|H]; (destruct ts as [|? [|? [|? [|? ?]]]]; cbn in H; try lia; reflexivity).

Lemma string_test_eval L row f g args s t : ascii_tables L -> texts L row args s t ->
  (f = FContains /\ g = Contains) \/ (f = FStartsWith /\ g = HasPrefix) \/ (f = FEndsWith /\ g = HasSuffix) ->
  Evaluate L row (EFunction f args) = Ok (vBool (g s t)).
Proof.
  intros AT T C.
  apply (texts_args L row args s t (fn_string_test g L) f (fun r => r = Ok (vBool (g s t))) AT T).
  - destruct C as [[-> ->]|[[-> ->]|[-> ->]]]; fn_shape.
  - intros s0 t0 ic b I S0 T0. unfold fn_string_test. cbn [is_str vStr ve_type vtype_eqb negb IsNull ve_value].
    rewrite (ic_value L ic b I). cbn [bind stringValue ve_value vStr]. rewrite S0, T0. reflexivity.
Qed.

Lemma string_find_eval L row f g args s t : ascii_tables L -> texts L row args s t ->
  (f = FIndexOf /\ g = Index) \/ (f = FLastIndexOf /\ g = LastIndex) ->
  Evaluate L row (EFunction f args) = Ok (vInt32 (i32 (g s t))).
Proof.
  intros AT T C.
  apply (texts_args L row args s t (fn_string_find g L) f (fun r => r = Ok (vInt32 (i32 (g s t)))) AT T).
  - destruct C as [[-> ->]|[-> ->]]; fn_shape.
  - intros s0 t0 ic b I S0 T0. unfold fn_string_find. cbn [is_str vStr ve_type vtype_eqb negb IsNull ve_value].
    rewrite (ic_value L ic b I). cbn [bind stringValue ve_value vStr]. rewrite S0, T0. reflexivity.
Qed.

Lemma i32_small n : -1 <= n < 2 ^ 31 -> i32 n = n.
Proof. intros H. apply i32_id. unfold is_i32. lia. Qed.

Lemma index_eval L row args s t : ascii_tables L -> texts L row args s t -> len s < 2 ^ 31 ->
  exists i, Evaluate L row (EFunction FIndexOf args) = Ok (vInt32 i) /\
    ((i = -1 /\ forall j, ~ occurs_at s t j) \/ (occurs_at s t i /\ forall j, occurs_at s t j -> i <= j)).
Proof.
  intros AT T B. exists (Index s t). rewrite (string_find_eval L row FIndexOf Index args s t AT T) by auto.
  split.
  - rewrite i32_small; [reflexivity|]. destruct (Index_spec s t) as [[-> _]|[O _]]; [lia|].
    apply occurs_nonneg in O. unfold len in *. lia.
  - destruct (Index_spec s t) as [H|H]; [left; exact H|right; exact H].
Qed.
Lemma last_index_eval L row args s t : ascii_tables L -> texts L row args s t -> len s < 2 ^ 31 ->
  exists i, Evaluate L row (EFunction FLastIndexOf args) = Ok (vInt32 i) /\
    ((i = -1 /\ forall j, ~ occurs_at s t j) \/ (occurs_at s t i /\ forall j, occurs_at s t j -> j <= i)).
Proof.
  intros AT T B. exists (LastIndex s t). rewrite (string_find_eval L row FLastIndexOf LastIndex args s t AT T) by auto.
  split.
  - rewrite i32_small; [reflexivity|]. destruct (LastIndex_spec s t) as [[-> _]|[O _]]; [lia|].
    apply occurs_nonneg in O. unfold len in *. lia.
  - destruct (LastIndex_spec s t) as [H|H]; [left; exact H|right; exact H].
Qed.

Lemma count_bound s t : t <> [] -> 0 <= Count s t <= len s.
Proof.
  intros T. destruct t as [|y t]; [congruence|]. cbn [Count].
  enough (G : forall k, 0 <= count_from s (y :: t) k <= len s) by apply G.
  induction s as [|x s IH]; intros k; [cbn; unfold len; cbn; lia|].
  change (len (x :: s)) with (Z.of_nat (S (length s))). unfold len in IH. cbn [count_from].
  destruct k as [|k].
  - destruct (HasPrefix (x :: s) (y :: t)).
    + specialize (IH (length (y :: t) - 1)%nat). lia.
    + specialize (IH O). lia.
  - specialize (IH k). lia.
Qed.
Lemma strcount_eval L row args s t : ascii_tables L -> texts L row args s t -> len s < 2 ^ 31 ->
  exists k, Evaluate L row (EFunction FStrCount args) = Ok (vInt32 k) /\
    (t = [] -> k = 0) /\
    (t <> [] -> disjoint_occurrences s t k /\ forall j, disjoint_occurrences s t j -> j <= k).
Proof.
  intros AT T B. exists (if len t =? 0 then 0 else Count s t). split.
  - apply (texts_args L row args s t (fn_strCount L) FStrCount (fun r => r = Ok (vInt32 (if len t =? 0 then 0 else Count s t))) AT T).
    + fn_shape.
    + intros s0 t0 ic b I S0 T0. unfold fn_strCount. cbn [is_str vStr ve_type vtype_eqb negb IsNull ve_value orb].
      cbn [bind stringValue ve_value vStr].
      assert (E : (len t0 =? 0) = (len t =? 0)).
      { destruct b; cbn [fold_if] in T0; [|subst; reflexivity]. subst t. destruct t0 as [|c t0]; [reflexivity|].
        change (len (c :: t0) =? 0) with false. symmetry. unfold ToUpper, runes_of.
        destruct (decode (c :: t0)) as [|[r w] d] eqn:D.
        - exfalso. cbn [decode] in D. repeat match type of D with context [if ?q then _ else _] => destruct q | context [match ?q with [] => _ | _ :: _ => _ end] => destruct q end; discriminate D.
        - cbn [map fst encode_runes flat_map]. unfold len. rewrite app_length.
          assert (EL : (0 < length (encode_rune (rune_upper L r)))%nat)
            by (unfold encode_rune; repeat match goal with |- context [if ?q then _ else _] => destruct q end; cbn; lia).
          lia. }
      rewrite E. destruct (len t =? 0) eqn:Q; [reflexivity|]. rewrite (ic_value L ic b I). cbn [bind].
      rewrite S0, T0. assert (N : t <> []) by (intros ->; discriminate Q). pose proof (count_bound s t N).
      rewrite i32_small by lia. reflexivity.
  - split.
    + intros ->. reflexivity.
    + intros N. destruct t as [|y t]; [congruence|]. change (len (y :: t) =? 0) with false. cbv iota. apply Count_spec, N.
Qed.

Lemma occ_bound s t ps : occurrences s t ps -> len ps <= len s + 1.
Proof.
  intros OC.
  assert (BP : forall k, (k < length ps)%nat -> 0 <= nth k ps 0 <= len s).
  { intros k K. assert (In (nth k ps 0) ps) as H by (apply nth_In; exact K). apply OC, occurs_nonneg in H.
    unfold len in *. lia. }
  assert (G : forall k, (k < length ps)%nat -> Z.of_nat k <= nth k ps 0).
  { destruct OC as [_ M]. induction k as [|k IH]; intros K; [apply BP; exact K|].
    specialize (M k (S k)). lia. }
  destruct (Nat.eq_dec (length ps) 0) as [E|E]; [unfold len; lia|].
  specialize (G (length ps - 1)%nat). specialize (BP (length ps - 1)%nat). unfold len in *. lia.
Qed.

Lemma find_nth s t i ps : occurrences s t ps -> t <> [] -> is_i64 i -> len s < 2 ^ 31 ->
  findNthIndex s t i = Ok (nth_occurrence ps i).
Proof.
  intros OC T I B. rewrite (findNthIndex_spec s t i ps OC T I). pose proof (occ_bound s t ps OC).
  destruct (Z.eqb_spec i (2 ^ 63 - 1)) as [-> |]; [|reflexivity].
  unfold nth_occurrence. replace (2 ^ 63 - 1 <? len ps) with false by lia. rewrite andb_false_r. reflexivity.
Qed.
Lemma whole_value v i d : whole v i -> integerValue v d = Ok i /\ IsIntegerType (ve_type v) = true /\ IsNull v = false /\ is_i64 i /\ ~ null v.
Proof.
  intros [b|w n [m M|m M]].
  - destruct b; (split; [reflexivity|split; [reflexivity|split; [reflexivity|split; [unfold is_i64; lia|discriminate]]]]).
  - split; [reflexivity|split; [reflexivity|split; [reflexivity|split; [unfold is_i64, is_i32 in *; lia|discriminate]]]].
  - split; [reflexivity|split; [reflexivity|split; [reflexivity|split; [exact M|discriminate]]]].
Qed.

Lemma nth_index_eval L row x y z s t v i ps :
  Evaluate L row x = Ok (vStr s) -> Evaluate L row y = Ok (vStr t) -> Evaluate L row z = Ok v -> whole v i ->
  t <> [] -> len s < 2 ^ 31 -> occurrences s t ps ->
  Evaluate L row (EFunction FNthIndexOf [x; y; z]) =
    Ok (vInt32 (if (0 <=? i) && (i <? len ps) then nth (Z.to_nat i) ps 0 else -1)).
Proof.
  intros X Y Z W T B OC. unfold Evaluate. cbn [evaluateAs map evaluateFunction].
  destruct (whole_value v i (-1) W) as (IV & IT & IN & I64 & NN).
  rewrite (Evaluate_as _ _ _ VString _ X) by discriminate. rewrite (Evaluate_as _ _ _ VString _ Y) by discriminate.
  rewrite (Evaluate_as _ _ _ VInt32 _ Z) by exact NN. cbn [bind].
  unfold fn_nthIndexOf. cbn [is_str vStr ve_type vtype_eqb negb IsNull ve_value]. rewrite IT. cbn [negb].
  fold (IsNull v). rewrite IN. rewrite (ic_value L (NullValue VBoolean) false) by auto. cbn [bind stringValue ve_value vStr].
  rewrite IV. cbn [bind fold_if]. rewrite (find_nth s t i ps OC T I64 B). cbn [bind]. unfold nth_occurrence, NewValueExpression.
  assert (G : -1 <= (if (0 <=? i) && (i <? len ps) then nth (Z.to_nat i) ps 0 else -1) < 2 ^ 31).
  { destruct ((0 <=? i) && (i <? len ps)) eqn:Q; [|lia].
    assert (In (nth (Z.to_nat i) ps 0) ps) as H by (apply nth_In; unfold len in *; lia).
    apply OC, occurs_nonneg in H. unfold len in *. lia. }
  rewrite i32_small by exact G. reflexivity.
Qed.

Lemma len_eval L row x s : Evaluate L row x = Ok (vStr s) -> len s < 2 ^ 31 ->
  Evaluate L row (EFunction FLen [x]) = Ok (vInt32 (len s)).
Proof.
  intros X B. unfold Evaluate. cbn [evaluateAs map evaluateFunction].
  rewrite (Evaluate_as _ _ _ VString _ X) by discriminate. cbn [bind]. unfold fn_len. cbn.
  rewrite i32_small by (unfold len in *; lia). reflexivity.
Qed.

(** ** SubStr *)
Lemma substr_2_eval L row x y s a i : Evaluate L row x = Ok (vStr s) -> Evaluate L row y = Ok a -> whole a i ->
  Evaluate L row (EFunction FSubStr [x; y]) =
    Ok (vStr (if (0 <=? i) && (i <? len s) then skipn (Z.to_nat i) s else [])).
Proof.
  intros X Y W. unfold Evaluate. cbn [evaluateAs map evaluateFunction].
  destruct (whole_value a i 0 W) as (IV & IT & IN & I64 & NN).
  rewrite (Evaluate_as _ _ _ VString _ X) by discriminate. rewrite (Evaluate_as _ _ _ VInt32 _ Y) by exact NN. cbn [bind].
  unfold fn_subStr. cbn [is_str vStr ve_type vtype_eqb negb]. rewrite IT. cbn [negb NullValue ve_type IsIntegerType]. rewrite IN.
  cbn [IsNull ve_value stringValue bind vStr]. rewrite IV. cbn [bind].
  destruct ((i <? 0) || (len s <=? i)) eqn:Q.
  - replace ((0 <=? i) && (i <? len s)) with false by lia. reflexivity.
  - replace ((0 <=? i) && (i <? len s)) with true by lia. unfold slice_from.
    replace ((i <? 0) || (len s <? i)) with false by lia. reflexivity.
Qed.
Lemma substr_3_eval L row x y z s a b i n : Evaluate L row x = Ok (vStr s) -> Evaluate L row y = Ok a -> Evaluate L row z = Ok b ->
  whole a i -> whole b n -> i + n < 2 ^ 63 ->
  Evaluate L row (EFunction FSubStr [x; y; z]) =
    Ok (vStr (if (0 <=? i) && (i <? len s) then firstn (Z.to_nat n) (skipn (Z.to_nat i) s) else [])).
Proof.
  intros X Y Z W V B. unfold Evaluate. cbn [evaluateAs map evaluateFunction].
  destruct (whole_value a i 0 W) as (IV & IT & IN & I64 & NN). destruct (whole_value b n 0 V) as (IV' & IT' & IN' & I64' & NN').
  rewrite (Evaluate_as _ _ _ VString _ X) by discriminate. rewrite (Evaluate_as _ _ _ VInt32 _ Y) by exact NN.
  rewrite (Evaluate_as _ _ _ VInt32 _ Z) by exact NN'. cbn [bind].
  unfold fn_subStr. cbn [is_str vStr ve_type vtype_eqb negb]. rewrite IT, IT'. cbn [negb]. rewrite IN, IN'.
  cbn [IsNull ve_value stringValue bind vStr]. rewrite IV, IV'. cbn [bind].
  destruct ((i <? 0) || (len s <=? i)) eqn:Q.
  - replace ((0 <=? i) && (i <? len s)) with false by lia. reflexivity.
  - replace ((0 <=? i) && (i <? len s)) with true by lia.
    destruct (Z.leb_spec n 0); [replace (Z.to_nat n) with 0%nat by lia; reflexivity|].
    rewrite i64_id by (unfold is_i64 in *; lia).
    destruct (Z.ltb_spec (i + n) (len s)).
    + unfold slice. replace ((i <? 0) || (i + n <? i) || (len s <? i + n)) with false by lia.
      replace (i + n - i) with n by lia. reflexivity.
    + unfold slice_from. replace ((i <? 0) || (len s <? i)) with false by lia. cbn [bind NewValueExpression]. unfold vStr.
      rewrite firstn_all2; [reflexivity|]. rewrite skipn_length. unfold len in *. lia.
Qed.
Lemma substr_overflow L row x y z s a b i n : Evaluate L row x = Ok (vStr s) -> Evaluate L row y = Ok a -> Evaluate L row z = Ok b ->
  whole a i -> whole b n -> 0 <= i < len s -> 2 ^ 63 <= i + n ->
  Evaluate L row (EFunction FSubStr [x; y; z]) = Panic.
Proof.
  intros X Y Z W V R B. unfold Evaluate. cbn [evaluateAs map evaluateFunction].
  destruct (whole_value a i 0 W) as (IV & IT & IN & I64 & NN). destruct (whole_value b n 0 V) as (IV' & IT' & IN' & I64' & NN').
  rewrite (Evaluate_as _ _ _ VString _ X) by discriminate. rewrite (Evaluate_as _ _ _ VInt32 _ Y) by exact NN.
  rewrite (Evaluate_as _ _ _ VInt32 _ Z) by exact NN'. cbn [bind].
  unfold fn_subStr. cbn [is_str vStr ve_type vtype_eqb negb]. rewrite IT, IT'. cbn [negb]. rewrite IN, IN'.
  cbn [IsNull ve_value stringValue bind vStr]. rewrite IV, IV'. cbn [bind].
  replace ((i <? 0) || (len s <=? i)) with false by lia. unfold is_i64 in *. replace (n <=? 0) with false by lia.
  assert (WR : i64 (i + n) = i + n - 2 ^ 64).
  { unfold i64. replace (i + n + 2 ^ 63) with ((i + n - 2 ^ 63) + 1 * 2 ^ 64) by lia. rewrite Z.mod_add by lia. rewrite Z.mod_small; lia. }
  rewrite WR. replace (i + n - 2 ^ 64 <? len s) with true by lia. unfold slice.
  replace (i + n - 2 ^ 64 <? i) with true by lia. rewrite orb_true_r. reflexivity.
Qed.
