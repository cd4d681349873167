(** LIKE, IN, Coalesce, MaxOf/MinOf and the string functions (C55-C57, C59). *)
From Coq Require Import Lia ZifyBool ZifyNat QArith String.
From Verif Require Import Base BaseProofs GuidModel GuidSpec GuidProofs FormatModel StrModel CalModel NumModel ExprModel ExprSpec ExprProofs ExprPanic StrProofs ExprPanic2 ExprProofs2.
Close Scope Q_scope.
Open Scope list_scope.
Open Scope Z_scope.

(** ** LIKE *)
Definition star_of (c : Z) : Z := if c =? 37 then 42 else c.
Lemma replace_percent s : ReplaceAll s (lit "%"%string) (lit "*"%string) = map star_of s.
Proof.
  change (lit "%"%string) with [37]. change (lit "*"%string) with [42]. unfold ReplaceAll.
  induction s as [|x s IH]; [reflexivity|]. cbn [replace_from map HasPrefix length Nat.sub].
  assert (HN : HasPrefix s [] = true) by (destruct s; reflexivity). rewrite HN, andb_true_r.
  unfold star_of at 1. destruct (x =? 37) eqn:E; cbn [app]; f_equal; exact IH.
Qed.
Lemma star_core core : Forall (fun c => ~ wildcard c) core -> map star_of core = core /\ ~ In 42 core.
Proof.
  induction 1 as [|c core C _ [IH1 IH2]]; [auto|]. cbn. rewrite IH1. unfold star_of, wildcard in *.
  split; [f_equal; destruct (Z.eqb_spec c 37); lia|]. intros [->|H]; auto.
Qed.
Lemma star_wild p : Forall wildcard p -> (length p <= 1)%nat -> map star_of p = if 0 <? len p then [42] else [].
Proof.
  intros W N. destruct p as [|c [|d p]]; [reflexivity| |cbn in N; lia]. inversion W as [|? ? C _]; subst.
  destruct C as [-> | ->]; reflexivity.
Qed.
Lemma no_star_contains s : ~ In 42 s -> Contains s [42] = false.
Proof.
  intros N. destruct (Contains s [42]) eqn:E; [|reflexivity]. exfalso. apply N.
  apply Contains_spec in E as (u & v & ->). apply in_or_app. right. left. reflexivity.
Qed.
Lemma prefix_star_core c core t : ~ In 42 (c :: core) -> HasPrefix ((c :: core) ++ t) [42] = false.
Proof.
  intros N. cbn. destruct (Z.eqb_spec c 42); [|reflexivity]. exfalso. apply N. left. assumption.
Qed.
Lemma suffix_last u x : HasSuffix (u ++ [x]) [42] = (x =? 42).
Proof. unfold HasSuffix. rewrite rev_app_distr. cbn. destruct (x =? 42); cbn; [destruct (rev u); reflexivity|reflexivity]. Qed.
Lemma suffix_star_core core t : core <> [] -> ~ In 42 core -> HasSuffix (t ++ core) [42] = false.
Proof.
  intros C N. destruct (exists_last C) as (u & x & ->). rewrite app_assoc, suffix_last.
  destruct (Z.eqb_spec x 42) as [-> |]; [|reflexivity]. exfalso. apply N. apply in_or_app. right. left. reflexivity.
Qed.

(** The loop-free core of likeOp on a pattern with optional outer wildcards. *)
Definition like_text (fold : bytes -> bytes) (x : bytes) (lead : bool) (core : bytes) (trail : bool) : bool :=
  match core with
  | [] => true
  | _ => (lead && HasSuffix (fold x) (fold core)) || (trail && HasPrefix (fold x) (fold core))
         || (lead && trail && Contains (fold x) (fold core))
  end.
Lemma likeOp_pattern L x p lead core trail ex : pattern p lead core trail ->
  likeOp L (vStr x) (vStr p) ex =
  Ok (vBool (like_text (fun s => if ex then s else ToUpper L s) x lead core trail)).
Proof.
  intros [p1 c p2 W1 W2 N1 N2 C].
  destruct (star_core c C) as [SC NC].
  unfold likeOp. cbn [IsNull ve_value vStr ve_type vtype_eqb negb orb stringValue bind].
  rewrite replace_percent, !map_app, SC, (star_wild p1 W1 N1), (star_wild p2 W2 N2).
  change [star] with [42].
  destruct c as [|c0 c].
  - destruct (0 <? len p1), (0 <? len p2); reflexivity.
  - set (k := c0 :: c) in *. assert (K : k <> []) by discriminate.
    assert (LK : len k =? 0 = false) by reflexivity.
    assert (FL : forall (u : bytes), firstn (length (u ++ [42]) - 1) (u ++ [42]) = u).
    { intros u. rewrite app_length, Nat.add_sub. rewrite firstn_app, Nat.sub_diag, firstn_O, app_nil_r. apply firstn_all. }
    assert (H1 : forall t, HasPrefix (k ++ t) [42] = false) by (intros; apply prefix_star_core, NC).
    assert (H2 : forall t, HasSuffix (t ++ k) [42] = false) by (intros; apply suffix_star_core; assumption).
    assert (H3 : forall t, HasSuffix (t ++ [42]) [42] = true) by (intros; rewrite suffix_last; reflexivity).
    assert (H4 : forall t, HasPrefix ([42] ++ t) [42] = true) by (intros; cbn; destruct t; reflexivity).
    pose proof (no_star_contains k NC) as H5.
    assert (LT : forall f l t, like_text f x l k t = (l && HasSuffix (f x) (f k)) || (t && HasPrefix (f x) (f k)) || (l && t && Contains (f x) (f k))) by reflexivity.
    rewrite LT. clear LT. unfold bytes in *. set (fx := if ex then x else ToUpper L x).
    assert (FK : exists fk, fk = if ex then k else ToUpper L k) by eauto. destruct FK as [fk FK]. rewrite <- FK.
    destruct (0 <? len p1), (0 <? len p2); cbv zeta.
    + rewrite H4. rewrite !app_assoc, H3. cbn [andb]. change (skipn 1 (([42] ++ k) ++ [42])) with (k ++ [42]).
      replace (0 <? len (k ++ [42])) with true by (unfold len; rewrite app_length; cbn; lia).
      rewrite FL, LK, H5, <- FK.
      destruct (HasSuffix fx fk); [reflexivity|]. destruct (HasPrefix fx fk); [reflexivity|]. destruct (Contains fx fk); reflexivity.
    + rewrite !app_nil_r, H4, H2. cbn [andb]. change (skipn 1 ([42] ++ k)) with k. rewrite LK, H5, <- FK.
      destruct (HasSuffix fx fk); reflexivity.
    + cbn [app]. rewrite H1, H3. cbn [andb].
      replace (0 <? len (k ++ [42])) with true by (unfold len; rewrite app_length; cbn; lia).
      rewrite FL, LK, H5, <- FK. destruct (HasPrefix fx fk); reflexivity.
    + cbn [app]. rewrite !app_nil_r. pose proof (H1 []) as H1'. rewrite app_nil_r in H1'. pose proof (H2 []) as H2'. cbn [app] in H2'.
      rewrite H1', H2'. cbn [andb]. rewrite LK, H5. reflexivity.
Qed.

(** Matching with a wildcard on at least one side is what it should be. *)
Lemma like_text_exact x lead core trail : lead = true \/ trail = true ->
  (like_text (fun s => s) x lead core trail = true <-> like x lead core trail).
Proof.
  intros LT. unfold like. destruct core as [|c0 c].
  - split; [|reflexivity]. intros _. destruct lead; [exists x, []|exists [], x]; cbn; rewrite ?app_nil_r; repeat split; try congruence.
    destruct LT; congruence.
  - unfold like_text. set (k := c0 :: c). rewrite !orb_true_iff, !andb_true_iff, HasSuffix_spec, HasPrefix_spec, Contains_spec. split.
    + intros [[[-> (u & ->)]|[-> (v & ->)]]|[[-> ->] (u & v & ->)]].
      * exists u, []. rewrite app_nil_r. repeat split; congruence.
      * exists [], v. repeat split; congruence.
      * exists u, v. repeat split; congruence.
    + intros (u & v & -> & U & V). destruct lead, trail.
      * right. split; [auto|]. exists u, v. reflexivity.
      * rewrite V by reflexivity. rewrite app_nil_r. left; left. split; [reflexivity|exists u; reflexivity].
      * rewrite U by reflexivity. left; right. split; [reflexivity|]. exists v. reflexivity.
      * destruct LT; discriminate.
Qed.
Lemma like_text_fold L x lead core trail : ascii_tables L -> is_ascii x -> is_ascii core ->
  like_text (fun s => ToUpper L s) x lead core trail = like_text (fun s => s) (map ascii_upper x) lead (map ascii_upper core) trail.
Proof.
  intros T X C. unfold like_text. destruct core as [|c0 c]; [reflexivity|].
  rewrite !ToUpper_ascii by assumption. reflexivity.
Qed.
Lemma notLike_negates L x p ex b : likeOp L (vStr x) (vStr p) ex = Ok (vBool b) ->
  notLikeOp L (vStr x) (vStr p) ex = Ok (vBool (negb b)).
Proof. intros E. unfold notLikeOp. cbn [IsNull ve_value vStr]. rewrite E. destruct b; reflexivity. Qed.

(** ** IN *)
Lemma in_any_equal L row e args (exact : bool) v : Evaluate L row e = Ok v ->
  (forall a, In a args -> exists b, Evaluate L row (EOperator (if exact then OEqualExactMatch else OEqual) e a) = Ok (vBool b)) ->
  exists b, Evaluate L row (any_equal (if exact then OEqualExactMatch else OEqual) e args) = Ok (vBool b) /\
    in_list L v (map (thunk L row) args) false exact = Ok (vBool b) /\
    in_list L v (map (thunk L row) args) true exact = Ok (vBool (negb b)).
Proof.
  intros Ev. induction args as [|a args IH]; intros H.
  - exists false. repeat split; reflexivity.
  - destruct IH as (b & B1 & B2 & B3); [intros x Hx; apply H; right; exact Hx|].
    destruct (H a (or_introl eq_refl)) as (c & C).
    exists (c || b). cbn [any_equal fold_right map in_list]. fold (any_equal (if exact then OEqualExactMatch else OEqual) e args).
    set (o := if exact then OEqualExactMatch else OEqual) in *.
    assert (Q : exists w t, Evaluate L row a = Ok w /\ deriveComparison (ve_type v) (ve_type w) = Ok t /\ equalOp L v w t exact = Ok (vBool c)).
    { unfold Evaluate in C, Ev. cbn [evaluateAs] in C. rewrite Ev in C. cbn [bind] in C.
      fold (Evaluate L row a) in C. destruct (Evaluate L row a) as [w| |]; cbn [bind] in C; try discriminate C.
      exists w. unfold applyOperator, o in C. destruct exact; cbn [deriveOperation] in C;
        (destruct (deriveComparison (ve_type v) (ve_type w)) as [t| |]; cbn [bind] in C; try discriminate C; exists t; auto). }
    destruct Q as (w & t & Q1 & Q2 & Q3).
    split; [|split].
    + unfold Evaluate in *. cbn [evaluateAs]. cbn [evaluateAs] in C. rewrite C, B1. cbn [bind]. destruct c, b; reflexivity.
    + change (thunk L row a VBoolean) with (Evaluate L row a). rewrite Q1. cbn [bind]. rewrite Q2. cbn [bind]. rewrite Q3. cbn.
      destruct c; [reflexivity|]. exact B2.
    + change (thunk L row a VBoolean) with (Evaluate L row a). rewrite Q1. cbn [bind]. rewrite Q2. cbn [bind]. rewrite Q3. cbn.
      destruct c; [reflexivity|]. exact B3.
Qed.

(** ** Coalesce *)
Lemma coalesce_first L row args vs v : Forall2 (fun a w => Evaluate L row a = Ok w) args vs ->
  coalesce_rest v (map (thunk L row) args) = Ok (match find (fun w => negb (IsNull w)) vs with Some w => w | None => v end).
Proof.
  induction 1 as [|a w args vs E _ IH]; [reflexivity|]. cbn [map coalesce_rest find].
  change (thunk L row a VBoolean) with (Evaluate L row a). rewrite E. cbn [bind].
  destruct (negb (IsNull w)); [reflexivity|exact IH].
Qed.
Lemma fn_coalesce_first L row args vs : args <> [] -> Forall2 (fun a w => Evaluate L row a = Ok w) args vs ->
  fn_coalesce (map (thunk L row) args) = Ok (match find (fun w => negb (IsNull w)) vs with Some w => w | None => hd (vNull VBoolean) vs end).
Proof.
  intros N F. destruct F as [|a w args vs E F]; [congruence|]. cbn [map fn_coalesce find hd].
  change (thunk L row a VBoolean) with (Evaluate L row a). rewrite E. cbn [bind].
  destruct (negb (IsNull w)); [reflexivity|]. apply coalesce_first, F.
Qed.
