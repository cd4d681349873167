(** Proofs about the string functions (C93). *)
From Coq Require Import Lia ZifyBool ZifyNat QArith String.
From Verif Require Import Base BaseProofs GuidModel GuidSpec GuidProofs FormatModel StrModel CalModel CalSpec NumModel ExprModel ExprSpec FuncSpec ExprProofs
  ExprPanic StrProofs ExprPanic2 ExprProofs2 ExprProofs3 ExprProofs5 ExprProofs6 FuncProofs FuncProofs2.
Close Scope Q_scope.
Open Scope list_scope.
Open Scope Z_scope.

Lemma eval_1' L row f x v t k : Evaluate L row x = Ok v -> ~ null v ->
  (forall a, evaluateFunction L f [a] = let* v := a t in k v) -> Evaluate L row (EFunction f [x]) = k v.
Proof. intros X N F. unfold Evaluate. cbn [evaluateAs map]. rewrite F. rewrite (Evaluate_as _ _ _ t _ X N). reflexivity. Qed.
Lemma null_text_as L row e : null_text L row e -> evaluateAs L row e VString = Ok (vNull VString).
Proof.
  intros [->|H]; [reflexivity|]. destruct (Evaluate_null L row e VString VString H) as (t & E & [->| ->]); exact E.
Qed.
Lemma string_map_eval L row f g x s : Evaluate L row x = Ok (vStr s) ->
  (forall a, evaluateFunction L f [a] = let* v := a VString in fn_string_map g v) ->
  Evaluate L row (EFunction f [x]) = Ok (vStr (g s)).
Proof. intros X F. rewrite (eval_1' L row f x (vStr s) VString (fn_string_map g) X ltac:(discriminate) F). reflexivity. Qed.
Lemma string_map_null L row f g x : null_text L row x ->
  (forall a, evaluateFunction L f [a] = let* v := a VString in fn_string_map g v) ->
  Evaluate L row (EFunction f [x]) = Ok (vNull VString).
Proof. intros X F. unfold Evaluate. cbn [evaluateAs map]. rewrite F, (null_text_as L row x X). reflexivity. Qed.

(** ** Trimming *)

Lemma white_space r : rune_is_space r = true <-> white r.
Proof. unfold rune_is_space, white. lia. Qed.
Lemma white_not r : ~ white r -> rune_is_space r = false.
Proof. intros N. destruct (rune_is_space r) eqn:E; [|reflexivity]. exfalso. apply N, white_space, E. Qed.
Lemma trim_eval L row x s u w v : Evaluate L row x = Ok (vStr s) -> text_of s (u ++ w ++ v) ->
  Forall white u -> Forall white v -> no_first white w -> no_last white w ->
  exists r, text_of r w /\ Evaluate L row (EFunction FTrim [x]) = Ok (vStr r).
Proof.
  intros X T U V F N. exists (encode_runes w). split.
  - split; [|reflexivity]. destruct T as [T _]. apply Forall_app in T as [_ T]. apply Forall_app in T as [T _]. exact T.
  - rewrite (string_map_eval L row FTrim str_TrimSpace x s X) by reflexivity. f_equal. f_equal. unfold str_TrimSpace.
    rewrite (trim_right_text _ _ _ (text_left _ _ _ T)). rewrite trim_parts; [reflexivity| | | |].
    + eapply Forall_impl; [|exact U]. intros r. apply white_space.
    + eapply Forall_impl; [|exact V]. intros r. apply white_space.
    + intros r w' E. apply white_not, (F r w' E).
    + intros r w' E. apply white_not, (N r w' E).
Qed.
Lemma cutset_spec r : in_cutset whitespace r = true <-> blank r \/ r = 65533.
Proof.
  unfold in_cutset. change (runes_of whitespace) with [32; 9; 10; 11; 12; 13; 65533; 65533]. cbn [existsb]. unfold blank. lia.
Qed.
Lemma cutset_not r : ~ (white r \/ r = 65533) -> in_cutset whitespace r = false.
Proof.
  intros N. destruct (in_cutset whitespace r) eqn:E; [|reflexivity]. apply cutset_spec in E. exfalso. apply N. unfold blank, white in *. lia.
Qed.
Lemma trim_left_eval L row x s u w : Evaluate L row x = Ok (vStr s) -> text_of s (u ++ w) ->
  Forall blank u -> no_first (fun r => white r \/ r = 65533) w ->
  exists r, text_of r w /\ Evaluate L row (EFunction FTrimLeft [x]) = Ok (vStr r).
Proof.
  intros X T U F. exists (encode_runes w). split.
  - split; [|reflexivity]. destruct T as [T _]. apply Forall_app in T as [_ T]. exact T.
  - rewrite (string_map_eval L row FTrimLeft (fun s => str_TrimLeft s whitespace) x s X) by reflexivity. f_equal. f_equal. unfold str_TrimLeft.
    rewrite (trim_left_text _ _ _ T). f_equal. apply drop_while_unique.
    + eapply Forall_impl; [|exact U]. intros r B. apply cutset_spec. left. exact B.
    + intros r w' E. apply cutset_not, (F r w' E).
Qed.
Lemma trim_right_eval L row x s w v : Evaluate L row x = Ok (vStr s) -> text_of s (w ++ v) ->
  Forall blank v -> no_last (fun r => white r \/ r = 65533) w ->
  exists r, text_of r w /\ Evaluate L row (EFunction FTrimRight [x]) = Ok (vStr r).
Proof.
  intros X T V F. exists (encode_runes w). split.
  - split; [|reflexivity]. destruct T as [T _]. apply Forall_app in T as [T _]. exact T.
  - rewrite (string_map_eval L row FTrimRight (fun s => str_TrimRight s whitespace) x s X) by reflexivity. f_equal. f_equal. unfold str_TrimRight.
    rewrite (trim_right_text _ _ _ T). rewrite rev_app_distr, drop_while_unique; [rewrite rev_involutive; reflexivity| |].
    + apply Forall_rev. eapply Forall_impl; [|exact V]. intros r B. apply cutset_spec. left. exact B.
    + intros r w' E. apply cutset_not, (F r (rev w')). rewrite <- (rev_involutive w), E. reflexivity.
Qed.

(** ** Letter case *)

Lemma lower_ascii s : is_ascii s -> is_ascii (map ascii_lower s).
Proof.
  unfold is_ascii. rewrite Forall_map. apply Forall_impl. intros c. unfold ascii_lower. destruct ((65 <=? c) && (c <=? 90)) eqn:E; lia.
Qed.
Lemma ToLower_ascii L s : lower_table L -> is_ascii s -> ToLower L s = map ascii_lower s.
Proof.
  intros T A. unfold ToLower. rewrite runes_ascii by exact A.
  rewrite <- (encode_ascii (map ascii_lower s)) by (apply lower_ascii, A). f_equal.
  apply map_ext_in. intros c Hc. apply T. eapply List.Forall_forall in A; [exact A|exact Hc].
Qed.
Lemma upper_eval L row x s : ascii_tables L -> Evaluate L row x = Ok (vStr s) -> is_ascii s ->
  Evaluate L row (EFunction FUpper [x]) = Ok (vStr (map ascii_upper s)).
Proof.
  intros T X A. rewrite (string_map_eval L row FUpper (ToUpper L) x s X) by reflexivity. rewrite (ToUpper_ascii L s T A). reflexivity.
Qed.
Lemma lower_eval L row x s : lower_table L -> Evaluate L row x = Ok (vStr s) -> is_ascii s ->
  Evaluate L row (EFunction FLower [x]) = Ok (vStr (map ascii_lower s)).
Proof.
  intros T X A. rewrite (string_map_eval L row FLower (ToLower L) x s X) by reflexivity. rewrite (ToLower_ascii L s T A). reflexivity.
Qed.

(** ** Replace *)

Lemma replace_skip s t r k : replace_from s t r k = replace_from (skipn k s) t r 0.
Proof.
  revert k. induction s as [|x s IH]; intros k; [destruct k; reflexivity|]. destruct k as [|k]; [reflexivity|]. cbn [replace_from skipn]. apply IH.
Qed.
Lemma replace_prefix t r v : t <> [] -> replace_from (t ++ v) t r 0 = r ++ replace_from v t r 0.
Proof.
  intros N. destruct t as [|c t]; [contradiction|]. cbn [app replace_from].
  replace (HasPrefix (c :: t ++ v) (c :: t)) with true by (symmetry; apply HasPrefix_spec; exists v; reflexivity).
  f_equal. rewrite replace_skip. cbn [length]. rewrite Nat.sub_succ, Nat.sub_0_r, skipn_app, skipn_all, Nat.sub_diag. reflexivity.
Qed.
Lemma replace_spec t r s : t <> [] -> replaced t r s (replace_from s t r 0).
Proof.
  intros N. remember (length s) as n eqn:E. revert s E. induction n as [n IH] using (well_founded_induction lt_wf). intros s ->.
  destruct s as [|x s].
  - apply replaced_none. intros i O. apply occurs_nil in O as [_ O]. contradiction.
  - destruct (HasPrefix (x :: s) t) eqn:P.
    + apply HasPrefix_spec in P as [v V]. rewrite V, (replace_prefix t r v N).
      change (t ++ v) with ([] ++ t ++ v). change (r ++ replace_from v t r 0) with ([] ++ r ++ replace_from v t r 0). apply replaced_first.
      * intros i O. apply occurs_nonneg in O. cbn. lia.
      * apply (IH (length v)); [|reflexivity]. rewrite V, app_length. destruct t; [contradiction|]. cbn. lia.
    + cbn [replace_from]. rewrite P. specialize (IH (length s) ltac:(cbn; lia) s eq_refl).
      destruct IH as [s NO|u s z F R].
      * apply replaced_none. intros i O. apply occurs_cons in O as [[_ H]|H]; [congruence|]. exact (NO _ H).
      * change (x :: u ++ t ++ s) with ((x :: u) ++ t ++ s). change (x :: u ++ r ++ z) with ((x :: u) ++ r ++ z). apply replaced_first; [|exact R].
        intros i O. cbn [app] in O. apply occurs_cons in O as [[_ H]|H]; [congruence|]. apply F in H. unfold len in *. cbn [length]. lia.
Qed.
Lemma occurs_here (u t s : bytes) : occurs_at (u ++ t ++ s) t (len u).
Proof. exists u, s. auto. Qed.
Lemma replaced_unique t r s z z' : t <> [] -> replaced t r s z -> replaced t r s z' -> z = z'.
Proof.
  intros N R. revert z'. induction R as [s NO|u s z F R IH]; intros z' R'.
  - inversion R' as [s0 NO' E1 E2|u s1 z1 F' R1 E1 E2]; subst; [reflexivity|]. exfalso. exact (NO _ (occurs_here _ _ _)).
  - inversion R' as [s0 NO' E1 E2|u' s1 z1 F' R1 E1 E2]; subst; [exfalso; exact (NO' _ (occurs_here _ _ _))|].
    assert (LE : len u = len u').
    { pose proof (F (len u') ltac:(rewrite <- E1; apply occurs_here)). pose proof (F' (len u) ltac:(rewrite E1; apply occurs_here)). lia. }
    assert (U : u' = u /\ s1 = s).
    { assert (LN : length u' = length u) by (unfold len in LE; lia). clear - E1 LN.
      revert u' E1 LN. induction u as [|a u IH]; intros [|a' u'] E1 LN; try discriminate.
      - cbn [app] in E1. apply app_inv_head in E1. auto.
      - cbn [app] in E1. injection E1 as -> E1. injection LN as LN. destruct (IH u' E1 LN) as [-> ->]. auto. }
    destruct U as [-> ->]. rewrite (IH z1 R1). reflexivity.
Qed.
Lemma replace_eval L row x y z s t r : Evaluate L row x = Ok (vStr s) -> Evaluate L row y = Ok (vStr t) -> Evaluate L row z = Ok (vStr r) -> t <> [] ->
  Evaluate L row (EFunction FReplace [x; y; z]) = Ok (vStr (replace_from s t r 0)).
Proof.
  intros X Y Z N. unfold Evaluate. cbn [evaluateAs map evaluateFunction].
  rewrite (Evaluate_as _ _ _ VString _ X), (Evaluate_as _ _ _ VString _ Y), (Evaluate_as _ _ _ VString _ Z) by discriminate. cbn [bind].
  unfold fn_replace. destruct t as [|c t]; [contradiction|]. reflexivity.
Qed.
Lemma replace_eval_4 L row x y z b s t r : Evaluate L row x = Ok (vStr s) -> Evaluate L row y = Ok (vStr t) -> Evaluate L row z = Ok (vStr r) ->
  Evaluate L row b = Ok (vBool false) -> t <> [] ->
  Evaluate L row (EFunction FReplace [x; y; z; b]) = Ok (vStr (replace_from s t r 0)).
Proof.
  intros X Y Z B N. unfold Evaluate. cbn [evaluateAs map evaluateFunction].
  rewrite (Evaluate_as _ _ _ VString _ X), (Evaluate_as _ _ _ VString _ Y), (Evaluate_as _ _ _ VString _ Z), (Evaluate_as _ _ _ VBoolean _ B) by discriminate. cbn [bind].
  unfold fn_replace. destruct t as [|c t]; [contradiction|]. reflexivity.
Qed.
Lemma replace_null L row x y z t r : null_text L row x -> Evaluate L row y = Ok (vStr t) -> Evaluate L row z = Ok (vStr r) ->
  Evaluate L row (EFunction FReplace [x; y; z]) = Ok (vNull VString).
Proof.
  intros X Y Z. unfold Evaluate. cbn [evaluateAs map evaluateFunction].
  rewrite (null_text_as L row x X), (Evaluate_as _ _ _ VString _ Y), (Evaluate_as _ _ _ VString _ Z) by discriminate. reflexivity.
Qed.

(** ** StrCmp, StrCount *)

Lemma strcmp_eval L row args s t : ascii_tables L -> texts L row args s t ->
  Evaluate L row (EFunction FStrCmp args) = Ok (vInt32 (sign_of (lex s t))).
Proof.
  intros AT T. apply (texts_args L row args s t (fn_strCmp L) FStrCmp (fun r => r = Ok (vInt32 (sign_of (lex s t)))) AT T).
  - fn_shape.
  - intros s0 t0 ic b I S0 T0. unfold fn_strCmp. cbn [is_str vStr ve_type vtype_eqb negb IsNull ve_value andb].
    rewrite (ic_value L ic b I). cbn [bind stringValue ve_value vStr]. rewrite S0, T0, str_compare_lex.
    destruct (lex s t); reflexivity.
Qed.
Lemma strcmp_nulls L row x y s : Evaluate L row y = Ok (vStr s) -> null_text L row x ->
  Evaluate L row (EFunction FStrCmp [x; x]) = Ok (vInt32 0) /\
  Evaluate L row (EFunction FStrCmp [x; y]) = Ok (vInt32 1) /\
  Evaluate L row (EFunction FStrCmp [y; x]) = Ok (vInt32 (-1)).
Proof.
  intros Y X. unfold Evaluate. cbn [evaluateAs map evaluateFunction].
  rewrite (null_text_as L row x X), (Evaluate_as _ _ _ VString _ Y) by discriminate. repeat split; reflexivity.
Qed.
Lemma strcount_nulls L row x y s : Evaluate L row y = Ok (vStr s) -> null_text L row x ->
  Evaluate L row (EFunction FStrCount [x; y]) = Ok (vInt32 0) /\ Evaluate L row (EFunction FStrCount [y; x]) = Ok (vInt32 0).
Proof.
  intros Y X. unfold Evaluate. cbn [evaluateAs map evaluateFunction].
  rewrite (null_text_as L row x X), (Evaluate_as _ _ _ VString _ Y) by discriminate. repeat split; reflexivity.
Qed.
