From Coq Require Import Lia ZifyBool ZifyNat String Permutation.
From Verif Require Import Base FormatModel FormatSpec FormatProofs ExprModel TableModel TableProofs3 ParseModel ParseSpec LexModel LexSpec TextModel TextSpec DisplayModel DisplaySpec.
Open Scope list_scope.
Open Scope Z_scope.

(** ** Lists of items *)

Lemma listing_false l : forall x, listed (x :: l) (x ++ listing false l).
Proof.
  induction l as [|y l IH]; intros x; cbn [listing].
  - rewrite app_nil_r. constructor.
  - constructor. apply IH.
Qed.
Lemma listing_listed l : listed l (listing true l).
Proof. destruct l as [|x l]; [constructor|]. cbn [listing app]. apply listing_false. Qed.
Lemma listed_fun l s : listed l s -> forall s', listed l s' -> s = s'.
Proof.
  induction 1 as [|x|x y l s H IH]; intros s' K; inversion K; subst; [reflexivity..|]. f_equal. f_equal. apply IH. assumption.
Qed.
(** Without commas in them, items can be told from their list. *)
Lemma comma_cut a b x y : ~ In 44 a -> ~ In 44 b -> a ++ 44 :: x = b ++ 44 :: y -> a = b /\ x = y.
Proof.
  revert b. induction a as [|c a IH]; intros [|d b] A B E; cbn [app] in E.
  - injection E as E. auto.
  - injection E as E1 E. subst. exfalso. apply B. left. reflexivity.
  - injection E as E1 E. subst. exfalso. apply A. left. reflexivity.
  - injection E as E1 E. subst. destruct (IH b) as (-> & ->); [intros K; apply A; right; exact K|intros K; apply B; right; exact K|exact E|]. auto.
Qed.
Lemma listed_inj l s : listed l s -> Forall (fun x => ~ In 44 x) l -> forall l', listed l' s -> Forall (fun x => ~ In 44 x) l' -> length l = length l' -> l = l'.
Proof.
  induction 1 as [|x|x y l s H IH]; intros F l' K F' E.
  - destruct l'; [reflexivity|discriminate].
  - destruct l' as [|x' [|]]; try discriminate. inversion K; subst. reflexivity.
  - destruct l' as [|x' [|y' l']]; try discriminate. inversion K as [| |a b c d K1]; subst.
    inversion F as [|? ? X F1]; subst. inversion F' as [|? ? X' F1']; subst.
    match goal with J : _ ++ _ = _ ++ _ |- _ => change (lit ", ") with [44; 32] in J; cbn [app] in J; apply comma_cut in J; [destruct J as (J1 & J2); injection J2 as J2; subst|assumption..] end.
    f_equal. apply IH; [assumption..|]. cbn [length] in *. lia.
Qed.

(** ** Columns *)

Lemma paren_cut a b x y : ~ In 40 x -> ~ In 40 y -> a ++ 40 :: x = b ++ 40 :: y -> a = b /\ x = y.
Proof.
  revert b. induction a as [|c a IH]; intros [|d b] X Y E; cbn [app] in E.
  - injection E as E. auto.
  - injection E as E1 E. subst. exfalso. apply X. apply in_or_app. right. left. reflexivity.
  - injection E as E1 E. subst. exfalso. apply Y. apply in_or_app. right. left. reflexivity.
  - injection E as E1 E. subst. destruct (IH b X Y E) as (-> & ->). auto.
Qed.
Definition shape (t : dtype) (computed : bool) : bytes := (if computed then lit "Computed " else []) ++ dtype_name t ++ lit ")".
Lemma ColumnString_shape c : ColumnString c = (dc_name c ++ [32]) ++ 40 :: shape (dc_type c) (match dc_tree c with Some _ => true | None => false end).
Proof. unfold ColumnString, shape. change (lit " (") with [32; 40]. rewrite <- app_assoc. destruct (dc_tree c); cbn [app]; rewrite <- ?app_assoc; reflexivity. Qed.
Lemma shape_paren t b : ~ In 40 (shape t b).
Proof. intros H. destruct t, b; cbv in H; repeat (destruct H as [H|H]; [discriminate|]); exact H. Qed.
Lemma shape_inj t b t' b' : shape t b = shape t' b' -> t = t' /\ b = b'.
Proof. destruct t, b, t', b'; intros H; try (split; reflexivity); cbv in H; discriminate. Qed.
Lemma ColumnString_inj c c' : ColumnString c = ColumnString c' ->
  dc_name c = dc_name c' /\ dc_type c = dc_type c' /\ (dc_tree c = None <-> dc_tree c' = None).
Proof.
  rewrite !ColumnString_shape. intros H. apply paren_cut in H; [|apply shape_paren..]. destruct H as (N & T). apply app_inj_tail in N. apply shape_inj in T.
  destruct N as (N & _), T as (T & C). split; [exact N|]. split; [exact T|]. destruct (dc_tree c), (dc_tree c'); try discriminate; split; intros; congruence.
Qed.

(** ** Rows *)

Section Row.
Variables (depth : nat) (D : dlib) (t : dtable) (vals : list (option slot)).
Definition column_fails (c : dcol) : Prop := TypedValue depth D t vals (dc_index c) (dc_type c) = Panic.
Lemma cell_text_shown x : value_shown D (Some x) (cell_text D x).
Proof. destruct x; try constructor. destruct b; constructor. Qed.
Lemma dtype_string ty : dtype_eqb ty DString = true <-> ty = DString.
Proof. destruct ty; cbn; split; intros; congruence. Qed.
Definition quote (c : dcol) (s : bytes) : bytes := if dtype_eqb (dc_type c) DString then [34] ++ s ++ [34] else s.
Lemma value_cases i c : Column t i = Some c ->
  (column_fails c /\ ValueAsString depth D t vals i = Panic) \/
  exists s, ValueAsString depth D t vals i = Ok s /\ column_shown depth D t vals c (quote c s).
Proof.
  intros C. unfold ValueAsString. rewrite C. cbn [ColumnValueAsString]. unfold column_fails, quote.
  pose proof (dtype_string (dc_type c)) as T.
  destruct (TypedValue depth D t vals (dc_index c) (dc_type c)) as [[x|]| |] eqn:E; [right|right|right|left; auto]; (eexists; split; [reflexivity|]);
    destruct (dtype_eqb (dc_type c) DString); try (assert (Q : dc_type c <> DString) by (intros K; apply T in K; discriminate)); try (assert (Q : dc_type c = DString) by (apply T; reflexivity)).
  - eapply (cs_string _ _ _ _ _ (Some x)); [exact E|apply cell_text_shown|exact Q].
  - eapply (cs_value _ _ _ _ _ (Some x)); [exact E|apply cell_text_shown|exact Q].
  - eapply (cs_string _ _ _ _ _ None); [exact E|constructor|exact Q].
  - eapply (cs_value _ _ _ _ _ None); [exact E|constructor|exact Q].
  - eapply cs_string_failed; assumption.
  - eapply cs_failed; assumption.
Qed.
Lemma row_loop_spec n : forall k image, (k + n = length (dt_columns t))%nat ->
  let cs := skipn k (dt_columns t) in
  (Exists column_fails cs /\ row_loop depth D t vals n (Z.of_nat k) image = Panic) \/
  exists texts, Forall2 (column_shown depth D t vals) cs texts /\ row_loop depth D t vals n (Z.of_nat k) image = Ok (image ++ listing (Nat.eqb k 0) texts).
Proof.
  induction n as [|n IH]; intros k image E cs.
  - right. exists []. subst cs. rewrite skipn_all2 by lia. cbn [row_loop listing]. rewrite app_nil_r. split; [constructor|reflexivity].
  - cbn [row_loop]. rewrite Column_of_nat. destruct (nth_error (dt_columns t) k) as [c|] eqn:N; [|apply nth_error_None in N; lia].
    assert (X : cs = c :: skipn (S k) (dt_columns t)).
    { subst cs. clear -N. revert N. generalize (dt_columns t). induction k as [|k IH]; intros [|x l] N; cbn in *; try discriminate; [injection N as ->; reflexivity|apply IH; exact N]. }
    assert (CC : Column t (Z.of_nat k) = Some c) by (rewrite Column_of_nat; exact N).
    destruct (value_cases _ _ CC) as [(F & P)|(s & V & SH)].
    + left. rewrite P. cbn [bind]. split; [rewrite X; left; exact F|reflexivity].
    + rewrite V. cbn [bind]. replace (Z.of_nat k + 1) with (Z.of_nat (S k)) by lia.
      match goal with |- context [row_loop depth D t vals n (Z.of_nat (S k)) ?im] => destruct (IH (S k) im) as [(F & P)|(ts & F & P)]; [lia|left|right] end.
      * split; [rewrite X; right; exact F|exact P].
      * exists (quote c s :: ts). rewrite X. split; [constructor; assumption|]. rewrite P. f_equal. cbn [listing Nat.eqb]. unfold quote.
        destruct k; cbn [Nat.eqb]; [replace (0 <? Z.of_nat 0) with false by lia|replace (0 <? Z.of_nat (S k)) with true by lia];
          destruct (dtype_eqb (dc_type c) DString); rewrite <- ?app_assoc; reflexivity.
Qed.
Lemma RowString_spec :
  (Exists column_fails (dt_columns t) /\ RowString depth D t vals = Panic) \/
  exists texts s, Forall2 (column_shown depth D t vals) (dt_columns t) texts /\ listed texts s /\ RowString depth D t vals = Ok (lit "[" ++ s ++ lit "]").
Proof.
  unfold RowString. destruct (row_loop_spec (length (dt_columns t)) 0 [91]) as [(F & P)|(ts & F & P)]; [lia|left|right].
  - cbn [skipn] in F. change (Z.of_nat 0) with 0 in P. rewrite P. auto.
  - cbn [skipn] in F. change (Z.of_nat 0) with 0 in P. rewrite P. exists ts, (listing true ts). split; [exact F|]. split; [apply listing_listed|]. cbn [bind Nat.eqb]. rewrite <- app_assoc. reflexivity.
Qed.
End Row.

(** ** Names *)

Lemma named_in table x n : NoDup (map fst table) -> In (x, n) table -> named table x = lit n.
Proof.
  induction table as [|(c, m) table IH]; intros N I; [destruct I|]. cbn [named]. inversion N; subst. destruct I as [E|I].
  - injection E as -> ->. rewrite Z.eqb_refl. reflexivity.
  - destruct (x =? c) eqn:E; [|apply IH; assumption]. apply Z.eqb_eq in E. subst. exfalso. apply H1. apply in_map_iff. exists (c, n). auto.
Qed.
Lemma named_out table x : ~ In x (map fst table) -> named table x = lit "0x" ++ FormatHex x.
Proof.
  induction table as [|(c, m) table IH]; intros N; [reflexivity|]. cbn [named]. destruct (x =? c) eqn:E; [apply Z.eqb_eq in E; subst; exfalso; apply N; left; reflexivity|].
  apply IH. intros I. apply N. right. exact I.
Qed.
Lemma hex_digit_value x : 0 <= x < 16 -> (if hex_digit x <=? 57 then hex_digit x - 48 else hex_digit x - 87) = x.
Proof. unfold hex_digit. intros. destruct (x <? 10) eqn:E; match goal with |- (if ?b then _ else _) = _ => destruct b eqn:F end; lia. Qed.
Lemma hex_digits_value f : forall x acc a, 0 <= x < 16 ^ Z.of_nat f -> a = 0 ->
  fold_left (fun a c => 16 * a + (if c <=? 57 then c - 48 else c - 87)) (hex_digits f x acc) a = fold_left (fun a c => 16 * a + (if c <=? 57 then c - 48 else c - 87)) acc x.
Proof.
  induction f as [|f IH]; intros x acc a X ->; [change (16 ^ Z.of_nat 0) with 1 in X; replace x with 0 by lia; reflexivity|].
  cbn [hex_digits]. destruct (x <? 16) eqn:E.
  - cbn [fold_left]. rewrite hex_digit_value by lia. rewrite Z.mul_0_r, Z.add_0_l. reflexivity.
  - assert (R : 0 <= x / 16 < 16 ^ Z.of_nat f) by (rewrite Nat2Z.inj_succ, Z.pow_succ_r in X by lia; split; [apply Z.div_pos; lia|apply Z.div_lt_upper_bound; lia]).
    rewrite IH by first [exact R|reflexivity].
    cbn [fold_left]. pose proof (Z.mod_pos_bound x 16 ltac:(lia)) as M. rewrite hex_digit_value by exact M. f_equal. pose proof (Z.div_mod x 16 ltac:(lia)). lia.
Qed.
Lemma FormatHex_value x : 0 <= x < 65536 -> hex_value (FormatHex x) = x.
Proof. intros X. unfold hex_value, FormatHex. rewrite hex_digits_value; [reflexivity|exact X|reflexivity]. Qed.
(** No name begins like a number, and no two names are alike. *)
Definition proper (table : list (Z * string)) : bool :=
  forallb (fun e => negb (Z.eqb (hd 0 (lit (snd e))) 48)) table.
Lemma named_inj table x y : NoDup (map fst table) -> NoDup (map (fun e => lit (snd e)) table) -> proper table = true ->
  0 <= x < 65536 -> 0 <= y < 65536 -> named table x = named table y -> x = y.
Proof.
  intros N M P X Y E.
  assert (K : forall z, (exists n, In (z, n) table) \/ ~ In z (map fst table)).
  { intros z. destruct (in_dec Z.eq_dec z (map fst table)) as [I|I]; [left|right; exact I]. apply in_map_iff in I. destruct I as ((c, n) & J & I). cbn in J. subst. exists n. exact I. }
  assert (Q : forall z n, In (z, n) table -> hd 0 (lit n) <> 48).
  { intros z n I. unfold proper in P. rewrite forallb_forall in P. specialize (P _ I). cbn [snd] in P. lia. }
  assert (U : forall z n w m, In (z, n) table -> In (w, m) table -> lit n = lit m -> z = w).
  { clear -M. intros z n w m I J H. induction table as [|e table IH]; [destruct I|]. cbn [map] in M. inversion M; subst. destruct I as [->|I], J as [J|J].
    - injection J as ->. reflexivity.
    - exfalso. apply H2. apply in_map_iff. exists (w, m). cbn [snd]. auto.
    - exfalso. apply H2. apply in_map_iff. exists (z, n). subst. cbn [snd]. auto.
    - apply IH; assumption. }
  destruct (K x) as [(n & I)|I], (K y) as [(m & J)|J].
  - rewrite (named_in _ _ _ N I), (named_in _ _ _ N J) in E. exact (U _ _ _ _ I J E).
  - rewrite (named_in _ _ _ N I), (named_out _ _ J) in E. exfalso. apply (Q _ _ I). rewrite E. reflexivity.
  - rewrite (named_out _ _ I), (named_in _ _ _ N J) in E. exfalso. apply (Q _ _ J). rewrite <- E. reflexivity.
  - rewrite (named_out _ _ I), (named_out _ _ J) in E. apply app_inv_head in E. rewrite <- (FormatHex_value x X), <- (FormatHex_value y Y), E. reflexivity.
Qed.
Fixpoint distinct_texts (l : list bytes) : bool :=
  match l with [] => true | x :: l => negb (existsb (fun y => if list_eq_dec Z.eq_dec x y then true else false) l) && distinct_texts l end.
Lemma distinct_texts_NoDup l : distinct_texts l = true -> NoDup l.
Proof.
  induction l as [|x l IH]; intros H; constructor; cbn [distinct_texts] in H; apply andb_prop in H; destruct H as (H & K); [|apply IH; exact K].
  intros I. apply negb_true_iff in H. assert (J : existsb (fun y => if list_eq_dec Z.eq_dec x y then true else false) l = true); [|congruence].
  apply existsb_exists. exists x. split; [exact I|]. destruct (list_eq_dec Z.eq_dec x x); congruence.
Qed.
Fixpoint distinct_codes (l : list Z) : bool := match l with [] => true | x :: l => negb (existsb (Z.eqb x) l) && distinct_codes l end.
Lemma distinct_codes_NoDup l : distinct_codes l = true -> NoDup l.
Proof.
  induction l as [|x l IH]; intros H; constructor; cbn [distinct_codes] in H; apply andb_prop in H; destruct H as (H & K); [|apply IH; exact K].
  intros I. apply negb_true_iff in H. assert (J : existsb (Z.eqb x) l = true); [|congruence]. apply existsb_exists. exists x. split; [exact I|apply Z.eqb_refl].
Qed.

(** ** Operators and functions, read back *)

Lemma func_tokens f : Tokens (func_name f) = [TFunc f].
Proof. destruct f; vm_compute; reflexivity. Qed.

Lemma oper_tokens o : Tokens (oper_name o) =
  match o with
  | OMultiply => [TSym Star] | ODivide => [TSym Slash] | OModulus => [TSym Percent] | OAdd => [TSym Plus] | OSubtract => [TSym Minus]
  | OBitShiftLeft => [TSym Shl] | OBitShiftRight => [TSym Shr] | OBitwiseAnd => [TSym Amp] | OBitwiseOr => [TSym Bar] | OBitwiseXor => [TSym Caret]
  | OLessThan => [TSym Less] | OLessThanOrEqual => [TSym LessEq] | OGreaterThan => [TSym Greater] | OGreaterThanOrEqual => [TSym GreaterEq]
  | OEqual => [TSym Eq1] | OEqualExactMatch => [TSym Eq3] | ONotEqual => [TSym LessGreater] | ONotEqualExactMatch => [TSym BangEq2]
  | OIsNull => [TKey KIs; TKey KNull] | OIsNotNull => [TKey KIs; TKey KNot; TKey KNull]
  | OLike => [TKey KLike] | OLikeExactMatch => [TKey KLike; TKey KBinary] | ONotLike => [TKey KNot; TKey KLike]
  | ONotLikeExactMatch => [TKey KNot; TKey KLike; TKey KBinary] | OAnd => [TKey KAnd] | OOr => [TKey KOr]
  end.
Proof. destruct o; vm_compute; reflexivity. Qed.
Lemma unary_tokens_of u : Tokens (unary_name u) = match u with UPlus => [TSym Plus] | UMinus => [TSym Minus] | UNot => [TSym Tilde] end.
Proof. destruct u; vm_compute; reflexivity. Qed.

Section Read.
Variables (L : lib) (column : bytes -> expr -> Prop) (ta tb : list token) (a b : ptree) (x y : expr).
Hypotheses (A : operand ta a) (B : operand tb b) (DA : TextSpec.denotes L column a x) (DB : TextSpec.denotes L column b y).
Lemma operand_cons ts e : operand ts e -> exists t r, ts = t :: r /\ ~ In t not_tokens.
Proof.
  intros (W & N). destruct ts as [|t r].
  - exfalso. clear -W. remember LUnary as l eqn:El. remember (@nil token) as ts eqn:E. revert El E. induction W; intros El E; try discriminate; try (destruct a0; discriminate).
  - exists t, r. split; [reflexivity|]. intros I. exact (N t I eq_refl).
Qed.
Lemma like_logical ts e : says LLike (ta ++ ts) e -> says LLogical (ta ++ ts) e.
Proof. destruct (operand_cons _ _ A) as (t & r & -> & N). cbn [app]. intros H. constructor. constructor; assumption. Qed.
Lemma left_not : says LNot ta a.
Proof. destruct (operand_cons _ _ A) as (t & r & E & N). destruct A as (W & _). rewrite E in *. constructor; [|exact N]. repeat constructor. exact W. Qed.
Lemma right_not : says LNot tb b.
Proof. destruct (operand_cons _ _ B) as (t & r & E & N). destruct B as (W & _). rewrite E in *. constructor; [|exact N]. repeat constructor. exact W. Qed.
Ltac in_list := cbn; repeat (first [left; reflexivity|right]).
Lemma math_reads o op : In o math_tokens -> In (o, op) math_meaning -> exists e, says LLogical (ta ++ o :: tb) e /\ TextSpec.denotes L column e (EOperator op x y).
Proof.
  intros I M. exists (PMath o a b). split; [|apply (d_math _ _ o op); assumption]. apply like_logical. do 4 constructor. destruct A, B. apply says_math; [constructor; assumption|exact I|assumption].
Qed.
Lemma bitwise_reads o op : In o bitwise_tokens -> In (o, op) bitwise_meaning -> exists e, says LLogical (ta ++ o :: tb) e /\ TextSpec.denotes L column e (EOperator op x y).
Proof.
  intros I M. exists (PBitwise o a b). split; [|apply (d_bitwise _ _ o op); assumption]. apply like_logical. do 3 constructor. destruct A, B. apply says_bitwise; [do 2 constructor; assumption|exact I|constructor; assumption].
Qed.
Lemma comparison_reads o op : In o comparison_tokens -> In (o, op) comparison_meaning -> exists e, says LLogical (ta ++ o :: tb) e /\ TextSpec.denotes L column e (EOperator op x y).
Proof.
  intros I M. exists (PCompare o a b). split; [|apply (d_comparison _ _ o op); assumption]. apply like_logical. constructor. destruct A, B. apply says_comparison; [do 4 constructor; assumption|exact I|do 3 constructor; assumption].
Qed.
Lemma logical_reads o op : In o logical_tokens -> In (o, op) logical_meaning -> exists e, says LLogical (ta ++ o :: tb) e /\ TextSpec.denotes L column e (EOperator op x y).
Proof.
  intros I M. exists (PLogical o a b). split; [|apply (d_logical _ _ o op); assumption]. apply says_logical; [constructor; apply left_not|exact I|apply right_not].
Qed.
Lemma like_reads n nts e xts op : maybe not_tokens n nts -> maybe exact_tokens e xts -> In (n, e, op) like_meaning ->
  exists p, says LLogical (ta ++ nts ++ TKey KLike :: xts ++ tb) p /\ TextSpec.denotes L column p (EOperator op x y).
Proof.
  intros N X M. exists (PLike n e a b). split; [|apply (d_like _ _ n e op); assumption]. apply like_logical. destruct A, B. apply says_like; [do 5 constructor; assumption|exact N|exact X|do 4 constructor; assumption].
Qed.
Lemma null_reads n nts op : maybe not_tokens n nts -> op = (if n then OIsNotNull else OIsNull) ->
  exists p, says LLogical (ta ++ TKey KIs :: nts ++ [TKey KNull]) p /\ TextSpec.denotes L column p (EOperator op x ENil).
Proof.
  intros N ->. exists (PIsNull n a). split; [|destruct n; constructor; assumption]. apply like_logical. do 2 constructor. destruct A. apply says_is_null; [do 3 constructor; assumption|exact N].
Qed.
Lemma oper_reads o : o <> OIsNull -> o <> OIsNotNull ->
  exists e, says LLogical (ta ++ Tokens (oper_name o) ++ tb) e /\ TextSpec.denotes L column e (EOperator o x y).
Proof.
  intros N1 N2. rewrite oper_tokens. destruct o; try congruence; cbn [app];
    first [apply math_reads; in_list; fail | apply bitwise_reads; in_list; fail | apply comparison_reads; in_list; fail | apply logical_reads; in_list; fail | idtac].
  - apply (like_reads false [] false []); [constructor|constructor|in_list].
  - apply (like_reads false [] true [TKey KBinary]); [constructor|constructor; in_list|in_list].
  - apply (like_reads true [TKey KNot] false []); [constructor; in_list|constructor|in_list].
  - apply (like_reads true [TKey KNot] true [TKey KBinary]); [constructor; in_list|constructor; in_list|in_list].
Qed.
Lemma null_oper_reads o : o = OIsNull \/ o = OIsNotNull -> exists e, says LLogical (ta ++ Tokens (oper_name o)) e /\ TextSpec.denotes L column e (EOperator o x ENil).
Proof.
  rewrite oper_tokens. intros [->| ->].
  - apply (null_reads false []); [constructor|reflexivity].
  - apply (null_reads true [TKey KNot]); [constructor; in_list|reflexivity].
Qed.
Lemma unary_reads u : exists e, says LUnary (Tokens (unary_name u) ++ ta) e /\ TextSpec.denotes L column e (EUnary u x).
Proof.
  rewrite unary_tokens_of. destruct A as (W & _). destruct u; cbn [app]; (eexists; split; [apply says_unary; [|exact W]; in_list|]); (eapply d_unary; [|exact DA]); in_list.
Qed.
End Read.
