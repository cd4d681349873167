(** Proofs about ORDER BY: C61, C62. *)
From Coq Require Import String QArith Permutation Lia ZifyBool ZifyNat.
From Verif Require Import Base GuidModel GuidSpec GuidProofs StrModel NumModel ExprModel StrProofs ExprSpec ExprProofs2 TableModel TableSpec TableProofs.
Close Scope Q_scope.
Open Scope Z_scope.

(** ** Comparisons that order a type *)
Definition cmp_ok {A} (P : A -> Prop) (cmp : A -> A -> comparison) : Prop :=
  (forall a b, P a -> P b -> cmp b a = CompOpp (cmp a b)) /\
  (forall a b c, P a -> P b -> P c -> cmp a b = Lt -> cmp b c = Lt -> cmp a c = Lt) /\
  (forall a b c, P a -> P b -> P c -> cmp a b = Eq -> cmp a c = cmp b c).

Lemma cmp_ok_sub {A} (P Q : A -> Prop) cmp : (forall a, Q a -> P a) -> cmp_ok P cmp -> cmp_ok Q cmp.
Proof. intros H (H1 & H2 & H3). repeat split; eauto. Qed.
Lemma cmp_ok_map {A B} (P : A -> Prop) (Q : B -> Prop) (f : A -> B) cmp :
  (forall a, P a -> Q (f a)) -> cmp_ok Q cmp -> cmp_ok P (fun a b => cmp (f a) (f b)).
Proof. intros H (H1 & H2 & H3). repeat split; eauto. Qed.
Lemma cmp_ok_ext {A} (P : A -> Prop) cmp cmp' :
  (forall a b, P a -> P b -> cmp' a b = cmp a b) -> cmp_ok P cmp -> cmp_ok P cmp'.
Proof.
  intros H (H1 & H2 & H3). split; [|split].
  - intros a b Ha Hb. rewrite !H by assumption. auto.
  - intros a b c Ha Hb Hc. rewrite !H by assumption. eauto.
  - intros a b c Ha Hb Hc. rewrite !H by assumption. eauto.
Qed.
Lemma cmp_ok_lex : cmp_ok (fun _ => True) lex.
Proof.
  split; [|split].
  - intros. apply lex_antisym.
  - intros a b c _ _ _. apply lex_trans.
  - intros a b c _ _ _ H. apply lex_eq in H. subst. reflexivity.
Qed.
Lemma cmp_ok_Z : cmp_ok (fun _ => True) Z.compare.
Proof.
  split; [|split].
  - intros. apply Z.compare_antisym.
  - intros a b c _ _ _ H1 H2. rewrite Z.compare_lt_iff in *. lia.
  - intros a b c _ _ _ H. apply Z.compare_eq in H. subst. reflexivity.
Qed.
Lemma cmp_ok_Q : cmp_ok (fun _ => True) Qcompare.
Proof.
  split; [|split].
  - intros. symmetry. apply Qcompare_antisym.
  - intros a b c _ _ _ H1 H2. rewrite <- Qlt_alt in *. eapply Qlt_trans; eassumption.
  - intros a b c _ _ _ H. apply Qeq_alt in H. apply Qcompare_comp; [exact H|reflexivity].
Qed.
Definition float_rank (f : spec_float) : list Z :=
  match f with
  | S754_zero _ => [0]
  | S754_infinity s => [if s then -2 else 2]
  | S754_finite false m e => [1; e; Zpos m]
  | S754_finite true m e => [-1; - e; Zneg m]
  | S754_nan => []
  end.
Lemma SFcompare_rank x y : x <> S754_nan -> y <> S754_nan -> SFcompare x y = Some (lex (float_rank x) (float_rank y)).
Proof.
  intros Hx Hy. destruct x as [sx|sx| |sx mx ex]; destruct y as [sy|sy| |sy my ey]; try congruence;
    try destruct sx; try destruct sy; try reflexivity; cbn [SFcompare float_rank lex]; cbn; f_equal.
  - rewrite Z.compare_opp, (Z.compare_antisym ex ey).
    destruct (ex ?= ey) eqn:E; cbn; [|reflexivity|reflexivity].
    unfold Pos.compare. destruct (Pos.compare_cont Eq mx my); reflexivity.
  - destruct (ex ?= ey) eqn:E; [|reflexivity|reflexivity].
    unfold Pos.compare. destruct (Pos.compare_cont Eq mx my); reflexivity.
Qed.

Definition cell_of (ty : dtype) (c : cell) : Prop := cell_type c = ty /\ not_nan c.
Definition cell_key (L : lib) (exact : bool) (c : cell) : list Z :=
  match c with
  | CStr s => if exact then s else ToUpper L s
  | CBool b => [if b then 0 else 1]
  | CSingle f | CDouble f => float_rank f
  | CGuid g => g
  | CTime n | CInt8 n | CInt16 n | CInt32 n | CInt64 n | CUInt8 n | CUInt16 n | CUInt32 n | CUInt64 n => [n]
  | CDec _ => []
  end.
Lemma lex1 (x y : Z) : lex [x] [y] = (x ?= y).
Proof. cbn. destruct (x ?= y); reflexivity. Qed.
Lemma value_order_key L exact ty a b :
  ty <> DDecimal -> cell_of ty a -> cell_of ty b -> value_order L exact a b = lex (cell_key L exact a) (cell_key L exact b).
Proof.
  intros Hd [Ta Na] [Tb Nb].
  destruct a; destruct b; cbn [cell_type] in Ta, Tb; try congruence;
    cbn [value_order cell_key]; rewrite ?lex1; try reflexivity.
  - destruct exact; reflexivity.
  - destruct b0, b; reflexivity.
  - rewrite SFcompare_rank; [reflexivity| |]; intros ->; [destruct Na; congruence|destruct Nb; congruence].
  - rewrite SFcompare_rank; [reflexivity| |]; intros ->; [destruct Na; congruence|destruct Nb; congruence].
Qed.
Lemma value_order_ok L exact ty : cmp_ok (cell_of ty) (value_order L exact).
Proof.
  assert (D : ty = DDecimal \/ ty <> DDecimal) by (destruct ty; (left; reflexivity) || (right; discriminate)).
  destruct D as [->|D].
  - apply (cmp_ok_ext _ (fun a b => Qcompare ((fun c => match c with CDec d => dec_number d | _ => 0%Q end) a) ((fun c => match c with CDec d => dec_number d | _ => 0%Q end) b))).
    + intros a b [Ta _] [Tb _]. destruct a; cbn in Ta; try congruence. destruct b; cbn in Tb; try congruence. reflexivity.
    + eapply cmp_ok_map; [|apply cmp_ok_Q]. intros; exact I.
  - eapply cmp_ok_ext; [intros a b Ha Hb; apply (value_order_key L exact ty a b D Ha Hb)|].
    eapply (cmp_ok_map _ _ (cell_key L exact)); [|apply cmp_ok_lex]. intros; exact I.
Qed.

Definition opt_cell_of (ty : dtype) (c : option cell) : Prop := forall x, c = Some x -> cell_of ty x.
Lemma null_first_ok L exact ty : cmp_ok (opt_cell_of ty) (null_first L exact).
Proof.
  destruct (value_order_ok L exact ty) as (H1 & H2 & H3). split; [|split].
  - intros [a|] [b|] Ha Hb; cbn; try reflexivity. apply H1; auto.
  - intros [a|] [b|] [c|] Ha Hb Hc; cbn; try congruence. apply H2; auto.
  - intros [a|] [b|] [c|] Ha Hb Hc; cbn; try congruence. apply H3; auto.
Qed.

Lemma sign_three_way (x y : Z) : three_way Z.ltb x y = sign_of (x ?= y).
Proof. unfold three_way. destruct (Z.compare_spec x y); destruct (x <? y) eqn:E1; destruct (y <? x) eqn:E2; cbn; lia. Qed.
Lemma SFcompare_antisym x y : SFcompare y x = match SFcompare x y with Some c => Some (CompOpp c) | None => None end.
Proof.
  assert (Nx : x = S754_nan \/ x <> S754_nan) by (destruct x; (left; reflexivity) || (right; discriminate)).
  assert (Ny : y = S754_nan \/ y <> S754_nan) by (destruct y; (left; reflexivity) || (right; discriminate)).
  destruct Nx as [->|Nx]; [destruct y; reflexivity|]. destruct Ny as [->|Ny]; [destruct x; reflexivity|].
  rewrite !SFcompare_rank by assumption. rewrite lex_antisym. reflexivity.
Qed.
Lemma three_way_float x y : three_way SFltb x y = sign_of (match SFcompare x y with Some c => c | None => Eq end).
Proof. unfold three_way, SFltb. rewrite (SFcompare_antisym x y). destruct (SFcompare x y) as [[]|]; reflexivity. Qed.
Lemma sign_again n c : n = sign_of c -> (if n <? 0 then -1 else if 0 <? n then 1 else 0) = sign_of c.
Proof. intros ->. destruct c; reflexivity. Qed.
Lemma compare_cells_order L exact a b :
  cell_type a = cell_type b -> (forall g, a = CGuid g -> guid_ok g) -> (forall g, b = CGuid g -> guid_ok g) ->
  compare_cells L exact a b = sign_of (value_order L exact a b).
Proof.
  intros T Ga Gb. destruct a; destruct b; cbn [cell_type] in T; try discriminate T; cbn [compare_cells value_order];
    rewrite ?sign_three_way; try reflexivity.
  - destruct exact; apply str_compare_lex.
  - destruct b0, b; reflexivity.
  - apply three_way_float.
  - apply three_way_float.
  - apply sign_again. apply dec_cmp_number.
  - apply sign_again. apply Compare_lex; auto.
Qed.

Lemma dtype_eqb_eq a b : dtype_eqb a b = true <-> a = b.
Proof. split; [destruct a; destruct b; cbn; congruence|intros ->; destruct b; reflexivity]. Qed.
Lemma assert_type_type ty v x : assert_type ty v = Ok (Some x) -> cell_type x = ty.
Proof.
  destruct v as [[c| |]|]; cbn; try discriminate. destruct (dtype_eqb (cell_type c) ty) eqn:E; [|discriminate].
  intros H; inversion H; subst. apply dtype_eqb_eq. exact E.
Qed.
Lemma TypedValue_type depth D t vals i ty x : TypedValue depth D t vals i ty = Ok (Some x) -> cell_type x = ty.
Proof.
  destruct depth; cbn [TypedValue]; [discriminate|].
  destruct (validateColumnType t i (Some ty) true) as [c| |]; cbn [bind]; try discriminate.
  destruct (dc_tree c) as [tree|].
  - destruct (getComputedValue _ _ _ _ _ _) as [y| |]; cbn [bind]; try discriminate. apply assert_type_type.
  - destruct (idx vals i) as [v| |]; cbn [bind]; try discriminate. apply assert_type_type.
Qed.

Section Order.
Variables (depth : nat) (D : dlib) (t : dtable).

Lemma Compare_order l r i exact :
  (forall c, Column t i = Some c -> forall w, w = l \/ w = r ->
     TypedValue depth D t (row_values w) i (dc_type c) <> Panic /\
     forall x, TypedValue depth D t (row_values w) i (dc_type c) = Ok (Some x) -> forall g, x = CGuid g -> guid_ok g) ->
  CompareDataRowColumns depth D t l r i exact =
  match Column t i with
  | None => Err
  | Some _ => Ok (sign_of (null_first D exact (column_value depth D t i l) (column_value depth D t i r)))
  end.
Proof.
  intros H. unfold CompareDataRowColumns, column_value. destruct (Column t i) as [c|] eqn:Ec; [|reflexivity].
  destruct (H c eq_refl l (or_introl eq_refl)) as [Hl Gl]. destruct (H c eq_refl r (or_intror eq_refl)) as [Hr Gr].
  destruct (TypedValue depth D t (row_values l) i (dc_type c)) as [x| |] eqn:El; [| |congruence];
  destruct (TypedValue depth D t (row_values r) i (dc_type c)) as [y| |] eqn:Er; [| |congruence| | |congruence];
    cbn [value_or_none bind null_first]; try reflexivity; try (destruct x as [a|]; reflexivity); try (destruct y as [b|]; reflexivity).
  destruct x as [a|]; destruct y as [b|]; try reflexivity. f_equal.
  apply compare_cells_order.
  - rewrite (TypedValue_type _ _ _ _ _ _ _ El), (TypedValue_type _ _ _ _ _ _ _ Er). reflexivity.
  - apply Gl. reflexivity.
  - apply Gr. reflexivity.
Qed.

Lemma sortable_tail o terms r : sortable depth D t (o :: terms) r -> sortable depth D t terms r.
Proof. intros H o' c Ho. apply H. right. exact Ho. Qed.

Lemma column_value_type i r c : Column t i = Some c ->
  forall x, column_value depth D t i r = Some x -> cell_type x = dc_type c.
Proof.
  intros E x. unfold column_value. rewrite E.
  destruct (TypedValue depth D t (row_values r) i (dc_type c)) as [v| |] eqn:Ev; try discriminate.
  intros ->. eapply TypedValue_type. exact Ev.
Qed.

Definition term_order (o : order_term) (a b : drow) : comparison :=
  let c := null_first D (ob_exact o) (column_value depth D t (ob_column o) a) (column_value depth D t (ob_column o) b) in
  if ob_ascending o then c else CompOpp c.

Lemma term_order_ok o terms : In o terms -> cmp_ok (sortable depth D t terms) (term_order o).
Proof.
  intros Ho. unfold term_order. destruct (Column t (ob_column o)) as [c|] eqn:Ec.
  - assert (K : cmp_ok (sortable depth D t terms) (fun a b => null_first D (ob_exact o) (column_value depth D t (ob_column o) a) (column_value depth D t (ob_column o) b))).
    { eapply cmp_ok_map; [|apply (null_first_ok D (ob_exact o) (dc_type c))].
      intros r Hr x Hx. split; [eapply column_value_type; eassumption|].
      destruct (Hr o c Ho Ec) as [_ H]. unfold column_value in Hx. rewrite Ec in Hx.
      destruct (TypedValue _ _ _ _ _ _) as [v| |]; try discriminate. subst v. apply H. reflexivity. }
    destruct (ob_ascending o); [exact K|]. destruct K as (K1 & K2 & K3). split; [|split].
    + intros a b Ha Hb. cbv beta. rewrite (K1 a b) by assumption. reflexivity.
    + intros a b d Ha Hb Hd. cbv beta. rewrite <- (K1 a b), <- (K1 b d), <- (K1 a d) by assumption. intros X Y. apply (K2 d b a); assumption.
    + intros a b d Ha Hb Hd X. cbv beta in *. f_equal. apply K3; try assumption. destruct (null_first _ _ _ _); cbn in X; congruence.
  - assert (E : forall r, column_value depth D t (ob_column o) r = None) by (intros r; unfold column_value; rewrite Ec; reflexivity).
    split; [|split]; intros; rewrite !E in *; cbn in *; destruct (ob_ascending o); cbn in *; congruence.
Qed.

Lemma row_order_ok terms : cmp_ok (sortable depth D t terms) (row_order depth D t terms).
Proof.
  induction terms as [|o terms IH]; [split; [|split]; cbn; congruence|].
  pose proof (term_order_ok o (o :: terms) (or_introl eq_refl)) as (A1 & A2 & A3).
  destruct IH as (I1 & I2 & I3). cbn [row_order]. fold (term_order o).
  assert (E : forall a b, (match (if ob_ascending o then null_first D (ob_exact o) (column_value depth D t (ob_column o) a) (column_value depth D t (ob_column o) b)
      else CompOpp (null_first D (ob_exact o) (column_value depth D t (ob_column o) a) (column_value depth D t (ob_column o) b)))
      with Eq => row_order depth D t terms a b | Lt => Lt | Gt => Gt end) = match term_order o a b with Eq => row_order depth D t terms a b | x => x end) by reflexivity.
  eapply cmp_ok_ext; [intros a b _ _; exact (E a b)|]. split; [|split].
  - intros a b Ha Hb. rewrite (A1 a b) by assumption. destruct (term_order o a b); cbn; try reflexivity. apply I1; eapply sortable_tail; eassumption.
  - intros a b c Ha Hb Hc X Y. pose proof (sortable_tail _ _ _ Ha). pose proof (sortable_tail _ _ _ Hb). pose proof (sortable_tail _ _ _ Hc).
    destruct (term_order o a b) eqn:E1; try discriminate.
    + rewrite (A3 a b c Ha Hb Hc E1). destruct (term_order o b c); try discriminate; [|reflexivity]. apply (I2 a b c); assumption.
    + destruct (term_order o b c) eqn:E2; try discriminate.
      * assert (F : term_order o c b = Eq) by (rewrite (A1 b c) by assumption; rewrite E2; reflexivity).
        assert (G : term_order o c a = term_order o b a) by (apply A3; assumption).
        rewrite (A1 c a) by assumption. rewrite G. rewrite (A1 a b) by assumption. rewrite E1. reflexivity.
      * rewrite (A2 a b c Ha Hb Hc E1 E2). reflexivity.
  - intros a b c Ha Hb Hc X. destruct (term_order o a b) eqn:E1; try discriminate.
    rewrite (A3 a b c Ha Hb Hc E1). destruct (term_order o b c); try reflexivity.
    apply I3; try (eapply sortable_tail; eassumption). exact X.
Qed.

Lemma row_less_order terms a b : sortable depth D t terms a -> sortable depth D t terms b ->
  row_less depth D t terms a b = Ok (before (row_order depth D t terms a b)).
Proof.
  induction terms as [|o terms IH]; intros Ha Hb; cbn [row_less row_order]; [reflexivity|].
  specialize (IH (sortable_tail _ _ _ Ha) (sortable_tail _ _ _ Hb)).
  assert (K : forall c, Column t (ob_column o) = Some c -> forall w, w = a \/ w = b ->
     TypedValue depth D t (row_values w) (ob_column o) (dc_type c) <> Panic /\
     forall x, TypedValue depth D t (row_values w) (ob_column o) (dc_type c) = Ok (Some x) -> forall g, x = CGuid g -> guid_ok g).
  { intros c Ec w [-> | ->]; [destruct (Ha o c (or_introl eq_refl) Ec) as [P Q]|destruct (Hb o c (or_introl eq_refl) Ec) as [P Q]];
      (split; [exact P|intros x Hx; apply (Q x Hx)]). }
  rewrite (Compare_order a b) by exact K.
  rewrite (Compare_order b a) by (intros c Ec w Hw; apply K; tauto).
  pose proof (term_order_ok o (o :: terms) (or_introl eq_refl)) as (A1 & _ & _). specialize (A1 a b Ha Hb). unfold term_order in A1.
  destruct (Column t (ob_column o)) as [c|] eqn:Ec.
  - destruct (ob_ascending o).
    + destruct (null_first D (ob_exact o) (column_value depth D t (ob_column o) a) (column_value depth D t (ob_column o) b)); cbn [sign_of]; try reflexivity. exact IH.
    + set (x := null_first _ _ (column_value depth D t (ob_column o) a) _) in *. set (y := null_first _ _ (column_value depth D t (ob_column o) b) _) in *.
      destruct x, y; cbn in A1; try discriminate A1; cbn [sign_of CompOpp]; try reflexivity. exact IH.
  - unfold column_value. rewrite Ec. cbn [null_first CompOpp]. destruct (ob_ascending o); exact IH.
Qed.

Lemma strict_weak terms l : Forall (sortable depth D t terms) l ->
  strict_weak_order (fun a b => before (row_order depth D t terms a b)) l.
Proof.
  intros H. rewrite List.Forall_forall in H. destruct (row_order_ok terms) as (A1 & A2 & A3). split; [|split].
  - intros a Ha. pose proof (A1 a a (H a Ha) (H a Ha)) as E. destruct (row_order depth D t terms a a); cbn in *; congruence.
  - intros a b c Ha Hb Hc X Y. pose proof (A2 a b c (H a Ha) (H b Hb) (H c Hc)) as Z.
    destruct (row_order depth D t terms a b); try discriminate. destruct (row_order depth D t terms b c); try discriminate.
    rewrite Z; reflexivity.
  - intros a b c Ha Hb Hc X X' Y Y'. pose proof (A1 a b (H a Ha) (H b Hb)) as E1. pose proof (A1 b c (H b Hb) (H c Hc)) as E2.
    assert (Eab : row_order depth D t terms a b = Eq) by (destruct (row_order depth D t terms a b); [reflexivity|discriminate X|rewrite E1 in X'; discriminate X']).
    assert (Ebc : row_order depth D t terms b c = Eq) by (destruct (row_order depth D t terms b c); [reflexivity|discriminate Y|rewrite E2 in Y'; discriminate Y']).
    pose proof (A3 a b c (H a Ha) (H b Hb) (H c Hc) Eab) as E3.
    rewrite (A1 a c) by auto. rewrite E3, Ebc. split; reflexivity.
Qed.

Lemma sort_rows_sorted terms l : sorts (go_sort D) -> Forall (sortable depth D t terms) l ->
  exists out, sort_rows D (row_less depth D t terms) l = Ok out /\ Permutation l out /\
    in_order (fun a b => before (row_order depth D t terms a b)) out.
Proof.
  intros Hs H. pose proof (strict_weak terms l H) as W. rewrite List.Forall_forall in H.
  unfold sort_rows.
  replace (existsb _ l) with false.
  2:{ symmetry. apply not_true_iff_false. intros X. apply existsb_exists in X as (a & Ha & X). apply existsb_exists in X as (b & Hb & X).
      rewrite row_less_order in X by auto. discriminate X. }
  rewrite andb_false_r. eexists. split; [reflexivity|].
  set (less := fun a b => match row_less depth D t terms a b with Ok x => x | _ => false end).
  assert (E : forall a b, In a l -> In b l -> less a b = before (row_order depth D t terms a b)).
  { intros a b Ha Hb. unfold less. rewrite row_less_order by auto. reflexivity. }
  destruct (Hs less l) as [P S]. split; [exact P|].
  assert (W' : strict_weak_order less l).
  { destruct W as (W1 & W2 & W3). split; [|split].
    - intros a Ha. rewrite E by assumption. auto.
    - intros a b c Ha Hb Hc. rewrite !E by assumption. eauto.
    - intros a b c Ha Hb Hc. rewrite !E by assumption. apply W3; assumption. }
  specialize (S W'). intros l1 a l2 b l3 Hl. rewrite <- (E b a); [apply (S l1 a l2 b l3 Hl)| |];
    (eapply Permutation_in; [apply Permutation_sym; exact P|]; rewrite Hl; rewrite ?in_app_iff; cbn [In]; rewrite ?in_app_iff; cbn [In]; tauto).
Qed.

Lemma sort_rows_permutation less l out : sorts (go_sort D) -> sort_rows D less l = Ok out -> Permutation l out.
Proof. intros Hs. unfold sort_rows. destruct (_ && _); [discriminate|]. intros H; inversion H; subst. apply Hs. Qed.

Lemma Select_permutation name n terms e out : sorts (go_sort D) ->
  Select depth D (Tree name n terms e) (Some t) = Ok out ->
  Permutation (top n (filter (is_true depth D t e) (rows_of t))) out.
Proof.
  intros Hs H. apply Select_ordered in H. cbv zeta in H. destruct H as [[-> _]|H]; [reflexivity|].
  eapply sort_rows_permutation; eassumption.
Qed.

Lemma Select_sorted name n terms e out : sorts (go_sort D) ->
  Forall (sortable depth D t terms) (top n (filter (is_true depth D t e) (rows_of t))) ->
  Select depth D (Tree name n terms e) (Some t) = Ok out ->
  Permutation (top n (filter (is_true depth D t e) (rows_of t))) out /\
  in_order (fun a b => before (row_order depth D t terms a b)) out.
Proof.
  intros Hs Hf H. pose proof (Select_permutation _ _ _ _ _ Hs H) as P. split; [exact P|].
  apply Select_ordered in H. cbv zeta in H. destruct H as [[-> [E|E]]|H].
  - rewrite E. intros l1 a l2 b l3 X. destruct l1; discriminate X.
  - subst terms. intros l1 a l2 b l3 X. reflexivity.
  - destruct (sort_rows_sorted terms _ Hs Hf) as (o & Ho & _ & S). rewrite Ho in H. inversion H; subst. exact S.
Qed.
End Order.
