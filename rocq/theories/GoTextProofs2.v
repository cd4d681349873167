(** Lemmas about the texts of floating-point numbers. *)
From Coq Require Import Lia Lqa QArith Qabs Qpower SpecFloat.
From Verif Require Import Base FormatModel FormatSpec FormatProofs NumModel GoTextModel GoTextSpec.
Open Scope list_scope.
Open Scope Z_scope.

Lemma dec_value_app a b : dec_value (a ++ b) = dec_value a * 10 ^ len b + dec_value b.
Proof.
  induction a as [|c a IH]; [cbn [app]; change (dec_value []) with 0; lia|].
  cbn [app]. rewrite !dec_value_cons, IH. unfold len. rewrite app_length, Nat2Z.inj_add, Z.pow_add_r by lia. lia.
Qed.
Lemma dec_value_bound l : Forall is_digit l -> 0 <= dec_value l < 10 ^ len l.
Proof.
  induction 1 as [|c l D F IH]; [change (dec_value []) with 0; unfold len; cbn; lia|].
  rewrite dec_value_cons. unfold len in *. cbn [length]. rewrite Nat2Z.inj_succ, Z.pow_succ_r by lia. unfold is_digit in D. nia.
Qed.
Lemma decimal_text_ok n : 0 <= n -> is_decimal_of n (decimal_text n).
Proof.
  intros N. unfold decimal_text.
  assert (B : n < 10 ^ Z.of_nat (S (Z.to_nat (Z.log2 n)))).
  { rewrite Nat2Z.inj_succ, Z2Nat.id by apply Z.log2_nonneg. destruct (Z.eq_dec n 0) as [->|P]; [vm_compute; reflexivity|].
    pose proof (Z.log2_spec n ltac:(lia)) as [_ U]. eapply Z.lt_le_trans; [exact U|]. apply Z.pow_le_mono_l. lia. }
  destruct (dec_digits_ok (S (Z.to_nat (Z.log2 n))) n [] N ltac:(lia) B ltac:(constructor)) as (H1 & H2 & H3 & H4 & H5 & H6).
  split; [exact H1|]. split; [rewrite H2; unfold dec_value, len; cbn; lia|]. split; [exact H3|]. destruct H4 as [H4|H4]; [left; exact (H6 H4)|right; exact H4].
Qed.
Lemma dec_value_zeros k l : dec_value (repeat 48 k ++ l) = dec_value l.
Proof. induction k as [|k IH]; [reflexivity|]. cbn [repeat app]. rewrite dec_value_cons, IH. lia. Qed.
Lemma with_point_ok n prec : 0 <= n -> fixed_text n prec (with_point n prec).
Proof.
  intros N. destruct (decimal_text_ok n N) as (D & V & NE & Z0). unfold with_point.
  set (d0 := decimal_text n) in *. clearbody d0. set (d := repeat 48 (S prec - length d0) ++ d0). set (i := (length d - prec)%nat).
  assert (LD : (length d = Nat.max (S prec) (length d0))%nat) by (unfold d; rewrite app_length, repeat_length; lia).
  assert (DD : Forall is_digit d).
  { unfold d. apply Forall_app. split; [|exact D]. apply List.Forall_forall. intros x I. apply repeat_spec in I. subst. unfold is_digit. lia. }
  assert (VD : dec_value d = n) by (unfold d; rewrite dec_value_zeros; exact V).
  assert (S : firstn i d ++ skipn i d = d) by apply firstn_skipn.
  assert (LS : length (skipn i d) = prec) by (rewrite skipn_length; lia).
  assert (LF : length (firstn i d) = (length d - prec)%nat) by (rewrite firstn_length; lia).
  exists (firstn i d), (skipn i d). rewrite S. rewrite <- S in DD. apply Forall_app in DD as [D1 D2].
  split; [|split; [exact LS|split; [exact D2|split; [exact VD|]]]].
  - split; [exact D1|]. split.
    + rewrite <- S in VD. rewrite dec_value_app in VD. pose proof (dec_value_bound _ D2) as B. unfold len in *. rewrite LS in *.
      assert (P : 0 < 10 ^ Z.of_nat prec) by (apply Z.pow_pos_nonneg; lia).
      rewrite <- VD. symmetry. rewrite (Z.div_add_l _ _ _ (Z.neq_sym _ _ (Z.lt_neq _ _ P))). rewrite (Z.div_small _ _ B). lia.
    + split; [intros E; rewrite E in LF; cbn [length] in LF; lia|].
      destruct (Nat.le_gt_cases (length d0) prec) as [L|L].
      * left. lia.
      * assert (E : d = d0) by (unfold d; replace (Datatypes.S prec - length d0)%nat with O by lia; reflexivity).
        destruct Z0 as [Z0|Z0]; [left; lia|right]. rewrite E. destruct d0 as [|c d1]; [contradiction|]. unfold i. rewrite E.
        replace (length (c :: d1) - prec)%nat with (Datatypes.S (length d1 - prec)) by (cbn [length] in *; lia). exact Z0.
  - destruct prec; reflexivity.
Qed.

Lemma round_div_ok n d : 0 < d -> let k := round_div n d in 2 * Z.abs (k * d - n) <= d /\ (2 * Z.abs (k * d - n) = d -> Z.even k = true).
Proof.
  intros D k. subst k. unfold round_div. pose proof (Z.div_mod n d ltac:(lia)) as E. pose proof (Z.mod_pos_bound n d D) as B.
  set (q := n / d) in *. set (r := n mod d) in *. destruct (Z.compare_spec (2 * r) d) as [C|C|C].
  - destruct (Z.even q) eqn:EV.
    + split; [nia|auto].
    + split; [nia|]. intros _. rewrite Z.even_add, EV. reflexivity.
  - split; [nia|]. intros X. exfalso. nia.
  - split; [nia|]. intros X. exfalso. nia.
Qed.
Lemma nearest_even_ratio q n d k : 0 < d -> (q * inject_Z d == inject_Z n)%Q -> 2 * Z.abs (k * d - n) <= d -> (2 * Z.abs (k * d - n) = d -> Z.even k = true) -> nearest_even q k.
Proof.
  intros D Q H1 H2. unfold nearest_even.
  assert (DP : (0 < inject_Z d)%Q) by (unfold Qlt; cbn; lia).
  assert (E : (Qabs (inject_Z k - q) * inject_Z d == inject_Z (Z.abs (k * d - n)))%Q).
  { rewrite <- (Qabs_pos (inject_Z d)) by (apply Qlt_le_weak; exact DP). rewrite <- Qabs_Qmult.
    setoid_replace ((inject_Z k - q) * inject_Z d)%Q with (inject_Z (k * d - n)); [reflexivity|].
    unfold Z.sub. rewrite inject_Z_plus, inject_Z_opp, inject_Z_mult, <- Q. ring. }
  split.
  - apply (Qmult_le_r _ _ (inject_Z d) DP). rewrite E. rewrite Zle_Qle, inject_Z_mult in H1. change (inject_Z 2) with 2%Q in H1. lra.
  - intros H. apply H2. rewrite H in E. apply inject_Z_injective. rewrite inject_Z_mult. change (inject_Z 2) with 2%Q. lra.
Qed.
Lemma scaled_nearest m e prec : nearest_even (inject_Z (Zpos m) * 2 ^ e * inject_Z (10 ^ Z.of_nat prec))%Q (scaled (Zpos m) e (Z.of_nat prec)).
Proof.
  unfold scaled. destruct (Z.leb_spec 0 e) as [P|P].
  - apply (nearest_even_ratio _ (Zpos m * 2 ^ e * 10 ^ Z.of_nat prec) 1); [lia| |lia|lia].
    rewrite Qmult_1_r, !inject_Z_mult. rewrite <- (Zpower_Qpower 2 e P). reflexivity.
  - assert (D : 0 < 2 ^ (- e)) by (apply Z.pow_pos_nonneg; lia).
    destruct (round_div_ok (Zpos m * 10 ^ Z.of_nat prec) (2 ^ (- e)) D) as [H1 H2].
    apply (nearest_even_ratio _ (Zpos m * 10 ^ Z.of_nat prec) (2 ^ (- e)) _ D); [|exact H1|exact H2].
    rewrite (Zpower_Qpower 2 (- e)) by lia. rewrite inject_Z_mult. rewrite Qpower_opp. change (inject_Z 2) with 2%Q.
    field. apply Qpower_not_0. discriminate.
Qed.
Lemma scaled_nonneg m e prec : 0 <= prec -> 0 <= scaled (Zpos m) e prec.
Proof.
  intros P. unfold scaled. destruct (0 <=? e).
  - assert (0 <= 2 ^ e) by (apply Z.pow_nonneg; lia). assert (0 <= 10 ^ prec) by (apply Z.pow_nonneg; lia). nia.
  - unfold round_div. assert (0 <= Zpos m * 10 ^ prec / 2 ^ (- e)).
    { destruct (Z.eq_dec (2 ^ (- e)) 0) as [->|N]; [rewrite Zdiv_0_r; lia|]. assert (0 <= 2 ^ (- e)) by (apply Z.pow_nonneg; lia). apply Z.div_pos; [|lia]. assert (0 <= 10 ^ prec) by (apply Z.pow_nonneg; lia). nia. }
    destruct (_ ?= _); [destruct (Z.even _)|..]; lia.
Qed.
Lemma FormatFloat_ok f prec : finite f -> exists n t, nearest_even (magnitude f * inject_Z (10 ^ Z.of_nat prec)) n /\ fixed_text n prec t /\ 0 <= n /\
  FormatFloat f prec = minus (negative f) ++ t.
Proof.
  intros F. destruct f as [s|s| |s m e]; try contradiction.
  - exists 0, (with_point 0 prec). split; [|split; [apply with_point_ok; lia|split; [lia|reflexivity]]].
    cbn [magnitude]. split; [|intros _; reflexivity]. rewrite Qmult_0_l. vm_compute. discriminate.
  - exists (scaled (Zpos m) e (Z.of_nat prec)), (with_point (scaled (Zpos m) e (Z.of_nat prec)) prec).
    split; [exact (scaled_nearest m e prec)|]. pose proof (scaled_nonneg m e (Z.of_nat prec) ltac:(lia)). split; [apply with_point_ok; assumption|]. split; [assumption|reflexivity].
Qed.

(** A nearest integer is unique and monotone. *)
Lemma nearest_even_mono x y n m : nearest_even x n -> nearest_even y m -> (x <= y)%Q -> n <= m.
Proof.
  intros [A1 A2] [B1 B2] L. destruct (Z_le_gt_dec n m) as [|G]; [assumption|exfalso].
  apply Qabs_Qle_condition in A1 as [A3 A4]. apply Qabs_Qle_condition in B1 as [B3 B4].
  assert (G' : (inject_Z m + 1 <= inject_Z n)%Q) by (change 1%Q with (inject_Z 1); rewrite <- inject_Z_plus, <- Zle_Qle; lia).
  assert (NX : (inject_Z n - x == 1 # 2)%Q) by lra.
  assert (MY : (inject_Z m - y == - (1 # 2))%Q) by lra.
  assert (NM : (inject_Z n == inject_Z (m + 1))%Q) by (rewrite inject_Z_plus; change (inject_Z 1) with 1%Q; lra).
  assert (NM' : n = m + 1) by (apply inject_Z_injective; exact NM). clear NM.
  assert (E1 : Z.even n = true) by (apply A2; rewrite NX; reflexivity).
  assert (E2 : Z.even m = true) by (apply B2; rewrite MY; reflexivity).
  rewrite NM', Z.even_add, E2 in E1. discriminate.
Qed.
Lemma nearest_even_unique x n m : nearest_even x n -> nearest_even x m -> n = m.
Proof. intros A B. apply Z.le_antisymm; [exact (nearest_even_mono x x n m A B (Qle_refl x))|exact (nearest_even_mono x x m n B A (Qle_refl x))]. Qed.
Lemma nearest_even_integer x n k : nearest_even x n -> (x == inject_Z k)%Q -> n = k.
Proof.
  intros A E. apply (nearest_even_unique x n k A). split.
  - setoid_replace (inject_Z k - x)%Q with 0%Q by lra. discriminate.
  - setoid_replace (inject_Z k - x)%Q with 0%Q by lra. discriminate.
Qed.
