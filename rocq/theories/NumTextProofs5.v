(** Decimals: the texts that show them (C125) and division (C126). *)
From Coq Require Import Lia ZifyBool ZifyNat QArith Qpower.
From Verif Require Import Base GuidModel FormatModel FormatSpec FormatProofs NumModel GoTextModel GoTextProofs2 NumTextModel NumTextSpec NumTextProofs2 NumTextProofs4 SessionProofs7 ExprModel ExprSpec ExprProofs2 FuncSpec FuncProofs.
Close Scope Q_scope.
Open Scope list_scope.
Open Scope Z_scope.

Lemma dec_number_eq m e m' e' lo : lo <= e -> lo <= e' -> (dec_number (Dec m e) == dec_number (Dec m' e'))%Q <-> m * 10 ^ (e - lo) = m' * 10 ^ (e' - lo).
Proof.
  intros H H'. rewrite (coef_at_number (Dec m e) lo), (coef_at_number (Dec m' e') lo) by assumption. unfold coef_at. cbn [coef dexp]. rewrite !Qeq_alt, Qcompare_scale by apply ten_pos. rewrite inject_compare.
  rewrite Z.compare_eq_iff. reflexivity.
Qed.
Lemma trim_zeros_ok s : exists j, s = trim_zeros s ++ repeat 48 j /\ last (trim_zeros s) 1 <> 48.
Proof.
  induction s as [|c s (j & E & L)]; [exists 0%nat; split; [reflexivity|cbn; lia]|]. cbn [trim_zeros]. destruct (trim_zeros s) as [|t ts] eqn:T.
  - cbn [app] in E. destruct (c =? 48) eqn:C; [exists (S j); split; [cbn [repeat app]; rewrite <- E; f_equal; lia|cbn; lia]|].
    exists j. split; [cbn [app]; rewrite <- E; reflexivity|cbn; lia].
  - exists j. split; [cbn [app] in *; rewrite <- E; reflexivity|exact L].
Qed.
Lemma dec_value_shift l j : dec_value (l ++ repeat 48 j) = dec_value l * 10 ^ Z.of_nat j.
Proof. rewrite dec_value_app. unfold len. rewrite repeat_length. pose proof (dec_value_zeros j []) as H. rewrite app_nil_r in H. rewrite H. change (dec_value []) with 0. lia. Qed.
Lemma hd_firstn i (l : bytes) : (1 <= i)%nat -> hd 0 (firstn i l) = hd 0 l.
Proof. destruct i; [lia|]. destruct l; reflexivity. Qed.

Lemma format_canonical d : exists neg m k, canonical_text neg m k (format_decimal d) /\ (dec_number (Dec (if neg then - m else m) (- k)) == dec_number d)%Q /\ neg = (coef d <? 0) /\ 0 <= k <= Z.max 0 (- dexp d).
Proof.
  destruct d as [M E]. unfold format_decimal. cbn [coef dexp]. destruct (0 <=? E) eqn:P.
  - pose proof (Z.pow_pos_nonneg 10 E ltac:(lia) ltac:(lia)) as T. assert (SG : (M * 10 ^ E <? 0) = (M <? 0)) by (destruct (Z.ltb_spec M 0); [apply Z.ltb_lt; nia|apply Z.ltb_ge; nia]). rewrite SG.
    exists (M <? 0), (Z.abs (M * 10 ^ E)), 0. pose proof (decimal_text_ok (Z.abs (M * 10 ^ E)) ltac:(lia)) as D. pose proof D as (D1 & D2 & D3). split; [|split; [|split; [reflexivity|lia]]].
    + exists (decimal_text (Z.abs (M * 10 ^ E))), []. split; [rewrite D2; exact D|]. split; [constructor|]. split; [rewrite app_nil_r; auto|]. split; [reflexivity|]. split; [cbn; lia|]. unfold minus. cbn [Z.eqb]. rewrite app_nil_r. reflexivity.
    + apply (dec_number_eq _ _ _ _ 0); [lia|lia|]. rewrite (Z.sub_0_r E). change (- 0 - 0) with 0. rewrite Z.pow_0_r. destruct (Z.ltb_spec M 0); [rewrite Z.abs_neq by nia|rewrite Z.abs_eq by nia]; lia.
  - set (t0 := decimal_text (Z.abs M)). set (k := Z.to_nat (- E)). set (t := repeat 48 (S k - length t0) ++ t0). set (i := (length t - k)%nat).
    destruct (decimal_text_ok (Z.abs M) ltac:(lia)) as (D1 & D2 & D3 & D4). fold t0 in D1, D2, D3, D4.
    assert (LT : length t = Nat.max (S k) (length t0)) by (unfold t; rewrite app_length, repeat_length; lia).
    assert (VT : dec_value t = Z.abs M) by (unfold t; rewrite dec_value_zeros; exact D2).
    assert (FT : Forall is_digit t) by (unfold t; apply Forall_app; split; [apply List.Forall_forall; intros c I; apply repeat_spec in I; subst c; unfold is_digit; lia|exact D1]).
    assert (I1 : (1 <= i)%nat) by (unfold i; lia). assert (SPL : t = firstn i t ++ skipn i t) by (symmetry; apply firstn_skipn).
    destruct (trim_zeros_ok (skipn i t)) as (j & TZ & LZ). set (f := trim_zeros (skipn i t)) in *. assert (LS : length (skipn i t) = k) by (rewrite skipn_length; unfold i; lia).
    assert (LJ : (length f + j = k)%nat) by (rewrite <- LS, TZ, app_length, repeat_length; reflexivity).
    assert (FF : Forall is_digit f) by (rewrite SPL, TZ in FT; apply Forall_app in FT as [_ FT]; apply Forall_app in FT as [FT _]; exact FT).
    assert (FW : Forall is_digit (firstn i t)) by (rewrite SPL in FT; apply Forall_app in FT as [FT _]; exact FT).
    assert (VM : Z.abs M = dec_value (firstn i t ++ f) * 10 ^ Z.of_nat j) by (rewrite <- dec_value_shift, <- app_assoc, <- TZ, <- SPL; symmetry; exact VT).
    exists (M <? 0), (dec_value (firstn i t ++ f)), (len f). split; [|split; [|split; [reflexivity|unfold len; lia]]].
    + exists (firstn i t), f. assert (LW : length (firstn i t) = i) by (apply firstn_length_le; unfold i; lia).
      split; [|split; [exact FF|split; [reflexivity|split; [reflexivity|split; [exact LZ|]]]]].
      * split; [exact FW|]. split; [reflexivity|]. split; [intros EW; rewrite EW in LW; change (0%nat = i) in LW; rewrite <- LW in I1; inversion I1|]. destruct (Nat.eq_dec i 1) as [->|NI]; [left; exact LW|]. right. rewrite hd_firstn by exact I1.
        assert (LT0 : (length t0 > S k)%nat) by (unfold i in NI; lia). unfold t. replace (S k - length t0)%nat with 0%nat by lia. cbn [repeat app]. destruct D4 as [D4|D4]; [lia|exact D4].
      * unfold minus. f_equal. f_equal. destruct f as [|c f']; [reflexivity|]. replace (len (c :: f') =? 0) with false by (symmetry; apply Z.eqb_neq; unfold len; cbn [length]; lia). reflexivity.
    + apply (dec_number_eq _ _ _ _ E); [unfold len; lia|lia|]. rewrite Z.sub_diag, Z.pow_0_r, Z.mul_1_r. replace (- len f - E) with (Z.of_nat j) by (unfold len; lia). destruct (Z.ltb_spec M 0); lia.
Qed.
Lemma canonical_number neg m k s : canonical_text neg m k s -> number_text neg m k 0 s.
Proof.
  intros (w & f & (W & _ & N & _) & F & -> & -> & _ & ->). exists (if neg then [45] else []), (w ++ (if len f =? 0 then [] else 46 :: f)), []. split; [destruct neg; [reflexivity|left; reflexivity]|].
  split; [|split; [left; auto|rewrite app_nil_r; reflexivity]]. exists w, f. repeat split; auto.
  - intros E. apply app_eq_nil in E as [E _]. contradiction.
  - destruct f as [|c f]; [right; cbn; rewrite app_nil_r; auto|left]. replace (len (c :: f) =? 0) with false by (symmetry; apply Z.eqb_neq; unfold len; cbn [length]; lia). reflexivity.
Qed.
Lemma format_parse d : - 2 ^ 31 <= dexp d < 2 ^ 31 -> exists d', parse_decimal (format_decimal d) = Some d' /\ (dec_number d' == dec_number d)%Q.
Proof.
  intros B. destruct (format_canonical d) as (neg & m & k & C & E & _ & K). exists (Dec (if neg then - m else m) (- k)). split; [|exact E].
  rewrite (parse_decimal_text neg m k 0 _ (canonical_number _ _ _ _ C)); [reflexivity|reflexivity|]. unfold in_int32. lia.
Qed.
Lemma canonical_last w f : Forall is_digit f -> f <> [] -> last f 1 <> 48 -> dec_value (w ++ f) mod 10 <> 0.
Proof.
  intros F N L. destruct (exists_last N) as (g & c & ->). rewrite last_last in L. apply Forall_app in F as [_ F]. inversion F; subst. unfold is_digit in *.
  rewrite app_assoc, dec_value_app. unfold len. cbn [length]. change (10 ^ Z.of_nat 1) with 10. rewrite (dec_value_cons c []). change (dec_value []) with 0. unfold len. cbn [length]. change (10 ^ Z.of_nat 0) with 1.
  rewrite Z.add_comm, Z.mod_add by lia. rewrite Z.mod_small; lia.
Qed.
Lemma canonical_le neg m k s neg' m' k' s' : canonical_text neg m k s -> canonical_text neg' m' k' s' -> m * 10 ^ k' = m' * 10 ^ k -> k' <= k.
Proof.
  intros (w & f & W & F & -> & -> & L & _) (w' & f' & W' & F' & -> & -> & L' & _) E. destruct (Z_le_gt_dec (len f') (len f)) as [H|H]; [exact H|exfalso].
  assert (N : f' <> []) by (intros ->; unfold len in H; cbn in H; lia). apply (canonical_last w' f' F' N L').
  assert (X : dec_value (w' ++ f') = dec_value (w ++ f) * 10 ^ (len f' - len f)).
  { apply (Z.mul_reg_r _ _ (10 ^ len f)); [apply Z.pow_nonzero; unfold len; lia|]. rewrite <- E, <- Z.mul_assoc, <- Z.pow_add_r by (unfold len in *; lia). f_equal. f_equal. lia. }
  rewrite X. replace (len f' - len f) with (Z.succ (len f' - len f - 1)) by lia. rewrite Z.pow_succ_r by lia. rewrite Z.mul_assoc, (Z.mul_comm _ 10), <- Z.mul_assoc, Z.mul_comm. apply Z_mod_mult.
Qed.
Lemma canonical_unique neg m k s s' : canonical_text neg m k s -> canonical_text neg m k s' -> s = s'.
Proof.
  intros (w & f & W & F & -> & -> & _ & ->) (w' & f' & W' & F' & E & L & _ & ->). rewrite !dec_value_app in E. rewrite <- L in *.
  pose proof (dec_value_bound f F) as B. pose proof (dec_value_bound f' F') as B'. rewrite <- L in B'. assert (EW : dec_value w = dec_value w') by nia. assert (EF : dec_value f = dec_value f') by nia.
  rewrite EW in W. rewrite (is_decimal_unique _ _ _ W W'). rewrite (dec_unique f f' F F'); [reflexivity|unfold len in L; lia|exact EF].
Qed.
Lemma format_same a b : format_decimal a = format_decimal b <-> (dec_number a == dec_number b)%Q.
Proof.
  destruct (format_canonical a) as (neg & m & k & C & E & SN & K), (format_canonical b) as (neg' & m' & k' & C' & E' & SN' & K'). split; intros H.
  - assert (P : parse_decimal (format_decimal a) = parse_decimal (format_decimal b)) by (rewrite H; reflexivity). rewrite <- E, <- E'.
    destruct C as (w & f & W & F & -> & -> & _ & C), C' as (w' & f' & W' & F' & -> & -> & _ & C'). rewrite C, C' in H.
    assert (SG : neg = neg' /\ w ++ (if len f =? 0 then [] else 46 :: f) = w' ++ (if len f' =? 0 then [] else 46 :: f')).
    { destruct W as (W1 & _ & W2 & _), W' as (W1' & _ & W2' & _). destruct w as [|c w]; [contradiction|]. destruct w' as [|c' w']; [contradiction|]. inversion W1; inversion W1'; subst. unfold is_digit in *.
      destruct (coef a <? 0), (coef b <? 0); cbn [app] in H |- *; inversion H; subst; try lia; auto. }
    destruct SG as [-> SP].
    assert (FR : forall (g : bytes), (if len g =? 0 then [] else 46 :: g) = match g with [] => [] | _ => 46 :: g end) by (intros [|c g]; [reflexivity|]; unfold len; cbn [length]; destruct (Z.of_nat (S (length g)) =? 0) eqn:ZE; [lia|reflexivity]).
    rewrite !FR in SP. assert (SS : w = w' /\ f = f').
    { destruct W as (W1 & _), W' as (W1' & _). assert (NP : forall l, Forall is_digit l -> forall c, In c l -> (46 =? c) = false) by (intros l Fl c I; rewrite List.Forall_forall in Fl; specialize (Fl c I); unfold is_digit in Fl; lia).
      assert (Q : split_at (Z.eqb 46) (w ++ match f with [] => [] | _ => 46 :: f end) = (w, match f with [] => None | _ => Some f end)) by (destruct f; [rewrite app_nil_r; apply split_at_none, NP, W1|apply split_at_some; [apply NP, W1|reflexivity]]).
      assert (Q' : split_at (Z.eqb 46) (w' ++ match f' with [] => [] | _ => 46 :: f' end) = (w', match f' with [] => None | _ => Some f' end)) by (destruct f'; [rewrite app_nil_r; apply split_at_none, NP, W1'|apply split_at_some; [apply NP, W1'|reflexivity]]).
      rewrite SP, Q' in Q. injection Q as -> Q. split; [reflexivity|]. destruct f, f'; congruence. }
    destruct SS as [-> ->]. reflexivity.
  - rewrite <- E, <- E' in H.
    assert (M0 : 0 <= m /\ 0 <= m') by (destruct C as (w & f & W & F & -> & _), C' as (w' & f' & W' & F' & -> & _); split; [apply (dec_value_bound (w ++ f)), Forall_app; split; [apply W|exact F]|apply (dec_value_bound (w' ++ f')), Forall_app; split; [apply W'|exact F']]).
    assert (MZ : forall x : dec, (dec_number x == 0)%Q -> coef x = 0).
    { intros x X. assert (Y : (dec_number (Dec (coef x) (dexp x)) == dec_number (Dec 0 (dexp x)))%Q) by (destruct x as [cx ex]; cbn [coef dexp] in *; rewrite X; unfold dec_number; cbn; rewrite Qmult_0_l; reflexivity).
      apply (dec_number_eq _ _ _ _ (dexp x)) in Y; lia. }
    assert (ZM : forall e, (dec_number (Dec 0 e) == 0)%Q) by (intros e; unfold dec_number; cbn; apply Qmult_0_l).
    assert (N1 : neg = true -> m <> 0) by (intros -> ->; change (- 0) with 0 in E; rewrite ZM in E; apply MZ in E || (symmetry in E; apply MZ in E); lia).
    assert (N2 : neg' = true -> m' <> 0) by (intros -> ->; change (- 0) with 0 in E'; rewrite ZM in E'; symmetry in E'; apply MZ in E'; lia).
    apply (dec_number_eq _ _ _ _ (- (k + k'))) in H; [|lia|lia]. replace (- k - - (k + k')) with k' in H by lia. replace (- k' - - (k + k')) with k in H by lia.
    pose proof (Z.pow_pos_nonneg 10 k ltac:(lia) ltac:(lia)). pose proof (Z.pow_pos_nonneg 10 k' ltac:(lia) ltac:(lia)).
    assert (neg = neg') as -> by (destruct neg, neg'; auto; exfalso; [specialize (N1 eq_refl)|specialize (N2 eq_refl)]; nia).
    assert (EM : m * 10 ^ k' = m' * 10 ^ k) by (destruct neg'; nia).
    assert (k = k') as -> by (pose proof (canonical_le _ _ _ _ _ _ _ _ C C' EM); pose proof (canonical_le _ _ _ _ _ _ _ _ C' C (eq_sym EM)); lia).
    assert (m = m') as -> by nia. exact (canonical_unique _ _ _ _ _ C C').
Qed.

(** ** Division *)

Lemma quot_rounds aa bb (q : Q) : bb <> 0 -> (q * inject_Z bb == inject_Z aa)%Q ->
  is_rounded q (if 2 * Z.abs (Z.rem aa bb) <? Z.abs bb then Z.quot aa bb else if Z.sgn aa * Z.sgn bb <? 0 then Z.quot aa bb - 1 else Z.quot aa bb + 1).
Proof.
  intros N E.
  assert (S : scaled q (aa * Z.sgn bb) (Z.abs bb)).
  { split; [lia|]. rewrite <- Z.sgn_abs. rewrite Z.mul_comm, !inject_Z_mult, (Qmult_comm (inject_Z bb)), <- E || rewrite !inject_Z_mult, <- E; ring. }
  pose proof (rounded_div _ _ _ S) as R. match goal with |- is_rounded q ?a => match type of R with is_rounded q ?b => replace a with b; [exact R|] end end.
  clear R S E q. rewrite Z.quot_div, Z.rem_mod by exact N. rewrite Z.abs_mul, Z.sgn_mul, !Z.abs_mul.
  assert (SB : Z.abs (Z.sgn bb) = 1 /\ Z.sgn (Z.sgn bb) = Z.sgn bb) by lia. destruct SB as [-> ->]. rewrite Z.mul_1_r. assert (PB : 0 < Z.abs bb) by lia.
  pose proof (Z.div_mod (Z.abs aa) (Z.abs bb) ltac:(lia)) as DM. pose proof (Z.mod_pos_bound (Z.abs aa) (Z.abs bb) PB) as MB.
  assert (A0 : aa = 0 -> Z.abs aa / Z.abs bb = 0 /\ Z.abs aa mod Z.abs bb = 0) by (intros ->; rewrite Z.div_0_l, Z.mod_0_l by lia; auto).
  set (Q := Z.abs aa / Z.abs bb) in *. set (r := Z.abs aa mod Z.abs bb) in *. rewrite DM.
  replace (2 * (Z.abs bb * Q + r) + Z.abs bb) with (2 * r + Z.abs bb + Q * (2 * Z.abs bb)) by ring. rewrite Z.div_add by lia.
  destruct (Z.eq_dec aa 0) as [Z0|Z0].
  - destruct (A0 Z0) as [-> ->]. rewrite Z0. change (2 * (Z.abs (Z.sgn 0) * Z.abs 0)) with 0. destruct (0 <? Z.abs bb) eqn:C; [|lia]. change (Z.sgn 0) with 0. lia.
  - assert (AR : Z.abs (Z.sgn aa) * Z.abs r = r) by (replace (Z.abs (Z.sgn aa)) with 1 by lia; lia). rewrite AR.
    assert (C : Z.sgn aa * Z.sgn bb = 1 \/ Z.sgn aa * Z.sgn bb = -1) by (clear - Z0 N; destruct (Z.sgn_spec aa) as [[_ ->]|[[H _]|[_ ->]]]; [|lia|]; destruct (Z.sgn_spec bb) as [[_ ->]|[[H' _]|[_ ->]]]; lia).
    destruct (Z.ltb_spec (2 * r) (Z.abs bb)) as [H|H].
    + rewrite Z.div_small by lia. destruct C as [-> | ->]; lia.
    + replace ((2 * r + Z.abs bb) / (2 * Z.abs bb)) with 1 by (apply (Z.div_unique _ _ 1 (2 * r - Z.abs bb)); lia). destruct C as [-> | ->]; cbn [Z.ltb Z.compare]; lia.
Qed.
Lemma number_zero (d : dec) : (dec_number d == 0)%Q <-> coef d = 0.
Proof.
  destruct d as [c e]. cbn [coef]. split; intros H.
  - assert (Y : (dec_number (Dec c e) == dec_number (Dec 0 e))%Q) by (rewrite H; unfold dec_number; cbn; rewrite Qmult_0_l; reflexivity). rewrite (dec_number_eq _ _ _ _ e) in Y by lia; rewrite Z.sub_diag, Z.pow_0_r in Y; lia.
  - subst. unfold dec_number. cbn. apply Qmult_0_l.
Qed.
Lemma decimal_div_rounds a b : coef b <> 0 -> exists n, decimal_div a b = Dec n (- 16) /\ is_rounded (dec_number a / dec_number b * inject_Z (10 ^ 16)) n.
Proof.
  intros N. destruct a as [A ea], b as [B eb]. cbn [coef] in N. unfold decimal_div. cbn [coef dexp]. set (e := ea - eb + 16).
  assert (X : exists aa bb rest, (if e <? 0 then (A, B * 10 ^ (- e), ea) else (A * 10 ^ e, B, - 16 + eb)) = (aa, bb, rest) /\ bb <> 0 /\
    (dec_number (Dec A ea) / dec_number (Dec B eb) * inject_Z (10 ^ 16) * inject_Z bb == inject_Z aa)%Q /\ Z.sgn aa = Z.sgn A /\ Z.sgn bb = Z.sgn B /\
    forall r, 0 <= r -> (dec_cmp (Dec r (rest + 16)) (dec_abs (Dec B eb)) <? 0) = (r <? Z.abs bb)).
  { assert (NB : ~ (dec_number (Dec B eb) == 0)%Q) by (intros H0; apply number_zero in H0; contradiction).
    assert (EQ : forall u v, (dec_number (Dec A ea) * inject_Z (10 ^ 16) * u == v * dec_number (Dec B eb))%Q -> (dec_number (Dec A ea) / dec_number (Dec B eb) * inject_Z (10 ^ 16) * u == v)%Q).
    { intros u v H. setoid_replace (dec_number (Dec A ea) / dec_number (Dec B eb) * inject_Z (10 ^ 16) * u)%Q with (dec_number (Dec A ea) * inject_Z (10 ^ 16) * u / dec_number (Dec B eb))%Q by (field; exact NB). rewrite H. field. exact NB. }
    assert (EQ2 : forall u v, A * 10 ^ (ea - Z.min ea eb) * 10 ^ 16 * u = v * (B * 10 ^ (eb - Z.min ea eb)) -> (dec_number (Dec A ea) * inject_Z (10 ^ 16) * inject_Z u == inject_Z v * dec_number (Dec B eb))%Q).
    { intros u v H. rewrite (coef_at_number (Dec A ea) (Z.min ea eb)), (coef_at_number (Dec B eb) (Z.min ea eb)) by (cbn [dexp]; lia). unfold coef_at. cbn [coef dexp].
      setoid_replace (inject_Z (A * 10 ^ (ea - Z.min ea eb)) * inject_Z 10 ^ Z.min ea eb * inject_Z (10 ^ 16) * inject_Z u)%Q with (inject_Z (A * 10 ^ (ea - Z.min ea eb) * 10 ^ 16 * u) * inject_Z 10 ^ Z.min ea eb)%Q by (rewrite !inject_Z_mult; ring).
      rewrite H. rewrite !inject_Z_mult. ring. }
    destruct (e <? 0) eqn:P.
    - pose proof (Z.pow_pos_nonneg 10 (- e) ltac:(lia) ltac:(lia)) as T. exists A, (B * 10 ^ (- e)), ea. split; [reflexivity|]. split; [nia|]. split; [|split; [reflexivity|split; [rewrite Z.sgn_mul, (Z.sgn_pos (10 ^ _)) by lia; lia|]]].
      + apply EQ, EQ2. replace (ea - Z.min ea eb) with 0 by (unfold e in P; lia). replace (eb - Z.min ea eb) with (16 + - e) by (unfold e in *; lia). rewrite Z.pow_add_r by lia. ring.
      + intros r R. unfold dec_cmp, dec_abs. cbn [coef dexp]. replace (Z.min (ea + 16) eb) with (ea + 16) by (unfold e in P; lia). unfold coef_at. cbn [coef dexp]. rewrite Z.sub_diag, Z.pow_0_r, Z.mul_1_r.
        replace (eb - (ea + 16)) with (- e) by (unfold e; lia). rewrite Z.abs_mul, (Z.abs_eq (10 ^ - e)) by lia. unfold Z.ltb. destruct (r ?= Z.abs B * 10 ^ (- e)); reflexivity.
    - pose proof (Z.pow_pos_nonneg 10 e ltac:(lia) ltac:(lia)) as T. exists (A * 10 ^ e), B, (- 16 + eb). split; [reflexivity|]. split; [exact N|]. split; [|split; [rewrite Z.sgn_mul, (Z.sgn_pos (10 ^ _)) by lia; lia|split; [reflexivity|]]].
      + apply EQ, EQ2. transitivity (A * B * 10 ^ (e + (eb - Z.min ea eb))); [|rewrite Z.pow_add_r by lia; ring].
        replace (e + (eb - Z.min ea eb)) with (ea - Z.min ea eb + 16) by (unfold e; lia). rewrite Z.pow_add_r by lia. ring.
      + intros r R. unfold dec_cmp, dec_abs. cbn [coef dexp]. replace (- 16 + eb + 16) with eb by lia. rewrite Z.min_id. unfold coef_at. cbn [coef dexp]. rewrite Z.sub_diag, Z.pow_0_r, !Z.mul_1_r.
        unfold Z.ltb. destruct (r ?= Z.abs B); reflexivity. }
  destruct X as (aa & bb & rest & -> & NB & E & S1 & S2 & C). rewrite C by lia.
  pose proof (quot_rounds aa bb _ NB E) as R. rewrite S1, S2 in R. eexists. split; [|exact R].
  destruct (2 * Z.abs (Z.rem aa bb) <? Z.abs bb); [reflexivity|]. destruct (Z.sgn A * Z.sgn B <? 0).
  - unfold dec_sub, coef_at. cbn [coef dexp]. change (Z.min (- (16)) (- (16))) with (- (16)). rewrite Z.sub_diag, Z.pow_0_r, !Z.mul_1_r. reflexivity.
  - unfold dec_add, coef_at. cbn [coef dexp]. change (Z.min (- (16)) (- (16))) with (- (16)). rewrite Z.sub_diag, Z.pow_0_r, !Z.mul_1_r. reflexivity.
Qed.
Lemma rounded_eq q q' n : (q == q')%Q -> is_rounded q n -> is_rounded q' n.
Proof. intros E [H1 H2]. unfold is_rounded, is_floor, is_ceiling in *. split; intros X; rewrite <- E in *; auto. Qed.
Lemma decimal_division L a b x y : number_of a x -> number_of b y -> ve_type a = VDecimal \/ ve_type b = VDecimal -> ~ (y == 0)%Q ->
  exists d n, applyOperator L ODivide a b = Ok (vDec d) /\ (dec_number d * inject_Z (10 ^ 16) == inject_Z n)%Q /\ is_rounded (x / y * inject_Z (10 ^ 16)) n.
Proof.
  intros A B T NZ. destruct (convert_number L a x A) as (da & Ca & Ea). destruct (convert_number L b y B) as (db & Cb & Eb).
  assert (D : deriveOperation ODivide (ve_type a) (ve_type b) = Ok VDecimal) by (destruct A as [? ? [? ?|? ?]|?], B as [? ? [? ?|? ?]|?]; cbn in T; try (exfalso; intuition discriminate); reflexivity).
  assert (Ia : IsNull a = false) by (destruct A as [? ? [? ?|? ?]|?]; reflexivity).
  assert (Ib : IsNull b = false) by (destruct B as [? ? [? ?|? ?]|?]; reflexivity).
  assert (NB : coef db <> 0) by (intros Z; apply number_zero in Z; rewrite Eb in Z; contradiction).
  destruct (decimal_div_rounds da db NB) as (n & Dn & R). exists (Dec n (- 16)), n. split; [|split].
  - unfold applyOperator. rewrite D. cbn [bind]. unfold divideOp, withOperands. rewrite Ia, Ib, Ca, Cb. cbn [bind orb]. unfold on2r, decimalValue, go_decimal_div. cbn [ve_value vDec bind]. destruct (Z.eqb_spec (coef db) 0); [contradiction|]. cbn [bind]. rewrite Dn. reflexivity.
  - unfold dec_number. cbn [coef dexp]. rewrite Zpower_Qpower by lia. rewrite <- Qmult_assoc, <- Qpower_plus by discriminate. cbn [Z.add Z.opp Z.pos_sub Pos.compare Pos.compare_cont]. change (Qpower (inject_Z 10) (- (16) + 16)) with 1%Q. apply Qmult_1_r.
  - apply (rounded_eq (dec_number da / dec_number db * inject_Z (10 ^ 16))); [rewrite Ea, Eb; reflexivity|exact R].
Qed.
