(** Computed columns of floating-point numbers (C131). *)
From Coq Require Import Reals Lia Lra ZifyBool.
From Verif Require Import Base NumModel CalModel NumTextModel NumTextSpec NumTextProofs ExprModel ExprSpec ExprProofs FuncSpec TableModel CellSpec CellProofs FloatSpec FloatProofs.
From Flocq Require Import Core.Core IEEE754.BinarySingleNaN.
Open Scope list_scope.
Open Scope Z_scope.

Section Format.
Variables prec emax : Z.
Context (P : Prec_gt_0 prec) (E : Prec_lt_emax prec emax).
Lemma round_aux_equiv' s m e l : SpecFloat.binary_round_aux prec emax s m e l = binary_round_aux prec emax mode_NE s m e l.
Proof.
  unfold SpecFloat.binary_round_aux, binary_round_aux. set (x := shr_fexp _ _ _ _ _). destruct x as [m' e'].
  cbn -[shr_fexp choice_mode]. now rewrite (nearest_even_equiv s).
Qed.
Lemma round_equiv' s m e : SpecFloat.binary_round prec emax s m e = binary_round prec emax mode_NE s m e.
Proof. unfold SpecFloat.binary_round, binary_round, shl_align_fexp. destruct (shl_align _ _ _) as [mz ez]. apply round_aux_equiv'. Qed.
Lemma normalize_equiv' m e z : SpecFloat.binary_normalize prec emax m e z = B2SF (binary_normalize prec emax P E mode_NE m e z).
Proof. destruct m as [|p|p]; [reflexivity| |]; cbn -[SpecFloat.binary_round binary_round]; rewrite B2SF_SF2B; apply round_equiv'. Qed.
Lemma normalize_rounds (s : bool) m e (z : bool) : (if s then m < 0 else 0 < m \/ (m = 0 /\ z = false)) -> let r := F2R (Float radix2 m e) in
  ((Rabs (nearest_in prec emax r) < bpow radix2 emax)%R -> is_nearest prec emax s r (SpecFloat.binary_normalize prec emax m e z)) /\
  ((bpow radix2 emax <= Rabs (nearest_in prec emax r))%R -> SpecFloat.binary_normalize prec emax m e z = S754_infinity s).
Proof.
  intros S r. rewrite normalize_equiv'. pose proof (binary_normalize_correct prec emax P E mode_NE m e z) as C. cbv zeta in C.
  change (F2R (Float radix2 m e)) with r in C. change (round radix2 (SpecFloat.fexp prec emax) (round_mode mode_NE) r) with (nearest_in prec emax r) in C.
  assert (SG : match Rcompare r 0 with Eq => z | Lt => true | Gt => false end = s).
  { unfold r. destruct s.
    - rewrite Rcompare_Lt; [reflexivity|]. apply F2R_lt_0. exact S.
    - destruct S as [S|[-> ->]]; [rewrite Rcompare_Gt; [reflexivity|apply F2R_gt_0; exact S]|]. rewrite F2R_0, Rcompare_Eq; reflexivity. }
  split; intros H.
  - rewrite Rlt_bool_true in C by exact H. destruct C as (R & F & G). rewrite SG in G. set (b := binary_normalize prec emax P E mode_NE m e z) in *.
    split; [apply valid_binary_B2SF|]. split; [rewrite SF2R_B2SF; exact R|]. destruct b; try discriminate; exact G.
  - rewrite Rlt_bool_false in C by exact H. rewrite C. cbn. unfold binary_overflow. cbn. f_equal. unfold r. destruct s.
    + apply Rlt_bool_true. apply F2R_lt_0. exact S.
    + apply Rlt_bool_false. destruct S as [S|[-> _]]; [left; apply F2R_gt_0; exact S|rewrite F2R_0; right; reflexivity].
Qed.
End Format.

#[local] Instance prec24 : Prec_gt_0 24. Proof. reflexivity. Qed.
#[local] Instance emax128 : Prec_lt_emax 24 128. Proof. reflexivity. Qed.
#[local] Instance prec53' : Prec_gt_0 53. Proof. reflexivity. Qed.
#[local] Instance emax1024' : Prec_lt_emax 53 1024. Proof. reflexivity. Qed.

Lemma whole_fits prec emax n : 0 < prec -> 64 < emax -> is_i64 n -> (Rabs (nearest_in prec emax (IZR n)) < bpow radix2 emax)%R.
Proof.
  intros P M B. apply Rle_lt_trans with (bpow radix2 64); [|apply bpow_lt; exact M].
  unfold nearest_in. assert (Prec_gt_0 prec) by exact P. apply abs_round_le_generic; [apply FLT_exp_valid; assumption|apply valid_rnd_N| |].
  - apply generic_format_bpow. unfold FLT_exp. lia.
  - rewrite <- abs_IZR. change (bpow radix2 64) with (IZR (2 ^ 64)). apply IZR_le. unfold is_i64 in B. lia.
Qed.
Lemma of_Z_rounds prec emax n : 0 < prec -> prec < emax -> 64 < emax -> is_i64 n ->
  is_nearest prec emax (n <? 0) (IZR n) (SpecFloat.binary_normalize prec emax n 0 false).
Proof.
  intros P E M B. assert (R : F2R (Float radix2 n 0) = IZR n) by (unfold F2R; cbn; lra). rewrite <- R.
  apply (normalize_rounds prec emax P E); [|rewrite R; apply whole_fits; assumption]. destruct (Z.ltb_spec n 0); [assumption|lia].
Qed.
Lemma counts_i64 v n : counts_whole v n -> is_i64 n.
Proof. intros [w m [b|u k [j X|j X]]|t m X Y]; [destruct b; unfold is_i64; lia|unfold is_i64, is_i32 in *; lia|exact X|exact Y]. Qed.
Lemma whole_floats D v n : counts_whole v n -> computed_cell D v DSingle = Ok (CSingle (s_of_Z n)) /\ computed_cell D v DDouble = Ok (CDouble (d_of_Z n)).
Proof.
  intros [w m W|t m X Y].
  - destruct W as [b|u k [j Q|j Q]]; [destruct b|..]; split; reflexivity.
  - rewrite <- (seconds_unix t m X Y). split; reflexivity.
Qed.
Lemma single_rounds f : is_number f -> let r := real f in let neg := match f with S754_zero s | S754_finite s _ _ => s | _ => false end in
  ((Rabs (nearest_in 24 128 r) < bpow radix2 128)%R -> is_nearest 24 128 neg r (s_of_double f)) /\
  ((bpow radix2 128 <= Rabs (nearest_in 24 128 r))%R -> s_of_double f = S754_infinity neg).
Proof.
  intros [N _] r neg. destruct f as [s|s| |s m e]; try discriminate.
  - cbn [s_of_double]. assert (Z0 : nearest_in 24 128 r = 0%R) by (apply round_0, valid_rnd_N). rewrite Z0. split; intros H.
    + repeat split; [exact (eq_sym Z0)].
    + exfalso. rewrite Rabs_R0 in H. pose proof (bpow_gt_0 radix2 128). lra.
  - apply (normalize_rounds 24 128 prec24 emax128 s). destruct s; cbn; lia.
Qed.
