(** Proofs about arithmetic on doubles, by Flocq (C92, C95). *)
From Coq Require Import Reals Lia Lra ZifyBool.
From Verif Require Import Base NumModel FloatSpec.
From Flocq Require Import Core.Core IEEE754.BinarySingleNaN.
Open Scope R_scope.

#[local] Instance prec53 : Prec_gt_0 53. Proof. reflexivity. Qed.
#[local] Instance emax1024 : Prec_lt_emax 53 1024. Proof. reflexivity. Qed.
Notation bin := (binary_float 53 1024).

(** ** The operations of the Coq library are those of Flocq *)

Lemma nearest_even_equiv s m l : round_nearest_even m l = choice_mode mode_NE s m l.
Proof. case l; [reflexivity|intro c]. case c; [|reflexivity..]. cbn. unfold Round.cond_incr. now case Z.even. Qed.
Lemma round_aux_equiv s m e l : SpecFloat.binary_round_aux 53 1024 s m e l = binary_round_aux 53 1024 mode_NE s m e l.
Proof.
  unfold SpecFloat.binary_round_aux, binary_round_aux. set (x := shr_fexp _ _ _ _ _). destruct x as [m' e'].
  cbn -[shr_fexp choice_mode]. now rewrite (nearest_even_equiv s).
Qed.
Lemma round_equiv s m e : SpecFloat.binary_round 53 1024 s m e = binary_round 53 1024 mode_NE s m e.
Proof. unfold SpecFloat.binary_round, binary_round, shl_align_fexp. destruct (shl_align _ _ _) as [mz ez]. apply round_aux_equiv. Qed.
Lemma normalize_equiv m e z : SpecFloat.binary_normalize 53 1024 m e z = B2SF (binary_normalize 53 1024 prec53 emax1024 mode_NE m e z).
Proof. destruct m as [|p|p]; [reflexivity| |]; cbn -[SpecFloat.binary_round binary_round]; rewrite B2SF_SF2B; apply round_equiv. Qed.

Lemma add_equiv (x y : bin) : d_add (B2SF x) (B2SF y) = B2SF (Bplus mode_NE x y).
Proof.
  destruct x as [sx|sx| |sx mx ex Bx], y as [sy|sy| |sy my ey By];
    [now (trivial || cbn; case Bool.eqb).. |]. apply normalize_equiv.
Qed.
Lemma sub_equiv (x y : bin) : d_sub (B2SF x) (B2SF y) = B2SF (Bminus mode_NE x y).
Proof.
  destruct x as [sx|sx| |sx mx ex Bx], y as [sy|sy| |sy my ey By];
    [now (trivial || cbn; case Bool.eqb).. |]. cbn -[SpecFloat.binary_normalize binary_normalize].
  unfold Zminus. rewrite <- cond_Zopp_negb. apply normalize_equiv.
Qed.
Lemma mul_equiv (x y : bin) : d_mul (B2SF x) (B2SF y) = B2SF (Bmult mode_NE x y).
Proof.
  destruct x as [sx|sx| |sx mx ex Bx], y as [sy|sy| |sy my ey By]; [now trivial.. |].
  cbn -[SpecFloat.binary_round_aux binary_round_aux]. rewrite B2SF_SF2B. apply round_aux_equiv.
Qed.
Lemma div_equiv (x y : bin) : d_div (B2SF x) (B2SF y) = B2SF (Bdiv mode_NE x y).
Proof.
  destruct x as [sx|sx| |sx mx ex Bx], y as [sy|sy| |sy my ey By]; [now trivial.. |].
  cbn -[SpecFloat.binary_round_aux binary_round_aux SFdiv_core_binary]. rewrite B2SF_SF2B.
  destruct (SFdiv_core_binary _ _ _ _ _ _) as [[mz ez] lz]. apply round_aux_equiv.
Qed.
Lemma sqrt_equiv (x : bin) : d_sqrt (B2SF x) = B2SF (Bsqrt mode_NE x).
Proof.
  destruct x as [sx|sx| |sx mx ex Bx]; [now (trivial || case sx).. |]. destruct sx; [reflexivity|].
  cbn -[SpecFloat.binary_round_aux binary_round_aux SFsqrt_core_binary]. rewrite B2SF_SF2B.
  destruct (SFsqrt_core_binary _ _ _ _) as [[mz ez] lz]. apply round_aux_equiv.
Qed.

(** ** Correct rounding *)

Lemma number_bin x : is_number x -> exists b : bin, x = B2SF b /\ is_finite b = true /\ real x = B2R b.
Proof.
  intros [F V]. exists (SF2B x V). rewrite B2SF_SF2B. split; [reflexivity|]. split.
  - rewrite <- is_finite_SF_B2SF, B2SF_SF2B. destruct x; [reflexivity|discriminate..|reflexivity].
  - unfold real. rewrite <- SF2R_B2SF, B2SF_SF2B. reflexivity.
Qed.
Lemma bin_number (b : bin) : is_finite b = true -> is_number (B2SF b) /\ real (B2SF b) = B2R b.
Proof.
  intros F. split; [split; [destruct b; [reflexivity|discriminate..|reflexivity]|apply valid_binary_B2SF]|apply SF2R_B2SF].
Qed.

Lemma sign_real (b : bin) : (Bsign b = true -> B2R b <= 0) /\ (Bsign b = false -> 0 <= B2R b).
Proof.
  destruct b as [s|s| |s m e B]; cbn [Bsign B2R]; try (split; intros; lra).
  destruct s; split; intros H; try discriminate; cbn [cond_Zopp]; [apply F2R_le_0|apply F2R_ge_0]; cbn; lia.
Qed.
Lemma beyond_not_zero r : bpow radix2 1024 <= Rabs (nearest r) -> r <> 0.
Proof.
  intros H ->. unfold nearest in H. rewrite round_0 in H by auto with typeclass_instances. rewrite Rabs_R0 in H.
  pose proof (bpow_gt_0 radix2 1024). lra.
Qed.
Lemma overflow_sign s : binary_overflow 53 1024 mode_NE s = S754_infinity s.
Proof. reflexivity. Qed.
Lemma finite_rounds (b : bin) r : B2R b = nearest r -> is_finite b = true -> is_number (B2SF b) /\ real (B2SF b) = nearest r.
Proof. intros E F. destruct (bin_number b F) as [N R]. split; [exact N|]. now rewrite R. Qed.

Lemma add_rounds x y : is_number x -> is_number y -> rounds_to (d_add x y) (real x + real y).
Proof.
  intros X Y. destruct (number_bin x X) as (bx & -> & FX & ->). destruct (number_bin y Y) as (b' & -> & FY & ->).
  rewrite add_equiv. pose proof (Bplus_correct 53 1024 prec53 emax1024 mode_NE bx b' FX FY) as C.
  change (round radix2 (SpecFloat.fexp 53 1024) (round_mode mode_NE) (B2R bx + B2R b')) with (nearest (B2R bx + B2R b')) in C.
  split; intros H.
  - rewrite Rlt_bool_true in C by exact H. destruct C as (E & F & _). apply finite_rounds; assumption.
  - rewrite Rlt_bool_false in C by exact H. destruct C as [-> S]. rewrite overflow_sign. exists (Bsign bx). split; [reflexivity|].
    pose proof (beyond_not_zero _ H). destruct (sign_real bx) as [P N], (sign_real b') as [P' N']. rewrite <- S in *.
    split; intros Z; [specialize (P Z); specialize (P' Z)|specialize (N Z); specialize (N' Z)]; lra.
Qed.
Lemma sub_rounds x y : is_number x -> is_number y -> rounds_to (d_sub x y) (real x - real y).
Proof.
  intros X Y. destruct (number_bin x X) as (bx & -> & FX & ->). destruct (number_bin y Y) as (b' & -> & FY & ->).
  rewrite sub_equiv. pose proof (Bminus_correct 53 1024 prec53 emax1024 mode_NE bx b' FX FY) as C.
  change (round radix2 (SpecFloat.fexp 53 1024) (round_mode mode_NE) (B2R bx - B2R b')) with (nearest (B2R bx - B2R b')) in C.
  split; intros H.
  - rewrite Rlt_bool_true in C by exact H. destruct C as (E & F & _). apply finite_rounds; assumption.
  - rewrite Rlt_bool_false in C by exact H. destruct C as [-> S]. rewrite overflow_sign. exists (Bsign bx). split; [reflexivity|].
    pose proof (beyond_not_zero _ H). destruct (sign_real bx) as [P N], (sign_real b') as [P' N'].
    rewrite S in *. destruct (Bsign b'); cbn [negb] in *; split; intros Z; try discriminate.
    + specialize (N eq_refl). specialize (P' eq_refl). lra.
    + specialize (P eq_refl). specialize (N' eq_refl). lra.
Qed.
Lemma mul_rounds x y : is_number x -> is_number y -> rounds_to (d_mul x y) (real x * real y).
Proof.
  intros X Y. destruct (number_bin x X) as (bx & -> & FX & ->). destruct (number_bin y Y) as (b' & -> & FY & ->).
  rewrite mul_equiv. pose proof (Bmult_correct 53 1024 prec53 emax1024 mode_NE bx b') as C.
  change (round radix2 (SpecFloat.fexp 53 1024) (round_mode mode_NE) (B2R bx * B2R b')) with (nearest (B2R bx * B2R b')) in C.
  split; intros H.
  - rewrite Rlt_bool_true in C by exact H. destruct C as (E & F & _). rewrite FX, FY in F. apply finite_rounds; assumption.
  - rewrite Rlt_bool_false in C by exact H. rewrite C, overflow_sign. eexists. split; [reflexivity|].
    pose proof (beyond_not_zero _ H). destruct (sign_real bx) as [P N], (sign_real b') as [P' N'].
    destruct (Bsign bx), (Bsign b'); cbn [xorb]; split; intros Z; try discriminate;
      repeat match goal with Q : ?a = ?a -> _ |- _ => specialize (Q eq_refl) end; nra.
Qed.
Lemma div_rounds x y : is_number x -> is_number y -> real y <> 0 -> rounds_to (d_div x y) (real x / real y).
Proof.
  intros X Y. destruct (number_bin x X) as (bx & -> & FX & ->). destruct (number_bin y Y) as (b' & -> & FY & ->). intros NZ.
  rewrite div_equiv. pose proof (Bdiv_correct 53 1024 prec53 emax1024 mode_NE bx b' NZ) as C.
  change (round radix2 (SpecFloat.fexp 53 1024) (round_mode mode_NE) (B2R bx / B2R b')) with (nearest (B2R bx / B2R b')) in C.
  split; intros H.
  - rewrite Rlt_bool_true in C by exact H. destruct C as (E & F & _). rewrite FX in F. apply finite_rounds; assumption.
  - rewrite Rlt_bool_false in C by exact H. rewrite C, overflow_sign. eexists. split; [reflexivity|].
    pose proof (beyond_not_zero _ H) as R. destruct (sign_real bx) as [P N], (sign_real b') as [P' N']. unfold Rdiv in *.
    assert (I : (Bsign b' = true -> / B2R b' < 0) /\ (Bsign b' = false -> 0 < / B2R b')).
    { split; intros S; [apply Rinv_lt_0_compat; specialize (P' S)|apply Rinv_0_lt_compat; specialize (N' S)]; lra. }
    destruct I as [I I']. clear C H. set (i := / B2R b') in *. clearbody i.
    destruct (Bsign bx), (Bsign b'); cbn [xorb]; split; intros Z; try discriminate;
      repeat match goal with Q : ?a = ?a -> _ |- _ => specialize (Q eq_refl) end; nra.
Qed.
Lemma sqrt_rounds x : is_number x -> 0 <= real x -> is_number (d_sqrt x) /\ real (d_sqrt x) = nearest (sqrt (real x)).
Proof.
  intros X P. destruct (number_bin x X) as (b & -> & F & E). rewrite sqrt_equiv, E in *.
  destruct (Bsqrt_correct 53 1024 prec53 emax1024 mode_NE b) as (R & G & _).
  apply finite_rounds; [exact R|]. rewrite G. destruct b as [s|s| |s m e B]; [reflexivity|discriminate..|].
  destruct s; [|reflexivity]. exfalso. cbn [B2R cond_Zopp] in P. assert (L : F2R (Float radix2 (Z.neg m) e) < 0) by (apply F2R_lt_0; reflexivity).
  cbn in P, L. lra.
Qed.

(** ** Integers *)

Lemma integer_format n : (Z.abs n <= 2 ^ 53)%Z -> generic_format radix2 (FLT_exp (-1074) 53) (IZR n).
Proof.
  intros B. destruct (Z.eq_dec (Z.abs n) (2 ^ 53)) as [E|N].
  - assert (P : generic_format radix2 (FLT_exp (-1074) 53) (bpow radix2 53)) by (apply generic_format_bpow; unfold FLT_exp; lia).
    change (bpow radix2 53) with (IZR (2 ^ 53)) in P.
    destruct (Z.abs_eq_or_opp n) as [A|A]; [replace n with (2 ^ 53)%Z by lia; exact P|].
    replace n with (- 2 ^ 53)%Z by lia. rewrite opp_IZR. apply generic_format_opp, P.
  - apply generic_format_FLT. exists (Float radix2 n 0); cbn [Fnum Fexp]; [unfold F2R; cbn; lra|change (radix_val radix2) with 2%Z; lia|lia].
Qed.
Lemma nearest_format r : generic_format radix2 (FLT_exp (-1074) 53) r -> nearest r = r.
Proof. intros G. apply round_generic; [auto with typeclass_instances|exact G]. Qed.
Lemma nearest_integer n : (Z.abs n <= 2 ^ 53)%Z -> nearest (IZR n) = IZR n.
Proof. intros B. apply nearest_format, integer_format, B. Qed.
Lemma nearest_le x y : x <= y -> nearest x <= nearest y.
Proof. apply round_le; [apply FLT_exp_valid; reflexivity|auto with typeclass_instances]. Qed.
Lemma of_Z_rounds n : (Z.abs n <= 2 ^ 53)%Z -> is_number (d_of_Z n) /\ real (d_of_Z n) = IZR n.
Proof.
  intros B. unfold d_of_Z. rewrite normalize_equiv.
  pose proof (binary_normalize_correct 53 1024 prec53 emax1024 mode_NE n 0 false) as C. cbv zeta in C.
  assert (E : F2R (Float radix2 n 0) = IZR n) by (unfold F2R; cbn; lra). rewrite E in C.
  change (round radix2 (SpecFloat.fexp 53 1024) (round_mode mode_NE) (IZR n)) with (nearest (IZR n)) in C.
  rewrite nearest_integer in C by exact B.
  rewrite Rlt_bool_true in C.
  - destruct C as (R & F & _). destruct (bin_number _ F) as [N R']. split; [exact N|]. now rewrite R', R.
  - rewrite <- abs_IZR. apply Rle_lt_trans with (IZR (2 ^ 53)); [apply IZR_le, B|].
    change (IZR (2 ^ 53)) with (bpow radix2 53). apply bpow_lt. lia.
Qed.
Lemma trunc_real x : is_number x -> d_trunc x = Some (Ztrunc (real x)).
Proof.
  intros [F V]. destruct x as [s|s| |s m e]; try discriminate; unfold real, d_trunc; cbn [SF2R].
  - rewrite Ztrunc_IZR. reflexivity.
  - f_equal. destruct (Z.leb_spec 0 e) as [E|E].
    + destruct e as [|e|e]; [| |lia].
      * unfold F2R; cbn [Fnum Fexp bpow]. rewrite Rmult_1_r, Ztrunc_IZR. destruct s; cbn [cond_Zopp]; lia.
      * unfold F2R; cbn [Fnum Fexp bpow]. change (Z.pow_pos radix2 e) with (2 ^ Z.pos e)%Z. rewrite <- mult_IZR, Ztrunc_IZR.
        destruct s; cbn [cond_Zopp]; lia.
    + assert (P : (0 < 2 ^ (- e))%Z) by (apply Z.pow_pos_nonneg; lia).
      assert (R : forall n, F2R (Float radix2 n e) = IZR n / IZR (2 ^ (- e))).
      { intros n. unfold F2R; cbn [Fnum Fexp]. replace e with (- (- e))%Z at 1 by lia. rewrite bpow_opp.
        rewrite <- (IZR_Zpower radix2 (- e)) by lia. reflexivity. }
      rewrite R, Ztrunc_div by lia. destruct s; cbn [cond_Zopp].
      * change (Z.neg m) with (- Z.pos m)%Z. rewrite Z.quot_opp_l by lia. now rewrite Z.quot_div_nonneg by lia.
      * now rewrite Z.quot_div_nonneg by lia.
Qed.
