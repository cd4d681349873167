(** Proofs about operators on doubles (C95). *)
From Coq Require Import Reals Lia Lra ZifyBool.
From Verif Require Import Base NumModel ExprModel ExprSpec ExprProofs ExprProofs2 FloatSpec FloatProofs.
From Flocq Require Import Core.Core IEEE754.BinarySingleNaN.
Open Scope R_scope.

#[local] Existing Instances prec53 emax1024.

Lemma pow_format : generic_format radix2 (FLT_exp (-1074) 53) (bpow radix2 64).
Proof. apply generic_format_bpow. unfold FLT_exp. lia. Qed.
Lemma of_Z_nearest n : is_i64 n -> is_number (d_of_Z n) /\ real (d_of_Z n) = nearest (IZR n).
Proof.
  intros B. unfold d_of_Z. rewrite normalize_equiv.
  pose proof (binary_normalize_correct 53 1024 prec53 emax1024 mode_NE n 0 false) as C. cbv zeta in C.
  assert (E : F2R (Float radix2 n 0) = IZR n) by (unfold F2R; cbn; lra). rewrite E in C.
  change (round radix2 (SpecFloat.fexp 53 1024) (round_mode mode_NE) (IZR n)) with (nearest (IZR n)) in C.
  rewrite Rlt_bool_true in C.
  - destruct C as (R & F & _). destruct (bin_number _ F) as [N R']. split; [exact N|]. rewrite R'. exact R.
  - apply Rle_lt_trans with (bpow radix2 64).
    + unfold nearest. apply abs_round_le_generic; [apply FLT_exp_valid; reflexivity|auto with typeclass_instances|apply pow_format|].
      rewrite <- abs_IZR. change (bpow radix2 64) with (IZR (2 ^ 64)). apply IZR_le. unfold is_i64 in B. lia.
    + apply bpow_lt. lia.
Qed.

Lemma eqb_real x y : is_number x -> is_number y -> d_eqb x y = Req_bool (real x) (real y).
Proof.
  intros X Y. destruct (number_bin x X) as (bx & -> & FX & ->). destruct (number_bin y Y) as (b' & -> & FY & ->).
  apply (Beqb_correct 53 1024 bx b' FX FY).
Qed.
Lemma ltb_real x y : is_number x -> is_number y -> d_ltb x y = Rlt_bool (real x) (real y).
Proof.
  intros X Y. destruct (number_bin x X) as (bx & -> & FX & ->). destruct (number_bin y Y) as (b' & -> & FY & ->).
  apply (Bltb_correct 53 1024 bx b' FX FY).
Qed.
Lemma leb_real x y : is_number x -> is_number y -> d_leb x y = Rle_bool (real x) (real y).
Proof.
  intros X Y. destruct (number_bin x X) as (bx & -> & FX & ->). destruct (number_bin y Y) as (b' & -> & FY & ->).
  apply (Bleb_correct 53 1024 bx b' FX FY).
Qed.

Lemma whole_i64 v n : whole v n -> is_i64 n.
Proof. intros W. destruct W as [b|v n [m R|m R]]; [destruct b; unfold is_i64; lia|unfold is_i64, is_i32 in *; lia|exact R]. Qed.
Lemma real_convert L v p : as_real v p -> exists f, Convert L v VDouble = Ok (vDouble f) /\ is_number f /\ real f = p /\ IsNull v = false.
Proof.
  intros A. destruct A as [f N|v n W].
  - exists f. repeat split; try apply N; reflexivity.
  - exists (d_of_Z n). destruct (of_Z_nearest n (whole_i64 v n W)) as [N R].
    split; [destruct W as [b|v m [m' Q|m' Q]]; [destruct b|..]; reflexivity|]. split; [exact N|]. split; [exact R|].
    destruct W as [b|v m [m' Q|m' Q]]; reflexivity.
Qed.
Lemma real_types o a b p q : as_real a p -> as_real b q -> ve_type a = VDouble \/ ve_type b = VDouble ->
  deriveArithmetic o (ve_type a) (ve_type b) = Ok VDouble /\ deriveComparison (ve_type a) (ve_type b) = Ok VDouble.
Proof.
  intros A B T. destruct A as [f N|v n [bb|w m [m' Q|m' Q]]], B as [f' N'|v' n' [bb'|w' m2 [m2' Q'|m2' Q']]]; cbn in *;
    try (destruct T; discriminate); split; reflexivity.
Qed.
Lemma with_doubles L a b p q k : as_real a p -> as_real b q ->
  exists f g, is_number f /\ real f = p /\ is_number g /\ real g = q /\
    withOperands L a b VDouble k = k (vDouble f) (vDouble g).
Proof.
  intros A B. destruct (real_convert L a p A) as (f & CF & NF & RF & IF). destruct (real_convert L b q B) as (g & CG & NG & RG & IG).
  exists f, g. unfold withOperands. rewrite IF, IG, CF, CG. auto.
Qed.

Lemma double_arithmetic L o a b p q r : as_real a p -> as_real b q -> ve_type a = VDouble \/ ve_type b = VDouble ->
  real_operation o p q = Some r -> (o = ODivide -> q <> 0) ->
  exists f, applyOperator L o a b = Ok (vDouble f) /\ rounds_to f r.
Proof.
  intros A B T O Z. destruct (real_types o a b p q A B T) as [DA _].
  destruct o; try discriminate; injection O as <-; unfold applyOperator, deriveOperation; rewrite DA; cbn [bind].
  - unfold multiplyOp. destruct (with_doubles L a b p q (fun l r => on2 doubleValue (fun a b => GDouble (d_mul a b)) VDouble l r) A B) as (f & g & NF & <- & NG & <- & E).
    exists (d_mul f g). split; [exact E|apply mul_rounds; assumption].
  - unfold divideOp. destruct (with_doubles L a b p q (fun l r => on2 doubleValue (fun a b => GDouble (d_div a b)) VDouble l r) A B) as (f & g & NF & <- & NG & <- & E).
    exists (d_div f g). split; [exact E|apply div_rounds; auto].
  - unfold addOp. destruct (with_doubles L a b p q (fun l r => on2 doubleValue (fun a b => GDouble (d_add a b)) VDouble l r) A B) as (f & g & NF & <- & NG & <- & E).
    exists (d_add f g). split; [exact E|apply add_rounds; assumption].
  - unfold subtractOp. destruct (with_doubles L a b p q (fun l r => on2 doubleValue (fun a b => GDouble (d_sub a b)) VDouble l r) A B) as (f & g & NF & <- & NG & <- & E).
    exists (d_sub f g). split; [exact E|apply sub_rounds; assumption].
Qed.

Lemma compare_bools p q : Rlt_bool p q = holds OLessThan (Rcompare p q) /\ Rle_bool p q = holds OLessThanOrEqual (Rcompare p q) /\
  Rlt_bool q p = holds OGreaterThan (Rcompare p q) /\ Rle_bool q p = holds OGreaterThanOrEqual (Rcompare p q) /\
  Req_bool p q = holds OEqual (Rcompare p q) /\ negb (Req_bool p q) = holds ONotEqual (Rcompare p q).
Proof.
  destruct (Rcompare_spec p q) as [H|H|H]; cbn [holds].
  - rewrite (Rlt_bool_true p q), (Rle_bool_true p q), (Rlt_bool_false q p), (Rle_bool_false q p), (Req_bool_false p q) by lra. auto 10.
  - rewrite (Rlt_bool_false p q), (Rle_bool_true p q), (Rlt_bool_false q p), (Rle_bool_true q p), (Req_bool_true p q) by lra. auto 10.
  - rewrite (Rlt_bool_false p q), (Rle_bool_false p q), (Rlt_bool_true q p), (Rle_bool_true q p), (Req_bool_false p q) by lra. auto 10.
Qed.
Lemma double_comparison L o a b p q : as_real a p -> as_real b q -> ve_type a = VDouble \/ ve_type b = VDouble -> relational o ->
  applyOperator L o a b = Ok (vBool (holds o (Rcompare p q))).
Proof.
  intros A B T O. destruct (real_types o a b p q A B T) as [_ DC].
  destruct (compare_bools p q) as (E1 & E2 & E3 & E4 & E5 & E6).
  assert (ST : forall k, exists f g, is_number f /\ real f = p /\ is_number g /\ real g = q /\ withOperands L a b VDouble k = k (vDouble f) (vDouble g)).
  { intros k. apply with_doubles; assumption. }
  unfold relational in O. repeat destruct O as [O|O]; subst o; unfold applyOperator, deriveOperation; rewrite DC; cbn [bind].
  - unfold lessThanOp. edestruct ST as (f & g & NF & RF & NG & RG & ->). rewrite <- E1, <- RF, <- RG, <- ltb_real by assumption. reflexivity.
  - unfold lessThanOrEqualOp. edestruct ST as (f & g & NF & RF & NG & RG & ->). rewrite <- E2, <- RF, <- RG, <- leb_real by assumption. reflexivity.
  - unfold greaterThanOp. edestruct ST as (f & g & NF & RF & NG & RG & ->). rewrite <- E3, <- RF, <- RG, <- ltb_real by assumption. reflexivity.
  - unfold greaterThanOrEqualOp. edestruct ST as (f & g & NF & RF & NG & RG & ->). rewrite <- E4, <- RF, <- RG, <- leb_real by assumption. reflexivity.
  - unfold equalOp. edestruct ST as (f & g & NF & RF & NG & RG & ->). rewrite <- E5, <- RF, <- RG, <- eqb_real by assumption. reflexivity.
  - unfold equalOp. edestruct ST as (f & g & NF & RF & NG & RG & ->). change (holds OEqualExactMatch (Rcompare p q)) with (holds OEqual (Rcompare p q)).
    rewrite <- E5, <- RF, <- RG, <- eqb_real by assumption. reflexivity.
  - unfold notEqualOp. edestruct ST as (f & g & NF & RF & NG & RG & ->). rewrite <- E6, <- RF, <- RG, <- eqb_real by assumption. reflexivity.
  - unfold notEqualOp. edestruct ST as (f & g & NF & RF & NG & RG & ->). change (holds ONotEqualExactMatch (Rcompare p q)) with (holds ONotEqual (Rcompare p q)).
    rewrite <- E6, <- RF, <- RG, <- eqb_real by assumption. reflexivity.
Qed.

Lemma double_sqrt L v p : as_real v p -> 0 <= p ->
  exists f, fn_sqrt L v = Ok (vDouble f) /\ is_number f /\ real f = nearest (sqrt p).
Proof.
  intros A P. assert (S : exists f, fn_sqrt L v = Ok (vDouble (d_sqrt f)) /\ is_number f /\ real f = p).
  { destruct A as [f N|v n W].
    - exists f. split; [reflexivity|]. split; [exact N|reflexivity].
    - exists (d_of_Z n). destruct (of_Z_nearest n (whole_i64 v n W)) as [N R]. split; [|split; [exact N|exact R]].
      destruct W as [b|v m [m' Q|m' Q]]; [destruct b|..]; reflexivity. }
  destruct S as (f & E & N & <-). exists (d_sqrt f). split; [exact E|]. apply sqrt_rounds; assumption.
Qed.
