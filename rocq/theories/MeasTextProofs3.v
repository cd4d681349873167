(** The value of a measurement with its adjustment (C121), by Flocq. *)
From Coq Require Import Reals Lia Lra.
From Flocq Require Import Core.Core IEEE754.BinarySingleNaN.
From Verif Require Import Base NumModel FloatSpec FloatProofs MeasTextModel.
Open Scope R_scope.

Lemma number_nearest x : is_number x -> nearest (real x) = real x /\ Rabs (real x) < bpow radix2 1024.
Proof.
  intros N. destruct (number_bin x N) as (b & -> & F & ->). split.
  - unfold nearest. apply round_generic; [auto with typeclass_instances|]. apply (generic_format_B2R 53 1024 b).
  - apply abs_B2R_lt_emax.
Qed.
Lemma number_unique x y : is_number x -> is_number y -> real x = real y -> real x <> 0 -> x = y.
Proof.
  intros X Y E NZ. destruct (number_bin x X) as (b & -> & F & EB). destruct (number_bin y Y) as (c & -> & G & EC).
  rewrite EB in *. rewrite EC in E. f_equal. apply B2R_inj; [| |exact E].
  - destruct b; try discriminate; [exfalso; apply NZ; reflexivity|reflexivity].
  - destruct c; try discriminate; [exfalso; apply NZ; rewrite E; reflexivity|reflexivity].
Qed.
Lemma one_number : is_number one /\ real one = 1.
Proof. split; [split; reflexivity|]. unfold real. vm_compute (SF2R radix2 one). unfold one. cbn. unfold F2R. cbn. lra. Qed.
Lemma rounds_same x r : rounds_to x r -> nearest r = r -> Rabs r < bpow radix2 1024 -> is_number x /\ real x = r.
Proof. intros [A _] E B. rewrite E in A. exact (A B). Qed.
Lemma adjust_default v : valid_binary 53 1024 v = true -> v <> S754_zero true -> d_add (d_mul v one) d_zero = v.
Proof.
  intros V NZ. destruct v as [s|s| |s m e]; [destruct s; [contradiction|reflexivity]|destruct s; reflexivity|reflexivity|].
  set (v := S754_finite s m e) in *. assert (N : is_number v) by (split; [reflexivity|exact V]).
  assert (R0 : real v <> 0).
  { unfold v, real. cbn [SF2R]. destruct s; cbn [cond_Zopp]; [apply Rlt_not_eq, F2R_lt_0|apply Rgt_not_eq, F2R_gt_0]; cbn; lia. }
  destruct (number_nearest v N) as [E B]. destruct one_number as [O1 O2].
  pose proof (mul_rounds v one N O1) as M. rewrite O2, Rmult_1_r in M. apply rounds_same in M as [M1 M2]; [|exact E|exact B].
  assert (Z : is_number d_zero /\ real d_zero = 0) by (split; [split; reflexivity|reflexivity]). destruct Z as [Z1 Z2].
  pose proof (add_rounds _ d_zero M1 Z1) as A. rewrite M2, Z2, Rplus_0_r in A. apply rounds_same in A as [A1 A2]; [|exact E|exact B].
  symmetry. apply number_unique; [exact N|exact A1|symmetry; exact A2|exact R0].
Qed.

(** ** The values of measurements received *)
Lemma normalize_exact m e s : (Z.abs m < 2 ^ 53)%Z -> (-1074 <= e)%Z -> Rabs (F2R (Float radix2 m e)) < bpow radix2 1024 ->
  is_number (SpecFloat.binary_normalize 53 1024 m e s) /\ real (SpecFloat.binary_normalize 53 1024 m e s) = F2R (Float radix2 m e).
Proof.
  intros M E B. rewrite normalize_equiv. pose proof (binary_normalize_correct 53 1024 prec53 emax1024 mode_NE m e s) as C.
  assert (G : round radix2 (SpecFloat.fexp 53 1024) (round_mode mode_NE) (F2R (Float radix2 m e)) = F2R (Float radix2 m e)).
  { apply round_generic; [auto with typeclass_instances|]. apply generic_format_FLT. exists (Float radix2 m e); [reflexivity|exact M|exact E]. }
  cbv zeta in C. rewrite G in C. rewrite Rlt_bool_true in C by exact B. destruct C as (C1 & C2 & _). destruct (bin_number _ C2) as [N R]. split; [exact N|]. rewrite R. exact C1.
Qed.
Lemma single_value b : is_u32 b -> (b / 2 ^ 23 mod 2 ^ 8 < 255)%Z ->
  let e := (b / 2 ^ 23 mod 2 ^ 8)%Z in let m := (b mod 2 ^ 23)%Z in
  let x := d_of_single (Float32frombits b) in
  is_number x /\ real x = (if Z.testbit b 31 then -1 else 1) * (if (e =? 0)%Z then IZR m * bpow radix2 (-149) else IZR (2 ^ 23 + m) * bpow radix2 (e - 150)).
Proof.
  intros U L. cbn zeta. unfold Float32frombits. set (s := Z.testbit b 31). set (e := (b / 2 ^ 23 mod 2 ^ 8)%Z) in *. set (m := (b mod 2 ^ 23)%Z).
  assert (EB : (0 <= e < 256)%Z) by (apply Z.mod_pos_bound; lia). assert (MB : (0 <= m < 2 ^ 23)%Z) by (apply Z.mod_pos_bound; lia). clearbody s e m.
  assert (BIG : forall k x, (Z.abs k < 2 ^ 24)%Z -> (x <= 104)%Z -> Rabs (F2R (Float radix2 k x)) < bpow radix2 1024).
  { intros k x K X. rewrite <- F2R_Zabs. unfold F2R. cbn [Fnum Fexp]. apply Rlt_le_trans with (bpow radix2 24 * bpow radix2 x).
    - apply Rmult_lt_compat_r; [apply bpow_gt_0|]. change (bpow radix2 24) with (IZR (2 ^ 24)). apply IZR_lt. exact K.
    - rewrite <- bpow_plus. apply bpow_le. lia. }
  assert (SG : forall k x, F2R (Float radix2 (cond_Zopp s k) x) = (if s then -1 else 1) * (IZR k * bpow radix2 x)).
  { intros k x. unfold F2R. cbn [Fnum Fexp]. destruct s; cbn [cond_Zopp]; [rewrite opp_IZR|]; lra. }
  assert (ABS : forall p, Z.abs (cond_Zopp s (Zpos p)) = Zpos p) by (intros p; destruct s; reflexivity).
  replace (e =? 255)%Z with false by (symmetry; apply Z.eqb_neq; lia). destruct (Z.eqb_spec e 0) as [E0|E0].
  - destruct m as [|p|p]; [|..|lia].
    + cbn [d_of_single]. split; [split; reflexivity|]. unfold real. cbn [SF2R]. lra.
    + unfold d_of_single. destruct (normalize_exact (cond_Zopp s (Zpos p)) (-149) s) as [N R]; [rewrite ABS; lia|lia|apply BIG; [rewrite ABS; lia|lia]|].
      split; [exact N|]. rewrite R. apply SG.
  - destruct (m + 2 ^ 23)%Z as [|p|p] eqn:MP; [lia| |lia].
    unfold d_of_single. destruct (normalize_exact (cond_Zopp s (Zpos p)) (e - 150) s) as [N R]; [rewrite ABS; lia|lia|apply BIG; [rewrite ABS; lia|lia]|].
    split; [exact N|]. rewrite R, SG. replace (2 ^ 23 + m)%Z with (Zpos p) by lia. reflexivity.
Qed.
