(** Reading numbers: correct rounding (Flocq) and the grammar (C123). *)
From Coq Require Import Reals Lia Lra ZifyBool.
From Verif Require Import Base GuidModel FormatModel FormatSpec FormatProofs NumModel GoTextModel GoTextProofs NumTextModel NumTextSpec.
From Flocq Require Import Core.Core IEEE754.BinarySingleNaN.
Open Scope Z_scope.

Section Rounding.
Context (prec emax : Z) (P : Prec_gt_0 prec) (PE : Prec_lt_emax prec emax).

Lemma nearest_even_equiv s m l : round_nearest_even m l = choice_mode mode_NE s m l.
Proof. case l; [reflexivity|intro c]. case c; [|reflexivity..]. cbn. unfold Round.cond_incr. now case Z.even. Qed.
Lemma round_aux_equiv s m e l : SpecFloat.binary_round_aux prec emax s m e l = binary_round_aux prec emax mode_NE s m e l.
Proof.
  unfold SpecFloat.binary_round_aux, binary_round_aux. set (x := shr_fexp _ _ _ _ _). destruct x as [m' e'].
  cbn -[shr_fexp choice_mode]. now rewrite (nearest_even_equiv s).
Qed.
Lemma ratio_correct s n d : let r := signed s (IZR (Zpos n) / IZR (Zpos d)) in let z := round_ratio prec emax s n d in
  ((Rabs (nearest_in prec emax r) < bpow radix2 emax)%R -> is_nearest prec emax s r z) /\
  ((bpow radix2 emax <= Rabs (nearest_in prec emax r))%R -> z = S754_infinity s).
Proof.
  intros r z. pose proof (Bdiv_correct_aux prec emax P PE mode_NE s n 0 false d 0) as C. cbv zeta in C.
  replace (xorb s false) with s in C by (destruct s; reflexivity).
  assert (EZ : z = let '(mz, ez, lz) := SFdiv_core_binary prec emax (Zpos n) 0 (Zpos d) 0 in binary_round_aux prec emax mode_NE s mz ez lz).
  { unfold z, round_ratio. destruct (SFdiv_core_binary prec emax (Zpos n) 0 (Zpos d) 0) as [[mz ez] lz]. apply round_aux_equiv. }
  rewrite <- EZ in C.
  assert (ER : (F2R (Float radix2 (cond_Zopp s (Zpos n)) 0) / F2R (Float radix2 (cond_Zopp false (Zpos d)) 0))%R = r).
  { unfold F2R. cbn [Fnum Fexp bpow cond_Zopp]. rewrite !Rmult_1_r. unfold r, signed. destruct s; cbn [cond_Zopp]; [rewrite opp_IZR; unfold Rdiv; ring|reflexivity]. }
  rewrite ER in C. destruct C as [V C].
  change (round radix2 (SpecFloat.fexp prec emax) (round_mode mode_NE) r) with (nearest_in prec emax r) in C.
  split; intros H.
  - rewrite Rlt_bool_true in C by exact H. destruct C as (E & F & S). split; [exact V|]. split; [exact E|].
    destruct z; try discriminate F; exact S.
  - rewrite Rlt_bool_false in C by exact H. rewrite C. reflexivity.
Qed.
Lemma nearest_zero : nearest_in prec emax 0 = 0%R.
Proof. unfold nearest_in. apply round_0. auto with typeclass_instances. Qed.
Lemma pow_IZR k : 0 <= k -> powerRZ 10 k = IZR (10 ^ k).
Proof.
  intros K. destruct k as [|p|p]; [reflexivity| |lia]. cbn [powerRZ]. rewrite <- (Z2Nat.id (Zpos p)) by lia. rewrite pow_IZR. reflexivity.
Qed.
Lemma scaled_correct s m k : 0 <= m -> let r := signed s (IZR m * powerRZ 10 k) in let z := round_scaled prec emax s m 10 k in
  ((Rabs (nearest_in prec emax r) < bpow radix2 emax)%R -> is_nearest prec emax s r z) /\
  ((bpow radix2 emax <= Rabs (nearest_in prec emax r))%R -> z = S754_infinity s).
Proof.
  intros M r z. destruct m as [|p|p]; [| |lia].
  - assert (E : r = 0%R) by (unfold r, signed; destruct s; lra). rewrite E, nearest_zero, Rabs_R0. split; intros H.
    + split; [reflexivity|]. split; [rewrite nearest_zero; reflexivity|reflexivity].
    + pose proof (bpow_gt_0 radix2 emax). lra.
  - unfold z, round_scaled. destruct (Z.leb_spec 0 k) as [K|K].
    + replace r with (signed s (IZR (Zpos (Z.to_pos (Zpos p * 10 ^ k))) / IZR 1)); [apply ratio_correct|].
      unfold r. f_equal. assert (0 < 10 ^ k) by (apply Z.pow_pos_nonneg; lia). rewrite Z2Pos.id by lia. rewrite mult_IZR, pow_IZR by exact K. unfold Rdiv. rewrite RMicromega.Rinv_1. ring.
    + replace r with (signed s (IZR (Zpos p) / IZR (Zpos (Z.to_pos (10 ^ (- k)))))); [apply ratio_correct|].
      unfold r. f_equal. assert (0 < 10 ^ (- k)) by (apply Z.pow_pos_nonneg; lia). rewrite Z2Pos.id by lia. unfold Rdiv. f_equal.
      rewrite <- pow_IZR by lia. rewrite <- powerRZ_neg'. rewrite Z.opp_involutive. reflexivity.
Qed.
End Rounding.
