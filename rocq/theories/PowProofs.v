(** Decimal.Pow of a number with itself comes to a result. *)
From Coq Require Import Lia.
From Verif Require Import Base GuidModel NumModel NumTextModel PowModel.
Open Scope Z_scope.

Lemma pow_loop_ok fuel d : coef d <> 0 -> forall e, exists r, pow_loop fuel d e = Ok r.
Proof.
  intros N. induction fuel as [|fuel IH]; intros e; cbn [pow_loop]; [eauto|].
  destruct (dec_intpart e =? 0); [eauto|]. destruct (IH (decimal_div e (dec_of_Z 2))) as [t ->]. cbn [bind].
  destruct (Z.rem _ 2 =? 0); [eauto|]. destruct (0 <? _); [eauto|].
  destruct (Z.eqb_spec (coef d) 0); [contradiction|eauto].
Qed.
Lemma intpart_zero d : coef d = 0 -> dec_intpart d = 0.
Proof. intros E. unfold dec_intpart. rewrite E. destruct (Z.leb_spec 0 (dexp d)); [reflexivity|]. rewrite Z.quot_0_l by (apply Z.pow_nonzero; lia). reflexivity. Qed.
Lemma decimal_pow_self d : exists r, decimal_pow d d = Ok r.
Proof.
  unfold decimal_pow. set (k := Z.to_nat _). destruct (Z.eq_dec (coef d) 0) as [E|E]; [|apply pow_loop_ok, E].
  destruct k as [|k]; cbn [pow_loop]; [eauto|]. rewrite (intpart_zero d E). cbn [Z.eqb]. eauto.
Qed.
