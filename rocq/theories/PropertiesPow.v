(** Powers of decimals (C54).  [L] stands for the behaviour of other packages. *)
From Coq Require Import Lia ZifyBool QArith Qpower.
From Verif Require Import Base BaseProofs GuidModel NumModel NumTextModel PowModel PowProofs PowProofs2 ExprModel ExprSpec FuncSpec ExprProofs ExprProofs2 FuncProofs FuncProofs7 PropertiesExpr.
Close Scope Q_scope.
Open Scope Z_scope.

(** The exponent has no influence, whatever numbers of one type it may be. *)
Theorem C54_exponent_ignored_any_refuted : forall L row x y y' a b b',
  Evaluate L row x = Ok a -> Evaluate L row y = Ok b -> Evaluate L row y' = Ok b' ->
  ~ null a -> ~ null b -> ~ null b' -> ve_type b = ve_type b' ->
  Evaluate L row (EFunction FPower [x; y]) = Evaluate L row (EFunction FPower [x; y']).
Proof.
  intros L row x y y' a b b' X Y Y' NA NB NB' T. unfold Evaluate in *. cbn [evaluateAs evaluateFunction map].
  rewrite (Evaluate_as L row x VDouble _ X NA), (Evaluate_as L row y VInt32 _ Y NB), (Evaluate_as L row y' VInt32 _ Y' NB').
  cbn [bind]. unfold fn_power. apply IsNull_false in NB, NB'. rewrite T, NB, NB'. reflexivity.
Qed.

(** Power of two decimals always comes to a decimal. *)
Theorem C54_decimal_total : forall L row x y d e,
  Evaluate L row x = Ok (vDec d) -> Evaluate L row y = Ok (vDec e) ->
  exists r, Evaluate L row (EFunction FPower [x; y]) = Ok (vDec r).
Proof.
  intros L row x y d e X Y. destruct (decimal_pow_self d) as [r R]. exists r. unfold Evaluate in *. cbn [evaluateAs evaluateFunction map].
  rewrite (Evaluate_as L row x VDouble _ X ltac:(discriminate)), (Evaluate_as L row y VInt32 _ Y ltac:(discriminate)).
  cbn -[decimal_pow]. rewrite R. reflexivity.
Qed.

(** Of a decimal of up to 15 digits that is not negative, it is the base raised
    to the whole part of the base. *)
Theorem C54_decimal_partial : forall L row x y d e,
  Evaluate L row x = Ok (vDec d) -> Evaluate L row y = Ok (vDec e) ->
  0 <= coef d < 10 ^ 15 -> - 16 <= dexp d <= 0 ->
  exists r n, Evaluate L row (EFunction FPower [x; y]) = Ok (vDec r) /\
    is_floor (dec_number d) n /\ (dec_number r == dec_number d ^ n)%Q.
Proof.
  intros L row x y d e X Y C E. destruct d as [c p]. cbn [coef dexp] in *.
  pose proof (decimal_pow_whole (Dec c p) c p ltac:(lia) E) as R. cbn [coef dexp] in R. set (n := c / 10 ^ (- p)) in *.
  pose proof (Z.pow_pos_nonneg 10 (- p) ltac:(lia) ltac:(lia)) as P.
  exists (Dec (c ^ n) (p * n)), n. split; [|split].
  - unfold Evaluate in *. cbn [evaluateAs evaluateFunction map].
    rewrite (Evaluate_as L row x VDouble _ X ltac:(discriminate)), (Evaluate_as L row y VInt32 _ Y ltac:(discriminate)).
    cbn -[decimal_pow]. rewrite R. reflexivity.
  - assert (V : (dec_number (Dec c p) == inject_Z c / inject_Z (10 ^ (- p)))%Q).
    { unfold dec_number. cbn [coef dexp]. rewrite Zpower_Qpower, Qpower_opp by lia. unfold Qdiv. rewrite Qinv_involutive. reflexivity. }
    assert (P' : (0 < inject_Z (10 ^ (- p)))%Q) by (change 0%Q with (inject_Z 0); rewrite <- Zlt_Qlt; exact P).
    unfold is_floor. rewrite V. pose proof (Z.mul_div_le c (10 ^ (- p)) P). pose proof (Z.mul_succ_div_gt c (10 ^ (- p)) P). fold n in H, H0.
    split; [apply Qle_shift_div_l|apply Qlt_shift_div_r]; try exact P'; rewrite <- inject_Z_mult; [rewrite <- Zle_Qle|rewrite <- Zlt_Qlt]; nia.
  - unfold dec_number. cbn [coef dexp]. assert (N : 0 <= n) by (apply Z.div_pos; lia).
    rewrite Zpower_Qpower by exact N. rewrite Qpower_mult, <- Qmult_power. reflexivity.
Qed.
Example C54_decimal_nonvacuous :
  Evaluate example_lib None (EFunction FPower [EValue (vDec (Dec 25 (-1))); EValue (vDec (Dec 3 0))]) = Ok (vDec (Dec 625 (-2))).
Proof. vm_compute. reflexivity. Qed.

(** A fraction in the exponent is dropped, also where the exponent is the base:
    Power(0.25, 0.25) is 1, and 1 is no fourth root of 0.25. *)
Theorem C54_fraction_refuted : forall L row,
  Evaluate L row (EFunction FPower [EValue (vDec (Dec 25 (-2))); EValue (vDec (Dec 25 (-2)))]) = Ok (vDec (Dec 1 0)) /\
  ~ (dec_number (Dec 1 0) ^ 4 == dec_number (Dec 25 (-2)))%Q.
Proof. intros L row. split; [vm_compute; reflexivity|]. vm_compute. discriminate. Qed.

Print Assumptions C54_exponent_ignored_any_refuted.
Print Assumptions C54_decimal_total.
Print Assumptions C54_decimal_partial.
Print Assumptions C54_fraction_refuted.
