(** C132: the signal type acronym tells the kind of a signal and, of phasors, whether it
    is a voltage or a current. *)
From Coq Require Import String Lia ZifyBool.
From Verif Require Import Base SignalModel SignalSpec SigTypeModel.
Open Scope Z_scope.

(** The documented acronyms: of the kinds of phasors for voltages and currents *)
Definition phasor_types : list (Z * (list Z * list Z)) :=
  [(0, (runes "VPHA", runes "IPHA")); (1, (runes "VPHM", runes "IPHM"))].
Definition other_types : list (Z * list Z) :=
  [(2, runes "FREQ"); (3, runes "DFDT"); (4, runes "FLAG"); (5, runes "DIGI"); (6, runes "ALOG"); (7, runes "CALC");
   (8, runes "STAT"); (9, runes "ALRM"); (10, runes "QUAL")].
(** 'V' and 'v' *)
Definition voltage (p : Z) : Prop := p = 86 \/ p = 118.

Lemma upper_V p : (upper_rune p =? 86) = true <-> voltage p.
Proof. unfold upper_rune, voltage. destruct ((97 <=? p) && (p <=? 122)) eqn:A; [lia|]. destruct (p =? 0x131) eqn:B; [lia|]. destruct (p =? 0x17F) eqn:C; lia. Qed.
Lemma kinds k : 0 <= k <= 10 -> In k [0; 1; 2; 3; 4; 5; 6; 7; 8; 9; 10].
Proof. intros H. cbn. lia. Qed.

Theorem C132_phasors : forall k v i p, In (k, (v, i)) phasor_types ->
  (voltage p -> SignalTypeAcronym k p = v) /\ (~ voltage p -> SignalTypeAcronym k p = i).
Proof.
  intros k v i p H. cbn in H. destruct H as [H|[H|[]]]; injection H as <- <- <-; unfold SignalTypeAcronym; cbn;
    destruct (upper_rune p =? 86) eqn:U; split; intros V; try reflexivity; try (apply upper_V in U; contradiction); apply upper_V in V; congruence.
Qed.
Theorem C132_others : forall k a p, In (k, a) other_types -> SignalTypeAcronym k p = a.
Proof. intros k a p H. cbn in H. decompose [or] H; try contradiction; match goal with E : (_, _) = _ |- _ => injection E as <- <- end; reflexivity. Qed.
Theorem C132_unknown : forall k p, ~ 0 <= k <= 10 -> SignalTypeAcronym k p = runes "NULL".
Proof.
  intros k p H. unfold SignalTypeAcronym, kAngle, kMagnitude, kFrequency, kDfDt, kStatus, kDigital, kAnalog, kCalculation, kStatistic, kAlarm, kQuality.
  repeat match goal with |- context [k =? ?c] => replace (k =? c) with false by lia end. reflexivity.
Qed.
(** Different kinds, and voltages and currents, have different acronyms. *)
Theorem C132_determines : forall k k' p p', 0 <= k <= 10 -> SignalTypeAcronym k p = SignalTypeAcronym k' p' ->
  k = k' /\ (k <= 1 -> (voltage p <-> voltage p')).
Proof.
  intros k k' p p' K E. assert (K' : 0 <= k' <= 10).
  { destruct (Z_le_dec 0 k') as [A|A]; [destruct (Z_le_dec k' 10) as [B|B]; [lia|]|]; exfalso; rewrite (C132_unknown k' p') in E by lia;
      apply kinds in K; cbn in K; decompose [or] K; try contradiction; subst k; unfold SignalTypeAcronym in E; cbn in E;
      try discriminate; destruct (upper_rune p =? 86); discriminate. }
  rewrite <- !upper_V. apply kinds in K, K'. cbn in K, K'.
  decompose [or] K; try contradiction; subst k; decompose [or] K'; try contradiction; subst k'; unfold SignalTypeAcronym in E; cbn in E;
    destruct (upper_rune p =? 86), (upper_rune p' =? 86); try discriminate; (split; [reflexivity|]; intros; tauto || lia).
Qed.
Print Assumptions C132_phasors.
Print Assumptions C132_others.
Print Assumptions C132_unknown.
Print Assumptions C132_determines.
Example C132_nonvacuous : SignalTypeAcronym 0 118 = runes "VPHA" /\ SignalTypeAcronym 0 73 = runes "IPHA" /\ SignalTypeAcronym 4 0 = runes "FLAG" /\ SignalTypeAcronym 11 86 = runes "NULL".
Proof. repeat split. Qed.
