(** Lemmas about the records of measurements and format.Float on numbers. *)
From Coq Require Import Lia QArith.
From Verif Require Import Base GuidModel FormatModel FormatSpec FormatProofs NumModel GoTextModel GoTextSpec GoTextProofs GoTextProofs2 MeasTextModel RecordSpec.
Open Scope list_scope.
Open Scope Z_scope.

(** ** Records *)

Definition sound (s : mstate) : Prop :=
  (forall id r, load (ms_registry s) id = Some r -> exists m, nth_error (ms_records s) r = Some m) /\
  (forall t id r, ms_pc s t = Missed id r -> load (ms_registry s) id = None /\ (r < length (ms_records s))%nat) /\
  (forall t u id r q, ms_pc s t = Missed id r -> ms_pc s u = Missed id q -> t = u).
Lemma bytes_eqb_refl g : bytes_eqb g g = true. Proof. apply bytes_eqb_spec. reflexivity. Qed.
Lemma load_cons g r reg id : load ((g, r) :: reg) id = if bytes_eqb g id then Some r else load reg id.
Proof. reflexivity. Qed.
Lemma update_nth_length {A} (l : list A) f : forall n, length (update_nth l n f) = length l.
Proof. induction l as [|a l IH]; intros [|n]; cbn; auto. Qed.
Lemma update_nth_some {A} (l : list A) f : forall n r, (exists m, nth_error l r = Some m) -> exists m, nth_error (update_nth l n f) r = Some m.
Proof. intros n r (m & E). destruct (nth_error (update_nth l n f) r) eqn:N; [eauto|]. exfalso. apply nth_error_None in N. rewrite update_nth_length in N. assert (nth_error l r <> None) by congruence. apply nth_error_Some in H. lia. Qed.
Lemma start_sound : sound mstart.
Proof. split; [|split]; cbn; intros; discriminate. Qed.
Lemma step_sound s a s1 e1 : sound s -> alone s a -> mstep s a = Some (s1, e1) -> sound s1.
Proof.
  intros (H1 & H2 & H3) A E. destruct a as [t id|t|r f|]; cbn [mstep alone] in *.
  - destruct (ms_pc s t) as [|? ?] eqn:P; [|discriminate]. destruct (load (ms_registry s) id) as [r|] eqn:L; injection E as <- <-; [split; [exact H1|split; [exact H2|exact H3]]|].
    split; [|split]; cbn [ms_records ms_registry ms_pc].
    + intros i r I. destruct (H1 i r I) as (m & N). exists m. rewrite nth_error_app1; [exact N|]. apply nth_error_Some. congruence.
    + intros u i r I. rewrite app_length. cbn [length]. unfold set_pc in I. destruct (Nat.eqb_spec u t) as [->|NE].
      * injection I as <- <-. split; [exact L|lia].
      * destruct (H2 u i r I) as [X Y]. split; [exact X|lia].
    + intros u w i r q I J. unfold set_pc in I, J. destruct (Nat.eqb_spec u t) as [->|NE], (Nat.eqb_spec w t) as [->|NE'].
      * reflexivity.
      * injection I as <- <-. exfalso. exact (A w q J).
      * injection J as <- <-. exfalso. exact (A u r I).
      * exact (H3 u w i r q I J).
  - destruct (ms_pc s t) as [|id r] eqn:P; [discriminate|]. destruct (H2 t id r P) as [L LT]. rewrite L in E. injection E as <- <-.
    split; [|split]; cbn [ms_records ms_registry ms_pc].
    + intros i q. rewrite load_cons. destruct (bytes_eqb id i) eqn:B.
      * intros I. injection I as <-. destruct (nth_error (ms_records s) r) eqn:N; [eauto|]. apply nth_error_None in N. lia.
      * intros I. exact (H1 i q I).
    + intros u i q I. unfold set_pc in I. destruct (Nat.eqb_spec u t) as [->|NE]; [discriminate|]. destruct (H2 u i q I) as [X Y]. split; [|exact Y].
      rewrite load_cons. destruct (bytes_eqb id i) eqn:B; [|exact X]. apply bytes_eqb_spec in B. subst i. exfalso. apply NE. exact (H3 u t id q r I P).
    + intros u w i r' q I J. unfold set_pc in I, J. destruct (Nat.eqb_spec u t) as [->|NE], (Nat.eqb_spec w t) as [->|NE']; try discriminate. exact (H3 u w i r' q I J).
  - destruct (r <? length (ms_records s))%nat; [|discriminate]. injection E as <- <-. split; [|split]; cbn [ms_records ms_registry ms_pc].
    + intros i q I. apply update_nth_some. exact (H1 i q I).
    + intros u i q I. rewrite update_nth_length. exact (H2 u i q I).
    + exact H3.
  - injection E as <- <-. split; [|split]; cbn [ms_records ms_registry ms_pc].
    + intros i q I. discriminate.
    + intros u i q I. rewrite A in I. discriminate.
    + intros u w i r q I. rewrite A in I. discriminate.
Qed.
(** What is registered stays, and what is returned is registered. *)
Lemma step_registered s a s1 e1 id r : a <> MConnect -> mstep s a = Some (s1, e1) -> load (ms_registry s) id = Some r -> load (ms_registry s1) id = Some r.
Proof.
  intros NC E L. destruct a as [t i|t|q f|]; cbn [mstep] in E.
  - destruct (ms_pc s t) as [|? ?]; [|discriminate]. destruct (load (ms_registry s) i); injection E as <- <-; exact L.
  - destruct (ms_pc s t) as [|i q]; [discriminate|]. injection E as <- <-. cbn [ms_registry]. destruct (load (ms_registry s) i) eqn:LI; [exact L|].
    rewrite load_cons. destruct (bytes_eqb i id) eqn:B; [|exact L]. apply bytes_eqb_spec in B. subst. congruence.
  - destruct (_ <? _)%nat; [|discriminate]. injection E as <- <-. exact L.
  - contradiction.
Qed.
Lemma step_returned s a s1 e1 t id r : sound s -> mstep s a = Some (s1, e1) -> In (MReturned t id r) e1 -> load (ms_registry s1) id = Some r.
Proof.
  intros (_ & H2 & _) E I. destruct a as [u i|u|q f|]; cbn [mstep] in E.
  - destruct (ms_pc s u) as [|? ?]; [|discriminate]. destruct (load (ms_registry s) i) eqn:L; injection E as <- <-; [|destruct I]. destruct I as [I|[]]. injection I as -> -> ->. exact L.
  - destruct (ms_pc s u) as [|i q] eqn:P; [discriminate|]. destruct (H2 u i q P) as [L _]. rewrite L in E. injection E as <- <-. destruct I as [I|[]]. injection I as -> -> ->.
    cbn [ms_registry]. rewrite load_cons, bytes_eqb_refl. reflexivity.
  - destruct (_ <? _)%nat; [|discriminate]. injection E as <- <-. destruct I.
  - injection E as <- <-. destruct I.
Qed.
Lemma run_registered acts : forall s s' ev id r, ~ In MConnect acts -> mrun s acts = Some (s', ev) -> load (ms_registry s) id = Some r -> load (ms_registry s') id = Some r.
Proof.
  induction acts as [|a acts IH]; intros s s' ev id r NC E L; cbn [mrun] in E; [injection E as <- <-; exact L|].
  destruct (mstep s a) as [[s1 e1]|] eqn:M; [|discriminate]. destruct (mrun s1 acts) as [[s2 e2]|] eqn:R; [|discriminate]. injection E as <- <-.
  apply (IH s1 s2 e2); [intros I; apply NC; right; exact I|exact R|]. apply (step_registered s a s1 e1); [intros ->; apply NC; left; reflexivity|exact M|exact L].
Qed.
Lemma run_returned acts : forall s s' ev t id r, sound s -> all_alone s acts -> ~ In MConnect acts -> mrun s acts = Some (s', ev) -> In (MReturned t id r) ev -> load (ms_registry s') id = Some r.
Proof.
  induction acts as [|a acts IH]; intros s s' ev t id r SO AL NC E I; cbn [mrun all_alone] in *; [injection E as <- <-; destruct I|].
  destruct AL as [A AL]. destruct (mstep s a) as [[s1 e1]|] eqn:M; [|discriminate]. destruct (mrun s1 acts) as [[s2 e2]|] eqn:R; [|discriminate]. injection E as <- <-.
  assert (NC' : ~ In MConnect acts) by (intros X; apply NC; right; exact X). apply in_app_or in I as [I|I].
  - apply (run_registered acts s1 s2 e2); [exact NC'|exact R|]. exact (step_returned s a s1 e1 t id r SO M I).
  - exact (IH s1 s2 e2 t id r (step_sound s a s1 e1 SO A M) AL NC' R I).
Qed.
Lemma run_sound acts : forall s s' ev, sound s -> all_alone s acts -> mrun s acts = Some (s', ev) -> sound s'.
Proof.
  induction acts as [|a acts IH]; intros s s' ev SO AL E; cbn [mrun all_alone] in *; [injection E as <- <-; exact SO|].
  destruct AL as [A AL]. destruct (mstep s a) as [[s1 e1]|] eqn:M; [|discriminate]. destruct (mrun s1 acts) as [[s2 e2]|] eqn:R; [|discriminate]. injection E as <- <-.
  exact (IH s1 s2 e2 (step_sound s a s1 e1 SO A M) AL R).
Qed.

(** ** format.Float on numbers *)
Lemma grouping_minus_zero s : group_signed false [45; 48] s = Ok [45; 48].
Proof. reflexivity. Qed.
Lemma FloatWith_value f prec dec s : finite f -> ~ is_digit dec -> dec <> 45 -> ~ is_digit s -> s <> 45 ->
  exists n whole fraction g, nearest_even (magnitude f * inject_Z (10 ^ Z.of_nat prec)) n /\
    is_decimal_of (n / 10 ^ Z.of_nat prec) whole /\ length fraction = prec /\ Forall is_digit fraction /\ dec_value (whole ++ fraction) = n /\
    without s g = whole /\ grouped_by_three s g /\
    format_FloatWith f prec dec s = Ok (minus (negative f) ++ g ++ if (prec =? 0)%nat then [] else dec :: fraction).
Proof.
  intros F D1 D2 S1 S2. destruct (FormatFloat_ok f prec F) as (n & t & N & (w & fr & W & L & FR & V & ->) & _ & E).
  unfold format_FloatWith. rewrite E. destruct W as (WD & WV & WN & WZ).
  destruct f as [sg|sg| |sg m e]; try contradiction.
  - (* zero: not negative, but "-0" *)
    change (d_ltb (S754_zero sg) d_zero) with false. cbn [negative].
    assert (N0 : n = 0) by (apply (nearest_even_integer _ _ 0 N); cbn [magnitude]; rewrite Qmult_0_l; reflexivity). subst n. rewrite N0 in *.
    assert (W0 : w = [48]).
    { rewrite Z.div_0_l in WV by (apply Z.pow_nonzero; lia). destruct w as [|c w]; [contradiction|]. apply List.Forall_cons_iff in WD as [C WD]. unfold is_digit in C.
      rewrite dec_value_cons in WV. pose proof (dec_value_bound w WD) as B. assert (P : 0 < 10 ^ len w) by (apply Z.pow_pos_nonneg; unfold len; lia).
      assert (c = 48) by nia. subst c. destruct WZ as [WZ|WZ]; [destruct w; [reflexivity|discriminate]|exfalso; apply WZ; reflexivity]. }
    subst w. exists 0, [48], fr, [48]. split; [exact N|]. split; [repeat split; assumption|]. split; [exact L|]. split; [exact FR|]. split; [exact N0|].
    assert (SN : s <> 48) by (intros ->; apply S1; unfold is_digit; lia). assert (DN : dec <> 48) by (intros ->; apply D1; unfold is_digit; lia).
    split; [unfold without; cbn [filter]; destruct (Z.eqb_spec 48 s); [congruence|reflexivity]|].
    split; [split; [|cbn; congruence]; intros p P; cbn in P; assert (p = 0)%nat by lia; subst p; cbn; split; [congruence|discriminate]|].
    destruct sg; cbn [minus app].
    + unfold FloatWith. destruct prec as [|k]; cbn [Nat.eqb].
      * replace (if negb (dec =? 46) then replace_first [45; 48] 46 dec else [45; 48]) with [45; 48] by (destruct (negb _); reflexivity).
        rewrite split_on_none; [|cbn; intuition congruence]. cbn [rev app]. rewrite grouping_minus_zero. reflexivity.
      * assert (R : (if negb (dec =? 46) then replace_first (45 :: 48 :: 46 :: fr) 46 dec else 45 :: 48 :: 46 :: fr) = [45; 48] ++ dec :: fr).
        { destruct (Z.eqb_spec dec 46) as [->|X]; reflexivity. }
        rewrite R. rewrite split_on_one; [|cbn; intuition congruence|apply digits_not_sep; assumption]. cbn [rev app]. rewrite grouping_minus_zero. reflexivity.
    + destruct (FloatWith_ok false [48] fr dec s) as (g & G1 & G2 & G3 & G4); [repeat constructor; lia|discriminate|exact FR|assumption..|].
      assert (GE : g = [48]).
      { clear G3 G4. destruct G2 as [G2 G5]. destruct g as [|c g]; [discriminate|]. unfold without in G1. cbn [filter hd] in *. destruct (Z.eqb_spec c s) as [->|X]; [contradiction|]. cbn [negb] in G1.
        injection G1 as -> G1. destruct g as [|b g]; [reflexivity|exfalso].
        assert (LB : nth (length g) (rev (48 :: b :: g)) 0 = b).
        { cbn [rev]. rewrite <- app_assoc. rewrite app_nth2 by (rewrite rev_length; lia). rewrite rev_length, Nat.sub_diag. reflexivity. }
        destruct g as [|a [|a' g]].
        - cbn [filter] in G1. destruct (Z.eqb_spec b s) as [->|X']; [|discriminate]. specialize (G2 0%nat ltac:(cbn; lia)). cbn in G2. destruct G2 as [G2 _]. specialize (G2 eq_refl). discriminate.
        - cbn [filter] in G1. destruct (Z.eqb_spec a s) as [->|X'']; [|destruct (negb (b =? s)); discriminate]. specialize (G2 0%nat ltac:(cbn; lia)). cbn in G2. destruct G2 as [G2 _]. specialize (G2 eq_refl). discriminate.
        - cbn [filter] in G1. assert (FA : forall l, filter (fun c => negb (c =? s)) l = [] -> Forall (fun c => c = s) l).
          { clear. induction l as [|x l IH]; cbn [filter]; intros H; constructor; destruct (Z.eqb_spec x s); cbn [negb] in H; try discriminate; auto. }
          assert (FA' := FA (b :: a :: a' :: g)). cbn [filter] in FA'. specialize (FA' G1). assert (H : nth 0 (rev (48 :: b :: a :: a' :: g)) 0 = s).
          { rewrite rev_nth by (cbn; lia). change (nth (length (48 :: b :: a :: a' :: g) - 1) (48 :: b :: a :: a' :: g) 0) with (nth (length (a :: a' :: g) ) (b :: a :: a' :: g) 0).
            rewrite List.Forall_forall in FA'. apply FA'. apply nth_In. cbn. lia. }
          specialize (G2 0%nat ltac:(cbn; lia)). apply G2 in H. discriminate. }
      subst g. cbn [sign app] in G3, G4. destruct prec as [|k]; cbn [Nat.eqb]; [exact G4|exact G3].
  - assert (NG : d_ltb (S754_finite sg m e) d_zero = sg) by (destruct sg; reflexivity). rewrite NG. cbn [negative].
    destruct (FloatWith_ok sg w fr dec s WD WN FR D1 D2 S1 S2) as (g & G1 & G2 & G3 & G4).
    exists n, w, fr, g. split; [exact N|]. split; [repeat split; assumption|]. split; [exact L|]. split; [exact FR|]. split; [exact V|]. split; [exact G1|]. split; [exact G2|].
    destruct prec as [|k]; cbn [Nat.eqb].
    + rewrite !app_nil_r. exact G4.
    + exact G3.
Qed.
