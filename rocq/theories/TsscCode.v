(** Adaptive coding: invariant, optimality (C22). *)
From stdpp Require Import list.
From Coq Require Import Lia ZArith ZifyBool ZifyNat.
From Verif Require Import Base BaseProofs FormatModel FormatProofs TsscModel TsscSpec.
Open Scope Z_scope.
Ltac Zify.zify_post_hook ::= Z.div_mod_to_equations.

(** Frequency of a command in the statistics gathered so far. *)
Definition freq (l : list Z) (x : Z) : Z := if x <? 0 then 0 else nth (Z.to_nat x) l 0.
Definition zsum (l : list Z) : Z := fold_right Z.add 0 l.

Lemma freq_app l c x : freq (l ++ [c]) x = if x =? len l then c else freq l x.
Proof.
  unfold freq, len. destruct (x <? 0) eqn:E.
  - destruct (x =? Z.of_nat (length l)) eqn:F; [lia|reflexivity].
  - destruct (x =? Z.of_nat (length l)) eqn:F.
    + replace (Z.to_nat x) with (length l) by lia.
      rewrite app_nth2 by lia. rewrite Nat.sub_diag. reflexivity.
    + destruct (Nat.lt_ge_cases (Z.to_nat x) (length l)) as [H|H].
      * rewrite app_nth1 by lia. reflexivity.
      * rewrite app_nth2 by lia. rewrite (nth_overflow l) by lia.
        destruct (Z.to_nat x - length l)%nat as [|k] eqn:G; [lia|]. cbn. destruct k; reflexivity.
Qed.
Lemma freq_out l x : len l <= x -> freq l x = 0.
Proof. intros H. unfold freq. destruct (x <? 0); [reflexivity|]. apply nth_overflow. unfold len in H. lia. Qed.
Lemma zsum_app a b : zsum (a ++ b) = zsum a + zsum b.
Proof. induction a; cbn; [reflexivity|]. fold (zsum (a0 ++ b)) (zsum a0). lia. Qed.
Lemma zsum_nonneg l : Forall (fun x => 0 <= x) l -> 0 <= zsum l.
Proof. induction 1; cbn; [lia|]. fold (zsum l). lia. Qed.
Lemma freq_nonneg l x : Forall (fun y => 0 <= y) l -> 0 <= freq l x.
Proof.
  intros H. unfold freq. destruct (x <? 0); [lia|].
  destruct (Nat.lt_ge_cases (Z.to_nat x) (length l)) as [G|G].
  - rewrite Forall_nth in H. apply H; assumption.
  - rewrite nth_overflow by lia. lia.
Qed.

(** What the selection loop knows after the prefix [l]. *)
Record top3 (l : list Z) (a : adapt_acc) : Prop := {
  t_total : total a = zsum l;
  t_ord : count1 a >= count2 a /\ count2 a >= count3 a /\ count3 a >= 0;
  t_1 : freq l (code1 a) = count1 a;
  t_2 : freq l (code2 a) = count2 a \/ (count2 a = 0 /\ code2 a = code1 a);
  t_3 : freq l (code3 a) = count3 a \/ (count3 a = 0 /\ (code3 a = code1 a \/ code3 a = code2 a));
  t_m1 : forall x, freq l x <= count1 a;
  t_m2 : forall x, x <> code1 a -> freq l x <= count2 a;
  t_m3 : forall x, x <> code1 a -> x <> code2 a -> freq l x <= count3 a;
  t_r1 : is_code (code1 a); t_r2 : is_code (code2 a); t_r3 : is_code (code3 a);
  t_ne : count2 a > 0 -> code1 a <> code2 a;
  t_ne3 : count3 a > 0 -> code1 a <> code3 a /\ code2 a <> code3 a }.

Lemma top3_0 : top3 [] acc0.
Proof.
  assert (F : forall x, freq [] x = 0). { intros x. unfold freq. destruct (x <? 0); [reflexivity|]. destruct (Z.to_nat x); reflexivity. }
  split; unfold is_code; cbn -[freq]; try rewrite F; try lia; auto; intros; try rewrite F; lia.
Qed.

Lemma freq_total l x : Forall (fun y => 0 <= y) l -> freq l x <= zsum l.
Proof.
  intros H. induction H as [|y l Hy Hl IH] using Forall_ind.
  - unfold freq. destruct (x <? 0); [cbn; lia|]. destruct (Z.to_nat x); cbn; lia.
  - unfold freq in *. destruct (x <? 0); cbn; fold (zsum l); pose proof (zsum_nonneg l Hl).
    + lia.
    + destruct (Z.to_nat x) eqn:E; cbn; [lia|].
      destruct (Nat.lt_ge_cases n (length l)) as [G|G].
      * assert (nth n l 0 <= zsum l); [|lia].
        clear -Hl G. revert n G. induction Hl as [|z l Hz Hl IH]; intros n G; cbn in *; [lia|].
        fold (zsum l). pose proof (zsum_nonneg l Hl). destruct n; [lia|]. specialize (IH n ltac:(lia)). lia.
      * rewrite nth_overflow by lia. lia.
Qed.

Lemma i32_id x : -1000000 <= x <= 1000000 -> i32 x = x.
Proof. intros. apply i32_small. unfold is_i32. lia. Qed.

Lemma adapt_step_top3 l a c :
  top3 l a -> 0 <= c -> Forall (fun y => 0 <= y) l -> zsum l + c <= 1000 -> len l < 32 ->
  top3 (l ++ [c]) (adapt_step a (len l) c).
Proof.
  intros [Ht Ho H1 H2 H3 M1 M2 M3 R1 R2 R3 N1 N2] Hc Hl Hs Hlen.
  pose proof (zsum_nonneg l Hl) as Hz. pose proof (len_nonneg l) as Hln.
  assert (U : u8 (len l) = len l) by (unfold u8; rewrite Z.mod_small; lia).
  assert (T : i32 (total a + c) = zsum (l ++ [c])).
  { rewrite zsum_app. cbn. rewrite i32_id by lia. lia. }
  pose proof (freq_out l (len l) ltac:(lia)) as F0.
  unfold adapt_step. rewrite T, U.
  destruct (count3 a <? c) eqn:E3.
  - destruct (count1 a <? c) eqn:E1; [|destruct (count2 a <? c) eqn:E2].
    + split; cbn; rewrite ?freq_app; unfold is_code in *; try lia; try reflexivity.
      * rewrite Z.eqb_refl. reflexivity.
      * destruct (code1 a =? len l) eqn:E; [right|left; lia].
        assert (code1 a = len l) as Q by lia. rewrite Q in *. lia.
      * destruct (code2 a =? len l) eqn:E.
        -- assert (code2 a = len l) as Q by lia. rewrite Q in *. right. lia.
        -- destruct H2 as [H2|[H2 H2']]; [left; exact H2|right; lia].
      * intros x. rewrite freq_app. specialize (M1 x). destruct (x =? len l); lia.
      * intros x Hx. rewrite freq_app. specialize (M1 x). destruct (x =? len l) eqn:E; lia.
      * intros x Hx Hx'. rewrite freq_app. specialize (M2 x). destruct (x =? len l) eqn:E; lia.
      * intros Hp Q. rewrite <- Q in *. lia.
      * intros Hp. split; [|auto]. intros Q. rewrite <- Q in *. lia.
    + split; cbn; rewrite ?freq_app; unfold is_code in *; try lia; try reflexivity.
      * destruct (code1 a =? len l) eqn:E; [|assumption]. assert (code1 a = len l) as Q by lia. rewrite Q in *. lia.
      * rewrite Z.eqb_refl. left; reflexivity.
      * destruct (code2 a =? len l) eqn:E.
        -- assert (code2 a = len l) as Q by lia. rewrite Q in *. right. lia.
        -- destruct H2 as [H2|[H2 H2']]; [left; exact H2|right; lia].
      * intros x. rewrite freq_app. specialize (M1 x). destruct (x =? len l); lia.
      * intros x Hx. rewrite freq_app. specialize (M2 x). destruct (x =? len l) eqn:E; lia.
      * intros x Hx Hx'. rewrite freq_app. specialize (M2 x). destruct (x =? len l) eqn:E; lia.
      * intros Hp Q. rewrite Q in *. lia.
      * intros Hp. split; [apply N1; lia|]. intros Q. rewrite <- Q in *. lia.
    + split; cbn; rewrite ?freq_app; unfold is_code in *; try lia; try reflexivity.
      * destruct (code1 a =? len l) eqn:E; [|assumption]. assert (code1 a = len l) as Q by lia. rewrite Q in *. lia.
      * destruct (code2 a =? len l) eqn:E; [|assumption]. assert (code2 a = len l) as Q by lia. rewrite Q in *. lia.
      * rewrite Z.eqb_refl. left; reflexivity.
      * intros x. rewrite freq_app. specialize (M1 x). destruct (x =? len l); lia.
      * intros x Hx. rewrite freq_app. specialize (M2 x). destruct (x =? len l) eqn:E; lia.
      * intros x Hx Hx'. rewrite freq_app. specialize (M3 x). destruct (x =? len l) eqn:E; lia.
      * intros Hp. split; intros Q; rewrite Q in *; lia.
  - split; cbn; rewrite ?freq_app; unfold is_code in *; try lia; try assumption.
    + destruct (code1 a =? len l) eqn:E; [|assumption]. assert (code1 a = len l) as Q by lia. rewrite Q in *. lia.
    + destruct (code2 a =? len l) eqn:E; [|assumption]. assert (code2 a = len l) as Q by lia. rewrite Q in *. lia.
    + destruct (code3 a =? len l) eqn:E; [|assumption]. assert (code3 a = len l) as Q by lia. rewrite Q in *. lia.
    + intros x. rewrite freq_app. specialize (M1 x). destruct (x =? len l); lia.
    + intros x Hx. rewrite freq_app. specialize (M2 x). destruct (x =? len l) eqn:E; lia.
    + intros x Hx Hx'. rewrite freq_app. specialize (M3 x). destruct (x =? len l) eqn:E; lia.
Qed.

Lemma adapt_loop_top3 rest l a :
  top3 l a -> Forall (fun y => 0 <= y) l -> Forall (fun y => 0 <= y) rest ->
  zsum l + zsum rest <= 1000 -> len l + len rest <= 32 ->
  top3 (l ++ rest) (adapt_loop rest (len l) a).
Proof.
  revert l a. induction rest as [|c rest IH]; intros l a HT Hl Hr Hs Hlen.
  - rewrite app_nil_r. exact HT.
  - inversion Hr as [|? ? Hc Hr']; subst. cbn [adapt_loop].
    replace (len l + 1) with (len (l ++ [c])) by (rewrite len_app; reflexivity).
    replace (l ++ c :: rest) with ((l ++ [c]) ++ rest) by (rewrite <- app_assoc; reflexivity).
    cbn in Hs. fold (zsum rest) in Hs. pose proof (zsum_nonneg rest Hr'). pose proof (len_nonneg rest).
    assert (len (c :: rest) = 1 + len rest) as L by (unfold len; cbn; lia).
    apply IH.
    + apply adapt_step_top3; [assumption..|lia|lia].
    + apply Forall_app; split; [assumption|]. constructor; [assumption|constructor].
    + assumption.
    + rewrite zsum_app. cbn. lia.
    + rewrite len_app. change (len [c]) with 1. lia.
Qed.

(** Cost of a list of short codes for given statistics. *)
Definition stat_cost (short : list Z) (l : list Z) : Z :=
  match short with
  | [] => 5 * zsum l
  | [x] => 6 * zsum l - 5 * freq l x
  | [x; y] => 7 * zsum l - 6 * freq l x - 5 * (if y =? x then 0 else freq l y)
  | x :: y :: z :: _ =>
      8 * zsum l - 7 * freq l x - 6 * (if y =? x then 0 else freq l y)
      - 5 * (if (z =? x) || (z =? y) then 0 else freq l z)
  end.

Definition codes_ok (c : coder) : Prop :=
  (mode c = 1 \/ mode c = 2 \/ mode c = 3 \/ mode c = 4) /\
  is_code (mode21 c) /\ is_code (mode31 c) /\ is_code (mode301 c) /\
  is_code (mode41 c) /\ is_code (mode401 c) /\ is_code (mode4001 c).

Lemma adaptCommands_best c :
  length (commandStats c) = 32%nat -> Forall (fun y => 0 <= y) (commandStats c) -> zsum (commandStats c) <= 1000 ->
  codes_ok c ->
  exists c', adaptCommands c = Ok c' /\ codes_ok c' /\ commandStats c' = repeat 0 32 /\
    commandsSentSinceLastChange c' = 0 /\ startupMode c' = startupMode c /\
    forall short, (length short <= 3)%nat -> stat_cost (shorts c') (commandStats c) <= stat_cost short (commandStats c).
Proof.
  intros Hlen Hnn Hs Hc.
  assert (HT : top3 (commandStats c) (adapt_loop (commandStats c) 0 acc0)).
  { pose proof (adapt_loop_top3 (commandStats c) [] acc0 top3_0) as H. cbn [app] in H.
    change (len (@nil Z)) with 0 in H. apply H; auto; unfold len; rewrite Hlen; cbn; lia. }
  set (a := adapt_loop (commandStats c) 0 acc0) in *.
  set (l := commandStats c) in *.
  destruct HT as [Ht Ho H1 H2 H3 M1 M2 M3 R1 R2 R3 N1 N2].
  assert (B : count1 a <= zsum l) by (rewrite <- H1; apply freq_total; assumption).
  pose proof (zsum_nonneg l Hnn) as Hz.
  assert (P2 : forall x y, x <> y -> freq l x + freq l y <= count1 a + count2 a).
  { intros x y N. destruct (Z.eq_dec x (code1 a)) as [E|E].
    - pose proof (M1 x). pose proof (M2 y ltac:(congruence)). lia.
    - pose proof (M1 y). pose proof (M2 x E). lia. }
  assert (P3 : forall x y z, x <> y -> x <> z -> y <> z ->
    freq l x + freq l y + freq l z <= count1 a + count2 a + count3 a).
  { intros x y z N12 N13 N23.
    destruct (Z.eq_dec z (code1 a)) as [E|E]; [|destruct (Z.eq_dec z (code2 a)) as [E'|E']].
    - destruct (Z.eq_dec x (code2 a)) as [F|F].
      + pose proof (P2 x z N13). pose proof (M3 y ltac:(congruence) ltac:(congruence)). lia.
      + pose proof (P2 y z N23). pose proof (M3 x ltac:(congruence) F). lia.
    - destruct (Z.eq_dec x (code1 a)) as [F|F].
      + pose proof (P2 x z N13). pose proof (M3 y ltac:(congruence) ltac:(congruence)). lia.
      + pose proof (P2 y z N23). pose proof (M3 x F ltac:(congruence)). lia.
    - pose proof (P2 x y N12). pose proof (M3 z E E'). lia. }
  (* lower bounds of any other coding *)
  assert (LB : forall short, (length short <= 3)%nat ->
    stat_cost short l >= match short with
      | [] => 5 * zsum l
      | [_] => 6 * zsum l - 5 * count1 a
      | [_; _] => 7 * zsum l - 6 * count1 a - 5 * count2 a
      | _ => 8 * zsum l - 7 * count1 a - 6 * count2 a - 5 * count3 a end).
  { intros short Hl3. destruct short as [|x [|y [|z [|w s]]]]; cbn [stat_cost]; [lia| | | |cbn in Hl3; lia].
    - specialize (M1 x). lia.
    - pose proof (M1 x) as X1. pose proof (freq_nonneg l y Hnn) as Y0. pose proof (P2 x y) as XY.
      destruct (y =? x) eqn:E; [clear -X1 Ho Y0|apply Z.eqb_neq in E; specialize (XY ltac:(congruence)); clear -X1 Ho XY]; lia.
    - pose proof (M1 x) as X1. pose proof (P2 x y) as XY. pose proof (P2 x z) as XZ. pose proof (P3 x y z) as XYZ.
      destruct (Z.eqb_spec y x) as [E|E].
      + subst y. rewrite orb_diag. destruct (Z.eqb_spec z x) as [E'|E'].
        * clear -X1 Ho. lia.
        * specialize (XZ ltac:(congruence)). clear -X1 Ho XZ. lia.
      + specialize (XY ltac:(congruence)). destruct (Z.eqb_spec z x) as [E'|E']; [clear -X1 Ho XY; cbn [orb]; lia|].
        destruct (Z.eqb_spec z y) as [E''|E'']; cbn [orb]; [clear -X1 Ho XY; lia|].
        specialize (XYZ ltac:(congruence) ltac:(congruence) ltac:(congruence)). clear -X1 Ho XY XYZ. lia. }
  (* the sizes computed are the costs *)
  assert (C2 : stat_cost [code1 a] l = 6 * zsum l - 5 * count1 a) by (cbn [stat_cost]; lia).
  assert (C3 : stat_cost [code1 a; code2 a] l = 7 * zsum l - 6 * count1 a - 5 * count2 a).
  { cbn [stat_cost]. destruct (code2 a =? code1 a) eqn:E; [|lia].
    assert (count2 a <= 0) by (destruct (Z_le_gt_dec (count2 a) 0); [assumption|]; specialize (N1 ltac:(lia)); lia). lia. }
  assert (C4 : stat_cost [code1 a; code2 a; code3 a] l = 8 * zsum l - 7 * count1 a - 6 * count2 a - 5 * count3 a).
  { cbn [stat_cost].
    assert (E2 : (if code2 a =? code1 a then 0 else freq l (code2 a)) = count2 a).
    { destruct (code2 a =? code1 a) eqn:E; [|lia].
      destruct (Z_le_gt_dec (count2 a) 0); [lia|]; specialize (N1 ltac:(lia)); lia. }
    assert (E3 : (if (code3 a =? code1 a) || (code3 a =? code2 a) then 0 else freq l (code3 a)) = count3 a).
    { destruct ((code3 a =? code1 a) || (code3 a =? code2 a)) eqn:E; [|lia].
      destruct (Z_le_gt_dec (count3 a) 0); [lia|]; specialize (N2 ltac:(lia)); lia. }
    lia. }
  destruct Hc as (Hm & G1 & G2 & G3 & G4 & G5 & G6).
  assert (ZZ : map (fun _ : Z => 0) l = repeat 0 32).
  { rewrite <- Hlen. clear. induction l; cbn; [reflexivity|]. rewrite IHl. reflexivity. }
  assert (S3 : forall short, (length short <= 3)%nat ->
     stat_cost short l >= 5 * zsum l \/ stat_cost short l >= 6 * zsum l - 5 * count1 a \/
     stat_cost short l >= 7 * zsum l - 6 * count1 a - 5 * count2 a \/
     stat_cost short l >= 8 * zsum l - 7 * count1 a - 6 * count2 a - 5 * count3 a).
  { intros short Hsh. pose proof (LB short Hsh) as Q. destruct short as [|? [|? [|? ?]]]; lia. }
  assert (Q1 : i32 (zsum l * 5) = 5 * zsum l) by (rewrite i32_id; lia).
  assert (Q2 : i32 (count1 a + i32 (i32 (zsum l - count1 a) * 6)) = 6 * zsum l - 5 * count1 a).
  { clear -Ho B Hz Hs. rewrite (i32_id (zsum l - count1 a)) by lia. rewrite (i32_id (_ * 6)) by lia. rewrite i32_id; lia. }
  assert (B2 : count1 a + count2 a <= zsum l + zsum l) by lia.
  assert (Q3 : i32 (i32 (count1 a + i32 (count2 a * 2)) + i32 (i32 (i32 (zsum l - count1 a) - count2 a) * 7))
    = 7 * zsum l - 6 * count1 a - 5 * count2 a).
  { clear -Ho B Hz Hs. rewrite (i32_id (zsum l - count1 a)) by lia. rewrite (i32_id (_ - count2 a)) by lia.
    rewrite (i32_id (_ * 7)) by lia. rewrite (i32_id (_ * 2)) by lia. rewrite (i32_id (count1 a + _)) by lia. rewrite i32_id; lia. }
  assert (Q4 : i32 (i32 (i32 (count1 a + i32 (count2 a * 2)) + i32 (count3 a * 3))
                        + i32 (i32 (i32 (i32 (zsum l - count1 a) - count2 a) - count3 a) * 8))
    = 8 * zsum l - 7 * count1 a - 6 * count2 a - 5 * count3 a).
  { clear -Ho B Hz Hs. rewrite (i32_id (zsum l - count1 a)) by lia. rewrite (i32_id (_ - count2 a)) by lia.
    rewrite (i32_id (_ - count3 a)) by lia. rewrite (i32_id (_ * 8)) by lia. rewrite (i32_id (_ * 2)) by lia.
    rewrite (i32_id (_ * 3)) by lia. rewrite (i32_id (count1 a + _)) by lia. rewrite (i32_id (_ + count2 a * 2 + _)) by lia.
    rewrite i32_id; lia. }
  unfold adaptCommands. cbv zeta. fold l a. rewrite ZZ, !Ht, Q1, Q2, Q3, Q4.
  clear Q1 Q2 Q3 Q4 LB P2 P3 M1 M2 M3.
  set (k1 := 5 * zsum l) in *. set (k2 := 6 * zsum l - 5 * count1 a) in *.
  set (k3 := 7 * zsum l - 6 * count1 a - 5 * count2 a) in *.
  set (k4 := 8 * zsum l - 7 * count1 a - 6 * count2 a - 5 * count3 a) in *.
  assert (K1 : stat_cost [] l = k1) by reflexivity.
  assert (BK : k1 <= 2147483647 /\ k2 <= 2147483647 /\ k3 <= 2147483647 /\ k4 <= 2147483647).
  { subst k1 k2 k3 k4. clear -Ho B Hz Hs. lia. }
  set (mn := min32 (min32 (min32 (min32 2147483647 k1) k2) k3) k4).
  assert (MN : mn <= k1 /\ mn <= k2 /\ mn <= k3 /\ mn <= k4 /\ (mn = k1 \/ mn = k2 \/ mn = k3 \/ mn = k4)).
  { assert (MM : forall p q, min32 p q = Z.min p q). { intros p q. unfold min32. clear. destruct (p <? q) eqn:E; destruct (q <? p) eqn:F; lia. }
    subst mn. rewrite !MM. clear -BK. lia. }
  clearbody mn k1 k2 k3 k4. clear BK Ht Ho B Hz Hs B2.
  destruct (Z.eqb_spec mn k1) as [E1|E1]; [|destruct (Z.eqb_spec mn k2) as [E2|E2];
    [|destruct (Z.eqb_spec mn k3) as [E3|E3]; [|destruct (Z.eqb_spec mn k4) as [E4|E4]; [|exfalso; clear -MN E1 E2 E3 E4; lia]]]];
  (eexists; split; [reflexivity|]; unfold codes_ok, shorts; cbn [mode mode21 mode31 mode301 mode41 mode401 mode4001
     commandStats commandsSentSinceLastChange startupMode Z.eqb Pos.eqb];
   split; [tauto|]; split; [reflexivity|]; split; [reflexivity|]; split; [reflexivity|];
   intros short Hsh; specialize (S3 short Hsh); rewrite ?K1, ?C2, ?C3, ?C4; first [clear -MN S3 E4; lia | clear -MN S3 E3; lia | clear -MN S3 E2; lia | clear -MN S3 E1; lia]).
Qed.
