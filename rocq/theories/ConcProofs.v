From Coq Require Import Lia ZifyBool ZifyNat.
From Verif Require Import Base BaseProofs ConcModel ConcSpec.

(** ** Lists of goroutines *)

Definition total {A} (f : A -> nat) (l : list A) : nat := list_sum (map f l).

Lemma total_app {A} (f : A -> nat) a b : total f (a ++ b) = (total f a + total f b)%nat.
Proof. unfold total. rewrite map_app, list_sum_app. reflexivity. Qed.
Lemma total_cons {A} (f : A -> nat) a l : total f (a :: l) = (f a + total f l)%nat.
Proof. reflexivity. Qed.

Lemma total_set {A} (f : A -> nat) l i y x :
  nth_error l i = Some y -> (total f (set_nth l i x) + f y = total f l + f x)%nat.
Proof.
  revert i. induction l as [|z l IH]; intros [|i] H; try discriminate H.
  - injection H as ->. cbn [set_nth]. rewrite !total_cons. lia.
  - cbn [set_nth]. rewrite !total_cons. specialize (IH i H). lia.
Qed.

Lemma total_pos {A} (f : A -> nat) l : (0 < total f l)%nat ->
  exists i g, nth_error l i = Some g /\ (0 < f g)%nat.
Proof.
  induction l as [|z l IH]; intros H; [cbn in H; lia|].
  rewrite total_cons in H. destruct (Nat.eq_dec (f z) 0).
  - destruct IH as (i & g & E & P); [lia|]. exists (S i), g. auto.
  - exists 0%nat, z. split; [reflexivity|lia].
Qed.

Lemma total_ge {A} (f : A -> nat) l i g : nth_error l i = Some g -> (f g <= total f l)%nat.
Proof.
  revert i. induction l as [|z l IH]; intros [|i] H; try discriminate H; rewrite total_cons.
  - injection H as ->. lia.
  - specialize (IH i H). lia.
Qed.

Lemma total_le {A} (f g : A -> nat) l : (forall a, f a <= g a)%nat -> (total f l <= total g l)%nat.
Proof. intros H. induction l as [|z l IH]; [cbn; lia|]. rewrite !total_cons. specialize (H z). lia. Qed.

Lemma total_eq {A} (f g : A -> nat) l : (forall a, In a l -> f a = g a) -> total f l = total g l.
Proof.
  induction l as [|z l IH]; intros H; [reflexivity|]. rewrite !total_cons.
  rewrite IH by (intros; apply H; right; assumption). rewrite (H z) by (left; reflexivity). reflexivity.
Qed.

Lemma filter_total {A} (p : A -> bool) l :
  length (filter p l) = total (fun a => if p a then 1 else 0)%nat l.
Proof. induction l as [|z l IH]; [reflexivity|]. rewrite total_cons. cbn [filter]. destruct (p z); cbn [length]; lia. Qed.

Lemma set_nth_length {A} (l : list A) i x : length (set_nth l i x) = length l.
Proof. revert i. induction l; intros [|i]; cbn; auto. Qed.

Lemma set_nth_same {A} (l : list A) i x y : nth_error l i = Some y -> nth_error (set_nth l i x) i = Some x.
Proof. revert i. induction l; intros [|i] H; try discriminate H; cbn in *; eauto. Qed.
Lemma set_nth_other {A} (l : list A) i j x : i <> j -> nth_error (set_nth l i x) j = nth_error l j.
Proof. revert i j. induction l; intros [|i] [|j] H; cbn; auto; try congruence. Qed.

Lemma Forall_set {A} (P : A -> Prop) l i x : Forall P l -> P x -> Forall P (set_nth l i x).
Proof. intros H Px. revert i. induction H; intros [|i]; cbn; constructor; auto. Qed.

Lemma nth_error_Forall {A} (P : A -> Prop) l i x : Forall P l -> nth_error l i = Some x -> P x.
Proof. intros H E. rewrite Forall_forall in H. apply H. eapply nth_error_In, E. Qed.

(** ** Schedules *)

Lemma run_app {S} (step : S -> nat -> option S) s a b :
  run step s (a ++ b) = run step (run step s a) b.
Proof. revert s. induction a; intros; cbn; auto. Qed.

Lemma run_inv {S} (step : S -> nat -> option S) (P : S -> Prop) :
  (forall s i s', P s -> step s i = Some s' -> P s') ->
  forall sched s, P s -> P (run step s sched).
Proof.
  intros H. induction sched as [|a rest IH]; intros s Hs; cbn [run]; [exact Hs|].
  apply IH. destruct (step s a) eqn:E; eauto.
Qed.

Lemma reach_end {S} (step : S -> nat -> option S) (P fin : S -> Prop) (mu : S -> nat) :
  (forall s i s', P s -> step s i = Some s' -> P s') ->
  (forall s i s', P s -> step s i = Some s' -> (mu s' < mu s)%nat) ->
  (forall s, P s -> fin s \/ exists i, step s i <> None) ->
  forall s, P s -> exists sched, fin (run step s sched).
Proof.
  intros HP Hmu Hprog s. remember (mu s) as n eqn:E. revert s E.
  induction n as [n IH] using (well_founded_induction Wf_nat.lt_wf). intros s -> Hs.
  destruct (Hprog s Hs) as [F|[i Hi]]; [exists []; exact F|].
  destruct (step s i) as [s'|] eqn:Es; [|contradiction].
  destruct (IH (mu s') (Hmu _ _ _ Hs Es) s' eq_refl (HP _ _ _ Hs Es)) as [sched F].
  exists (i :: sched). cbn [run]. rewrite Es. exact F.
Qed.

(** ** Thread *)

Definition holder (g : tgor) : nat :=
  match g with
  | Caller CSpawn _ | Caller CJoinUnlock _ | Runner R0 | Runner R1 | Runner R2 => 1
  | _ => 0
  end.
Definition is_runner (g : tgor) : nat := match g with Runner _ => 1 | _ => 0 end.
Definition has_begun (g : tgor) : nat :=
  match g with Runner R0 => 0 | Runner _ => 1 | _ => 0 end.
Definition has_ended (g : tgor) : nat :=
  match g with Runner (R2 | R3 | R4) => 1 | _ => 0 end.

Definition tinv (s : tstate) : Prop :=
  total holder (gors s) = (if held s then 1 else 0)%nat /\
  started s = total is_runner (gors s) /\
  began s = total has_begun (gors s) /\
  ended s = total has_ended (gors s).

Lemma total_callers f calls : (forall c, f (Caller CIdle c) = 0%nat) ->
  total f (map (Caller CIdle) calls) = 0%nat.
Proof. intros H. induction calls as [|c calls IH]; [reflexivity|]. cbn [map]. rewrite total_cons, H, IH. reflexivity. Qed.

Lemma tinv_init calls : tinv (tinit calls).
Proof.
  unfold tinv, tinit, started, began, ended; cbn [gors held log filter length].
  rewrite !total_callers by reflexivity. auto.
Qed.

Lemma tinv_step s i s' : tinv s -> tstep s i = Some s' -> tinv s'.
Proof.
  intros (I1 & I2 & I3 & I4) E. destruct s as [rn hd gs lg]. cbn [tstep gors held log] in *.
  unfold started, began, ended in I2, I3, I4. cbn [log] in I2, I3, I4.
  destruct (nth_error gs i) as [g|] eqn:G; [|discriminate E].
  assert (TS : forall f x, (total f (set_nth gs i x) + f g = total f gs + f x)%nat)
    by (intros; apply total_set; assumption).
  destruct g as [pc todo|pc].
  - destruct pc.
    + destruct todo as [|[| |] r]; try discriminate E; try (destruct rn);
        injection E as <-; unfold tinv, started, began, ended; cbn [gors held log filter length];
        match goal with |- context [set_nth gs i ?x] =>
          pose proof (TS holder x); pose proof (TS is_runner x); pose proof (TS has_begun x); pose proof (TS has_ended x) end;
        cbn [holder is_runner has_begun has_ended] in *; lia.
    + destruct rn; injection E as <-; unfold tinv, started, began, ended; cbn [gors held log filter length];
        match goal with |- context [set_nth gs i ?x] =>
          pose proof (TS holder x); pose proof (TS is_runner x); pose proof (TS has_begun x); pose proof (TS has_ended x) end;
        cbn [holder is_runner has_begun has_ended] in *; lia.
    + destruct hd; [discriminate E|]. injection E as <-; unfold tinv, started, began, ended; cbn [gors held log filter length];
        match goal with |- context [set_nth gs i ?x] =>
          pose proof (TS holder x); pose proof (TS is_runner x); pose proof (TS has_begun x); pose proof (TS has_ended x) end;
        cbn [holder is_runner has_begun has_ended] in *; lia.
    + injection E as <-; unfold tinv, started, began, ended; cbn [gors held log filter length].
      rewrite !total_app, !total_cons. cbn [holder is_runner has_begun has_ended].
      pose proof (TS holder (Caller CIdle todo)); pose proof (TS is_runner (Caller CIdle todo));
      pose proof (TS has_begun (Caller CIdle todo)); pose proof (TS has_ended (Caller CIdle todo)).
      cbn [holder is_runner has_begun has_ended] in *. unfold total at 2 4 6 8. cbn [map list_sum fold_right]. lia.
    + destruct hd; [discriminate E|]. injection E as <-; unfold tinv, started, began, ended; cbn [gors held log filter length];
        match goal with |- context [set_nth gs i ?x] =>
          pose proof (TS holder x); pose proof (TS is_runner x); pose proof (TS has_begun x); pose proof (TS has_ended x) end;
        cbn [holder is_runner has_begun has_ended] in *; lia.
    + assert (hd = true) as -> by (pose proof (total_ge holder gs i _ G) as L; cbn [holder] in L; destruct hd; [reflexivity|lia]).
      injection E as <-; unfold tinv, started, began, ended; cbn [gors held log filter length];
        match goal with |- context [set_nth gs i ?x] =>
          pose proof (TS holder x); pose proof (TS is_runner x); pose proof (TS has_begun x); pose proof (TS has_ended x) end;
        cbn [holder is_runner has_begun has_ended] in *; lia.
    + discriminate E.
  - destruct pc; try discriminate E;
      try (assert (hd = true) as -> by (pose proof (total_ge holder gs i _ G) as L; cbn [holder] in L; destruct hd; [reflexivity|lia]));
      injection E as <-; unfold tinv, started, began, ended; cbn [gors held log filter length];
      match goal with |- context [set_nth gs i ?x] =>
        pose proof (TS holder x); pose proof (TS is_runner x); pose proof (TS has_begun x); pose proof (TS has_ended x) end;
      cbn [holder is_runner has_begun has_ended] in *; lia.
Qed.

Lemma tinv_reach calls sched : tinv (run tstep (tinit calls) sched).
Proof. apply run_inv; [apply tinv_step|apply tinv_init]. Qed.

Lemma one_execution calls sched :
  (executions_in_progress (run tstep (tinit calls) sched) <= 1)%nat.
Proof.
  destruct (tinv_reach calls sched) as (H & _). unfold executions_in_progress.
  rewrite filter_total.
  pose proof (total_le (fun a => if executing a then 1 else 0)%nat holder
    (gors (run tstep (tinit calls) sched))) as L.
  destruct (held _); eapply Nat.le_trans; try (apply L; intros [[] ?|[]]; cbn; lia); lia.
Qed.

Lemma ended_le_began_le_started calls sched :
  let s := run tstep (tinit calls) sched in
  (ended s <= began s <= started s)%nat.
Proof.
  cbv zeta. destruct (tinv_reach calls sched) as (_ & -> & -> & ->).
  split; apply total_le; intros [? ?|[]]; cbn; lia.
Qed.

Lemma finished_all_ran calls sched :
  let s := run tstep (tinit calls) sched in
  all_finished s -> ended s = started s.
Proof.
  cbv zeta. destruct (tinv_reach calls sched) as (_ & -> & _ & ->). intros F.
  unfold all_finished in F. rewrite forallb_forall in F. apply total_eq.
  intros g Hg. specialize (F g Hg). destruct g as [[] []|[]]; cbn in *; auto; discriminate.
Qed.

Lemma join_waited calls sched i todo :
  let s := run tstep (tinit calls) sched in
  nth_error (gors s) i = Some (Caller CJoinUnlock todo) -> ended s = started s.
Proof.
  cbv zeta. destruct (tinv_reach calls sched) as (H & -> & _ & ->).
  set (gs := gors _) in *. intros G. symmetry.
  pose proof (total_set holder gs i _ (Caller CIdle []) G) as T. cbn [holder] in T.
  assert (Z0 : total holder (set_nth gs i (Caller CIdle [])) = 0%nat) by (destruct (held _); lia).
  assert (E1 : forall f : tgor -> nat, f (Caller CJoinUnlock todo) = 0%nat -> f (Caller CIdle []) = 0%nat ->
    total f gs = total f (set_nth gs i (Caller CIdle []))).
  { intros f A B. pose proof (total_set f gs i _ (Caller CIdle []) G). lia. }
  rewrite (E1 is_runner), (E1 has_ended) by reflexivity.
  apply total_eq. intros g Hg.
  assert (holder g = 0%nat).
  { apply In_nth_error in Hg. destruct Hg as [j Hj]. pose proof (total_ge holder _ j g Hj). lia. }
  destruct g as [? ?|[]]; cbn in *; auto; discriminate.
Qed.

Definition tmu_g (g : tgor) : nat :=
  match g with
  | Caller pc todo =>
      12 * length todo +
      match pc with CIdle => 0 | CTry => 11 | CLock => 10 | CSpawn => 9 | CJoinLock => 2 | CJoinUnlock => 1 | CPanicked => 0 end
  | Runner pc => match pc with R0 => 4 | R1 => 3 | R2 => 2 | R3 => 1 | R4 => 0 end
  end.
Definition tmu (s : tstate) : nat := total tmu_g (gors s).

Lemma tmu_step s i s' : tstep s i = Some s' -> (tmu s' < tmu s)%nat.
Proof.
  intros E. destruct s as [rn hd gs lg]. unfold tmu. cbn [tstep gors] in *.
  destruct (nth_error gs i) as [g|] eqn:G; [|discriminate E].
  assert (TS : forall x, (total tmu_g (set_nth gs i x) + tmu_g g = total tmu_g gs + tmu_g x)%nat)
    by (intros; apply total_set; assumption).
  destruct g as [pc todo|pc].
  - destruct pc; try discriminate E.
    + destruct todo as [|[| |] r]; try discriminate E; destruct rn; injection E as <-; cbn [gors];
        match goal with |- context [set_nth gs i ?x] => specialize (TS x) end;
        cbn [tmu_g length] in TS; lia.
    + destruct rn; injection E as <-; cbn [gors];
        match goal with |- context [set_nth gs i ?x] => specialize (TS x) end;
        cbn [tmu_g length] in TS; lia.
    + destruct hd; [discriminate E|]; injection E as <-; cbn [gors];
        match goal with |- context [set_nth gs i ?x] => specialize (TS x) end;
        cbn [tmu_g length] in TS; lia.
    + injection E as <-; cbn [gors]. rewrite total_app.
      specialize (TS (Caller CIdle todo)). cbn [tmu_g length] in TS.
      change (total tmu_g [Runner R0]) with 4%nat. lia.
    + destruct hd; [discriminate E|]; injection E as <-; cbn [gors];
        match goal with |- context [set_nth gs i ?x] => specialize (TS x) end;
        cbn [tmu_g length] in TS; lia.
    + injection E as <-; cbn [gors];
        match goal with |- context [set_nth gs i ?x] => specialize (TS x) end;
        cbn [tmu_g length] in TS; lia.
  - destruct pc; try discriminate E; injection E as <-; cbn [gors];
        match goal with |- context [set_nth gs i ?x] => specialize (TS x) end;
        cbn [tmu_g length] in TS; lia.
Qed.

Lemma tprogress s : tinv s -> all_finished s \/ exists i, tstep s i <> None.
Proof.
  intros (H & _). destruct s as [rn hd gs lg]. unfold all_finished. cbn [gors held] in *.
  destruct hd.
  - right. destruct (total_pos holder gs) as (i & g & G & P); [lia|]. exists i. cbn [tstep]. rewrite G.
    destruct g as [[] ?|[]]; cbn in P; try lia; discriminate.
  - destruct (forallb tfinished gs) eqn:F; [left; reflexivity|right].
    assert (exists i g, nth_error gs i = Some g /\ tfinished g = false) as (i & g & G & Fg).
    { clear H. induction gs as [|z gs IH]; [discriminate F|]. cbn [forallb] in F.
      destruct (tfinished z) eqn:Ez.
      - destruct (IH F) as (i & g & G & Fg). exists (S i), g. auto.
      - exists 0%nat, z. auto. }
    exists i. cbn [tstep]. rewrite G. destruct g as [[] todo|[]]; cbn in Fg; try discriminate.
    destruct todo as [|[| |] r]; [discriminate Fg| | |]; try discriminate. destruct rn; discriminate.
Qed.

Lemma thread_completes calls sched :
  exists more, all_finished (run tstep (tinit calls) (sched ++ more)).
Proof.
  destruct (reach_end tstep tinv all_finished tmu) with (s := run tstep (tinit calls) sched)
    as [more F].
  - apply tinv_step.
  - intros s i s' _. apply tmu_step.
  - apply tprogress.
  - apply tinv_reach.
  - exists more. rewrite run_app. exact F.
Qed.

(** ** Callback lock *)

Definition rdc (g : lgor) : nat := match ops g with RUnlock :: _ => 1 | _ => 0 end.
Definition wrc (g : lgor) : nat :=
  match ops g with
  | Unlock :: _ => 1
  | Lock :: _ => if waiting g then 1 else 0
  | _ => 0
  end.
Definition lgor_ok (g : lgor) : Prop :=
  match ops g with
  | RUnlock :: r | Unlock :: r => waiting g = false /\ flat r
  | Lock :: _ => flat (ops g)
  | _ => waiting g = false /\ flat (ops g)
  end.
Definition linv (s : lstate) : Prop :=
  Forall lgor_ok (lgors s) /\ readers s = total rdc (lgors s) /\
  (if writer s then 1 else 0)%nat = total wrc (lgors s).

Lemma flat_rlock r : flat (RLock :: r) -> exists r', r = RUnlock :: r' /\ flat r'.
Proof. intros H. inversion H. eauto. Qed.
Lemma flat_lock r : flat (Lock :: r) -> exists r', r = Unlock :: r' /\ flat r'.
Proof. intros H. inversion H. eauto. Qed.

Lemma flat_gor r : flat r -> lgor_ok (LGor false r) /\ rdc (LGor false r) = 0%nat /\ wrc (LGor false r) = 0%nat.
Proof. intros H. inversion H; subst; unfold lgor_ok, rdc, wrc; cbn; auto. Qed.

Lemma linv_init progs : Forall flat progs -> linv (linit progs).
Proof.
  intros H. unfold linv, linit. cbn [lgors readers writer].
  assert (Forall lgor_ok (map (LGor false) progs) /\ total rdc (map (LGor false) progs) = 0%nat /\
          total wrc (map (LGor false) progs) = 0%nat) as (A & B & C).
  { induction H as [|p l Hp Hl (A & B & C)]; [cbn; auto|]. cbn [map]. rewrite !total_cons.
    destruct (flat_gor p Hp) as (A' & B' & C'). rewrite B, C, B', C'. repeat split; auto. }
  auto.
Qed.

Lemma linv_step s i s' : linv s -> lstep s i = Some s' -> linv s'.
Proof.
  intros (I1 & I2 & I3) E. destruct s as [rd wr gs]. cbn [lstep lgors readers writer] in *.
  destruct (nth_error gs i) as [[wt is]|] eqn:G; [|discriminate E].
  assert (TR : forall x, (total rdc (set_nth gs i x) + rdc (LGor wt is) = total rdc gs + rdc x)%nat)
    by (intros; apply total_set; assumption).
  assert (TW : forall x, (total wrc (set_nth gs i x) + wrc (LGor wt is) = total wrc gs + wrc x)%nat)
    by (intros; apply total_set; assumption).
  pose proof (nth_error_Forall _ _ _ _ I1 G) as OK.
  pose proof (total_ge wrc gs i _ G) as GW. pose proof (total_ge rdc gs i _ G) as GR.
  destruct is as [|[| | |] r]; [discriminate E| | | |].
  - destruct wr; [discriminate E|]. injection E as <-. cbn in OK. destruct OK as [-> F].
    apply flat_rlock in F. destruct F as (r' & -> & F).
    unfold linv; cbn [lgors readers writer]. specialize (TR (LGor false (RUnlock :: r'))).
    specialize (TW (LGor false (RUnlock :: r'))). cbn in TR, TW.
    split; [apply Forall_set; [assumption|cbn; auto]|lia].
  - injection E as <-. cbn in OK. destruct OK as [-> F]. destruct (flat_gor _ F) as (A & B & C).
    specialize (TR (LGor false r)). specialize (TW (LGor false r)). rewrite B in TR. rewrite C in TW.
    cbn in TR, TW, GR. unfold linv; cbn [lgors readers writer].
    split; [apply Forall_set; assumption|lia].
  - cbn in OK. destruct wt.
    + destruct rd; [|discriminate E]. injection E as <-. apply flat_lock in OK. destruct OK as (r' & -> & F).
      specialize (TR (LGor false (Unlock :: r'))). specialize (TW (LGor false (Unlock :: r'))). cbn in TR, TW.
      unfold linv; cbn [lgors readers writer]. split; [apply Forall_set; [assumption|cbn; auto]|lia].
    + destruct wr; [discriminate E|]. injection E as <-.
      specialize (TR (LGor true (Lock :: r))). specialize (TW (LGor true (Lock :: r))). cbn in TR, TW.
      unfold linv; cbn [lgors readers writer]. split; [apply Forall_set; [assumption|exact OK]|lia].
  - injection E as <-. cbn in OK. destruct OK as [-> F]. destruct (flat_gor _ F) as (A & B & C).
    specialize (TR (LGor false r)). specialize (TW (LGor false r)). rewrite B in TR. rewrite C in TW.
    cbn in TR, TW, GW. unfold linv; cbn [lgors readers writer].
    split; [apply Forall_set; assumption|]. destruct wr; lia.
Qed.

Definition lmu_g (g : lgor) : nat := 2 * length (ops g) + (if waiting g then 0 else 1).
Definition lmu (s : lstate) : nat := total lmu_g (lgors s).

Lemma lmu_step s i s' : lstep s i = Some s' -> (lmu s' < lmu s)%nat.
Proof.
  intros E. destruct s as [rd wr gs]. unfold lmu. cbn [lstep lgors] in *.
  destruct (nth_error gs i) as [[wt is]|] eqn:G; [|discriminate E].
  assert (TS : forall x, (total lmu_g (set_nth gs i x) + lmu_g (LGor wt is) = total lmu_g gs + lmu_g x)%nat)
    by (intros; apply total_set; assumption).
  destruct is as [|[| | |] r]; [discriminate E| | | |].
  - destruct wr; [discriminate E|]. injection E as <-. cbn [lgors].
    specialize (TS (LGor false r)). unfold lmu_g in TS at 2 4; cbn [ops waiting length] in TS. destruct wt; lia.
  - injection E as <-. cbn [lgors]. specialize (TS (LGor false r)). unfold lmu_g in TS at 2 4; cbn [ops waiting length] in TS. destruct wt; lia.
  - destruct wt.
    + destruct rd; [|discriminate E]. injection E as <-. cbn [lgors]. specialize (TS (LGor false r)).
      unfold lmu_g in TS at 2 4; cbn [ops waiting length] in TS. lia.
    + destruct wr; [discriminate E|]. injection E as <-. cbn [lgors].
      specialize (TS (LGor true (Lock :: r))). unfold lmu_g in TS at 2 4; cbn [ops waiting length] in TS. lia.
  - injection E as <-. cbn [lgors]. specialize (TS (LGor false r)). unfold lmu_g in TS at 2 4; cbn [ops waiting length] in TS. destruct wt; lia.
Qed.

Lemma lprogress s : linv s -> all_done s \/ exists i, lstep s i <> None.
Proof.
  intros (I1 & I2 & I3). destruct s as [rd wr gs]. unfold all_done. cbn [lgors readers writer] in *.
  destruct wr.
  - right. destruct (total_pos wrc gs) as (i & g & G & P); [lia|].
    destruct g as [wt is]. unfold wrc in P. cbn [ops waiting] in P.
    destruct is as [|[| | |] r]; try lia.
    + destruct wt; [|lia]. destruct rd as [|rd].
      * exists i. cbn [lstep]. rewrite G. discriminate.
      * destruct (total_pos rdc gs) as (j & g' & G' & P'); [lia|]. exists j. cbn [lstep]. rewrite G'.
        destruct g' as [wt' is']. unfold rdc in P'. cbn [ops] in P'.
        destruct is' as [|[| | |] r']; try lia. discriminate.
    + exists i. cbn [lstep]. rewrite G. discriminate.
  - assert (W0 : forall i g, nth_error gs i = Some g -> wrc g = 0%nat).
    { intros i g G. pose proof (total_ge wrc gs i g G). lia. }
    clear I3. assert (D : Forall (fun g => ops g = []) gs \/ exists i g, nth_error gs i = Some g /\ ops g <> []).
    { clear I1 I2 W0. induction gs as [|z gs IH]; [left; constructor|].
      destruct (ops z) eqn:Z0.
      - destruct IH as [IH|(i & g & G & N)]; [left; constructor; assumption|].
        right. exists (S i), g. auto.
      - right. exists 0%nat, z. rewrite Z0. split; [reflexivity|discriminate]. }
    destruct D as [D|(i & g & G & N)]; [left; exact D|right].
    exists i. cbn [lstep]. rewrite G. specialize (W0 i g G). destruct g as [wt is].
    cbn [ops] in N. unfold wrc in W0. cbn [ops waiting] in W0.
    destruct is as [|[| | |] r]; try contradiction; try discriminate. destruct wt; discriminate.
Qed.

Lemma flat_completes progs sched : Forall flat progs ->
  exists more, all_done (run lstep (linit progs) (sched ++ more)).
Proof.
  intros H. destruct (reach_end lstep linv all_done lmu) with (s := run lstep (linit progs) sched) as [more F].
  - apply linv_step.
  - intros s i s' _. apply lmu_step.
  - apply lprogress.
  - apply run_inv; [apply linv_step|apply linv_init, H].
  - exists more. rewrite run_app. exact F.
Qed.

Lemma lstuck s : (forall i, lstep s i = None) -> forall sched, run lstep s sched = s.
Proof. intros H. induction sched as [|i r IH]; [reflexivity|]. cbn [run]. rewrite H. exact IH. Qed.

(** The deadlock: callback inside, setter announced, report wants in. *)
Definition dead : lstate :=
  LState 1 true [LGor false (report ++ [RUnlock]); LGor true setter].
Lemma dead_stuck i : lstep dead i = None.
Proof. destruct i as [|[|[|i]]]; reflexivity. Qed.

(** A callback that itself registers a callback on the same lock. *)
Definition dead2 : lstate := LState 1 true [LGor true (setter ++ [RUnlock])].
Lemma dead2_stuck i : lstep dead2 i = None.
Proof. destruct i as [|[|i]]; reflexivity. Qed.

Lemma callback_setter_never sched : ~ all_done (run lstep (linit [callback setter]) sched).
Proof.
  assert (P : forall sched, In (run lstep (linit [callback setter]) sched)
     [linit [callback setter]; LState 1 false [LGor false (setter ++ [RUnlock])]; dead2]).
  { intros sc. apply (run_inv lstep (fun s => In s [linit [callback setter]; LState 1 false [LGor false (setter ++ [RUnlock])]; dead2])).
    - intros s i s' [<-|[<-|[<-|[]]]] E; (destruct i as [|[|i]]; [|discriminate E..]);
        try discriminate E; injection E as <-; cbn; auto.
    - cbn; auto. }
  specialize (P sched). destruct P as [<-|[<-|[<-|[]]]]; intros D; inversion D; discriminate.
Qed.

(** ** Measurement reader *)

Lemma next_item_concat {A} (b : list (list A)) m b' : next_item b = Some (m, b') ->
  concat b = m :: concat b'.
Proof.
  revert m b'. induction b as [|[|a c] b IH]; intros m b' H; cbn in H; [discriminate| |].
  - cbn. auto.
  - injection H as <- <-. reflexivity.
Qed.
Lemma next_item_none {A} (b : list (list A)) : next_item b = None -> concat b = [].
Proof. induction b as [|[|a c] b IH]; cbn; intros H; auto. discriminate. Qed.

Lemma from_app {A} i (a b : list (nat * reply A)) : from i (a ++ b) = from i a ++ from i b.
Proof.
  induction a as [|[c [j m| |]] a IH]; cbn; [reflexivity| |exact IH|exact IH].
  destruct (Nat.eqb i j); cbn; rewrite IH; reflexivity.
Qed.

Lemma mrun_inv {A} (P : mstate A -> Prop) :
  (forall s a s', P s -> mstep s a = Some s' -> P s') ->
  forall sched s, P s -> P (mrun s sched).
Proof.
  intros H. induction sched as [|a rest IH]; intros s Hs; cbn [mrun]; [exact Hs|].
  apply IH. destruct (mstep s a) eqn:E; eauto.
Qed.

Definition minv {A} (bs : list (list (list A))) (s : mstate A) : Prop :=
  length (batches s) = length bs /\
  forall i b b0, nth_error (batches s) i = Some b -> nth_error bs i = Some b0 ->
    from i (results s) ++ concat b = concat b0.

Lemma minv_step {A} (bs : list (list (list A))) s a s' : minv bs s -> mstep s a = Some s' -> minv bs s'.
Proof.
  intros (L & H) E. destruct s as [b rs en cl cr]. cbn [mstep batches results] in *.
  destruct cr; [discriminate E|]. destruct a as [c i|c|c| |i].
  - destruct cl.
    + injection E as <-. split; cbn [batches results]; [assumption|].
      intros j x y X Y. rewrite from_app. cbn [from]. rewrite app_nil_r. eauto.
    + destruct (nth_error b i) as [bi|] eqn:Bi; [|discriminate E].
      destruct (next_item bi) as [[m bi']|] eqn:N; [|discriminate E]. injection E as <-.
      split; cbn [batches results]; [rewrite set_nth_length; assumption|].
      intros j x y X Y. rewrite from_app. cbn [from].
      destruct (Nat.eqb_spec j i) as [->|NE].
      * rewrite (set_nth_same _ _ _ _ Bi) in X. injection X as <-.
        specialize (H i bi y Bi Y). rewrite (next_item_concat _ _ _ N) in H.
        rewrite <- app_assoc. exact H.
      * rewrite set_nth_other in X by congruence. rewrite app_nil_r. eauto.
  - injection E as <-. split; assumption.
  - destruct (existsb _ en); [|discriminate E]. injection E as <-. split; cbn [batches results]; [assumption|].
    intros j x y X Y. rewrite from_app. cbn [from]. rewrite app_nil_r. eauto.
  - destruct cl; injection E as <-; split; assumption.
  - destruct (nth_error b i) as [bi|]; [|discriminate E]. destruct (next_item bi); [|discriminate E].
    destruct cl; [|discriminate E]. injection E as <-. split; assumption.
Qed.

Lemma reader_order {A} (bs : list (list (list A))) sched i b b0 :
  let s := mrun (minit bs) sched in
  nth_error (batches s) i = Some b -> nth_error bs i = Some b0 ->
  from i (results s) ++ concat b = concat b0.
Proof.
  cbv zeta. intros X Y.
  assert (I : minv bs (mrun (minit bs) sched)).
  { apply mrun_inv; [apply minv_step|]. split; [reflexivity|]. cbn. intros j x y X' Y'.
    rewrite X' in Y'. injection Y' as ->. reflexivity. }
  destruct I as [_ I]. eauto.
Qed.

(** Without Close there is never a nil measurement and never a crash. *)
Lemma reader_no_close {A} (bs : list (list (list A))) sched :
  existsb is_close sched = false ->
  let s := mrun (minit bs) sched in
  closed s = false /\ crashed s = false /\ forall c, ~ In (c, Nil) (results s).
Proof.
  cbv zeta. assert (G : forall (s : mstate A), (closed s = false /\ crashed s = false /\ forall c, ~ In (c, Nil) (results s)) ->
    existsb is_close sched = false ->
    closed (mrun s sched) = false /\ crashed (mrun s sched) = false /\ forall c, ~ In (c, Nil) (results (mrun s sched))).
  { induction sched as [|a r IH]; intros s Hs N; [exact Hs|]. cbn [existsb] in N.
    apply orb_false_iff in N. destruct N as [N1 N2]. cbn [mrun]. apply IH; [|exact N2].
    destruct s as [b rs en cl cr]. cbn in Hs. destruct Hs as (-> & -> & R). cbn [mstep].
    destruct a as [c i|c|c| |i]; [| | |discriminate N1|].
    - destruct (nth_error b i) as [bi|]; [|cbn; auto]. destruct (next_item bi) as [[m b']|]; cbn; auto.
      repeat split; auto. intros d. rewrite in_app_iff. intros [X|[X|[]]]; [eapply R, X|discriminate].
    - cbn. auto.
    - destruct (existsb _ en); cbn; auto. repeat split; auto. intros d. rewrite in_app_iff. intros [X|[X|[]]]; [eapply R, X|discriminate].
    - destruct (nth_error b i) as [bi|]; [|cbn; auto]. destruct (next_item bi); cbn; auto. }
  apply G. cbn. auto.
Qed.

(** A call says that it completed only if its context is done. *)
Lemma reader_completed {A} (bs : list (list (list A))) sched c :
  In (c, Completed) (results (mrun (minit bs) sched)) -> In (End c) sched.
Proof.
  assert (G : forall sched (s : mstate A), (forall c, In (c, Completed) (results s) -> In c (over s)) ->
    In (c, Completed) (results (mrun s sched)) -> In c (over s) \/ In (End c) sched).
  { clear. induction sched as [|a r IH]; intros s H I; [left; exact (H _ I)|]. cbn [mrun] in I.
    destruct (mstep s a) as [s'|] eqn:E; [|destruct (IH s H I); [left; assumption|right; right; assumption]].
    assert (H' : forall d, In (d, Completed) (results s') -> In d (over s')).
    { destruct s as [b rs en cl cr]. cbn [mstep results over] in *. destruct cr; [discriminate E|]. destruct a as [d i|d|d| |i].
      - destruct cl.
        + injection E as <-. cbn. intros x X. apply in_app_iff in X as [X|[X|[]]]; [auto|discriminate].
        + destruct (nth_error b i) as [bi|]; [|discriminate E]. destruct (next_item bi) as [[m bi']|]; [|discriminate E]. injection E as <-.
          cbn. intros x X. apply in_app_iff in X as [X|[X|[]]]; [auto|discriminate].
      - injection E as <-. cbn. auto.
      - destruct (existsb _ en) eqn:X; [|discriminate E]. injection E as <-. cbn. intros x Y. apply in_app_iff in Y as [Y|[Y|[]]]; [auto|].
        injection Y as <-. apply existsb_exists in X as (y & X1 & X2). apply Nat.eqb_eq in X2. subst. exact X1.
      - destruct cl; injection E as <-; cbn; auto.
      - destruct (nth_error b i) as [bi|]; [|discriminate E]. destruct (next_item bi); [|discriminate E]. destruct cl; [|discriminate E]. injection E as <-. cbn. auto. }
    destruct (IH s' H' I) as [J|J]; [|right; right; exact J]. destruct a as [d i|d|d| |i]; destruct s as [b rs en cl cr]; cbn [mstep over] in *; destruct cr; try discriminate E.
    - left. destruct cl; [injection E as <-; exact J|]. destruct (nth_error b i) as [bi|]; [|discriminate E]. destruct (next_item bi) as [[m bi']|]; [|discriminate E]. injection E as <-. exact J.
    - injection E as <-. destruct J as [<-|J]; [right; left; reflexivity|left; exact J].
    - left. destruct (existsb _ en); [|discriminate E]. injection E as <-. exact J.
    - left. destruct cl; injection E as <-; exact J.
    - left. destruct (nth_error b i) as [bi|]; [|discriminate E]. destruct (next_item bi); [|discriminate E]. destruct cl; [|discriminate E]. injection E as <-. exact J. }
  intros I. destruct (G sched (minit bs)) as [[]|J]; [intros d []|exact I|exact J].
Qed.

(** Enough calls of NextMeasurement receive everything a goroutine delivers. *)
Lemma reader_all {A} (b : list (list A)) cs : (length (concat b) <= length cs)%nat ->
  map snd (results (mrun (minit [b]) (map (fun c => Next c 0) cs))) = map (Got 0) (concat b).
Proof.
  assert (G : forall cs (b : list (list A)) rs, (length (concat b) <= length cs)%nat ->
    map snd (results (mrun (MState [b] rs [] false false) (map (fun c => Next c 0) cs)))
    = map snd rs ++ map (Got 0) (concat b)).
  { clear. induction cs as [|c cs IH]; intros b rs L.
    - destruct (concat b); [|cbn in L; lia]. cbn. rewrite app_nil_r. reflexivity.
    - cbn [map mrun mstep nth_error]. destruct (next_item b) as [[m b']|] eqn:N.
      + cbn [set_nth]. rewrite (next_item_concat _ _ _ N) in *. cbn [length] in L.
        rewrite IH by lia. cbn [map]. rewrite map_app, <- app_assoc. reflexivity.
      + rewrite (next_item_none _ N) in *. rewrite IH by (rewrite (next_item_none _ N); cbn; lia).
        rewrite (next_item_none _ N). reflexivity. }
  intros L. unfold minit. rewrite G by assumption. reflexivity.
Qed.
(** As long as there is something to deliver and the reader is open, a call can receive. *)
Lemma reader_meets {A} (s : mstate A) c i b : closed s = false -> crashed s = false -> nth_error (batches s) i = Some b -> concat b <> [] ->
  exists m s', mstep s (Next c i) = Some s' /\ results s' = results s ++ [(c, Got i m)] /\ hd_error (concat b) = Some m.
Proof.
  destruct s as [bs rs en cl cr]. cbn [closed crashed batches results]. intros -> -> N C. cbn [mstep]. rewrite N.
  destruct (next_item b) as [[m b']|] eqn:X; [|apply next_item_none in X; contradiction]. exists m. eexists. split; [reflexivity|]. split; [reflexivity|].
  rewrite (next_item_concat _ _ _ X). reflexivity.
Qed.

(** ** Metadata lookup *)

Definition missed (sid : Z) (g : kgor) : Prop :=
  match g with KMissed s _ => s = sid | KIdle _ => False end.

Lemma lookup_after_stored sid v s :
  assoc (registry s) sid = Some v -> Forall (fun g => ~ missed sid g) (kgors s) ->
  forall sched, exists new, found (run kstep s sched) = new ++ found s /\
    Forall (fun p => fst p = sid -> snd p = v) new.
Proof.
  intros R M sched.
  pose (P := fun s' => assoc (registry s') sid = Some v /\ Forall (fun g => ~ missed sid g) (kgors s') /\
    exists new, found s' = new ++ found s /\ Forall (fun p => fst p = sid -> snd p = v) new).
  assert (G : P (run kstep s sched)).
  { apply run_inv; [|repeat split; auto; exists []; auto].
    clear R M. intros s1 i s2 (R & M & new & F & N) E. destruct s1 as [reg n gs fd].
    cbn [kstep registry kgors found] in *. destruct (nth_error gs i) as [g|] eqn:Gi; [|discriminate E].
    pose proof (nth_error_Forall _ _ _ _ M Gi) as Mg. destruct g as [[|sid' r]|sid' r]; [discriminate E| |].
    - destruct (assoc reg sid') as [v'|] eqn:A; injection E as <-; unfold P; cbn [registry kgors found].
      + repeat split; [assumption|apply Forall_set; [assumption|cbn; auto]|].
        exists ((sid', v') :: new). split; [rewrite F; reflexivity|]. constructor; [|assumption].
        cbn. intros ->. congruence.
      + repeat split; [assumption| |exists new; auto].
        apply Forall_set; [assumption|]. cbn. intros ->. congruence.
    - injection E as <-. unfold P; cbn [registry kgors found]. cbn in Mg.
      repeat split.
      + destruct (assoc reg sid'); [assumption|]. cbn [assoc].
        destruct (Z.eqb_spec sid sid'); [congruence|assumption].
      + apply Forall_set; [assumption|cbn; auto].
      + exists ((sid', n) :: new). split; [rewrite F; reflexivity|]. constructor; [|assumption].
        cbn. intros ->. contradiction. }
  destruct G as (_ & _ & G). exact G.
Qed.

(** One goroutine: every lookup returns the registered record. *)
Lemma lookup_sequential lookups sched :
  forall p, In p (found (run kstep (kinit [lookups]) sched)) ->
  assoc (registry (run kstep (kinit [lookups]) sched)) (fst p) = Some (snd p).
Proof.
  pose (P := fun s => (exists g, kgors s = [g] /\ match g with KMissed sid _ => assoc (registry s) sid = None | _ => True end) /\
    forall p, In p (found s) -> assoc (registry s) (fst p) = Some (snd p)).
  assert (G : P (run kstep (kinit [lookups]) sched)).
  { apply run_inv; [|split; [exists (KIdle lookups); cbn; auto|cbn; contradiction]].
    intros s i s' ((g & Gs & Hg) & F) E. destruct s as [reg n gs fd].
    cbn [kgors registry found] in *. subst gs. cbn [kstep] in E.
    destruct i as [|[|i]]; cbn [nth_error] in E; try discriminate E.
    destruct g as [[|sid r]|sid r]; [discriminate E| |].
    - destruct (assoc reg sid) eqn:A; injection E as <-; split; cbn [kgors registry found set_nth].
      + exists (KIdle r). auto.
      + intros p [<-|I]; [exact A|auto].
      + exists (KMissed sid r). auto.
      + exact F.
    - rewrite Hg in E. injection E as <-. split; cbn [kgors registry found set_nth]; [exists (KIdle r); auto|].
      intros p [<-|I]; cbn [assoc fst snd].
      + rewrite Z.eqb_refl. reflexivity.
      + specialize (F p I). destruct (Z.eqb_spec (fst p) sid) as [e|]; [|exact F].
        rewrite e in F. congruence. }
  apply G.
Qed.

(** The flag is set throughout the first execution. *)
Definition flagged (g : tgor) : nat := match g with Runner (R1 | R2 | R3) => 1 | _ => 0 end.
Definition first_inv (s : tstate) : Prop :=
  (total has_begun (gors s) <= 1)%nat -> (total flagged (gors s) = 1)%nat -> running s = true.
Lemma first_step s i s' : first_inv s -> tstep s i = Some s' -> first_inv s'.
Proof.
  unfold first_inv. intros I E. destruct s as [rn hd gs lg]. cbn [tstep gors running] in *.
  destruct (nth_error gs i) as [g|] eqn:G; [|discriminate E].
  assert (TS : forall f x, (total f (set_nth gs i x) + f g = total f gs + f x)%nat)
    by (intros; apply total_set; assumption).
  assert (LE : forall l, (total flagged l <= total has_begun l)%nat)
    by (intros l; apply total_le; intros [[]|[]]; cbn; lia).
  destruct g as [pc todo|pc].
  - destruct pc.
    + destruct todo as [|[| |] r]; try discriminate E; try (destruct rn);
        injection E as <-; cbn [gors running]; auto;
        match goal with |- context [set_nth gs i ?x] => pose proof (TS has_begun x); pose proof (TS flagged x) end;
        cbn [has_begun flagged] in *; intros; apply I; lia.
    + destruct rn; injection E as <-; cbn [gors running]; auto;
        match goal with |- context [set_nth gs i ?x] => pose proof (TS has_begun x); pose proof (TS flagged x) end;
        cbn [has_begun flagged] in *; intros; apply I; lia.
    + destruct hd; [discriminate E|]; injection E as <-; cbn [gors running]; auto;
        match goal with |- context [set_nth gs i ?x] => pose proof (TS has_begun x); pose proof (TS flagged x) end;
        cbn [has_begun flagged] in *; intros; apply I; lia.
    + injection E as <-; cbn [gors running]. rewrite !total_app, !total_cons.
      pose proof (TS has_begun (Caller CIdle todo)); pose proof (TS flagged (Caller CIdle todo)).
      cbn [has_begun flagged] in *. change (total has_begun []) with 0%nat. change (total flagged []) with 0%nat. intros; apply I; lia.
    + destruct hd; [discriminate E|]; injection E as <-; cbn [gors running]; auto;
        match goal with |- context [set_nth gs i ?x] => pose proof (TS has_begun x); pose proof (TS flagged x) end;
        cbn [has_begun flagged] in *; intros; apply I; lia.
    + injection E as <-; cbn [gors running]; auto;
        match goal with |- context [set_nth gs i ?x] => pose proof (TS has_begun x); pose proof (TS flagged x) end;
        cbn [has_begun flagged] in *; intros; apply I; lia.
    + discriminate E.
  - pose proof (LE gs).
    destruct pc; try discriminate E; injection E as <-; cbn [gors running]; auto;
      match goal with |- context [set_nth gs i ?x] => pose proof (TS has_begun x); pose proof (TS flagged x) end;
      cbn [has_begun flagged] in *; intros; try (apply I; lia). exfalso. lia.
Qed.
Lemma first_running calls sched : let s := run tstep (tinit calls) sched in
  began s = 1%nat -> executions_in_progress s = 1%nat -> running s = true.
Proof.
  cbv zeta. intros B X. destruct (tinv_reach calls sched) as (_ & _ & I3 & _).
  assert (F : first_inv (run tstep (tinit calls) sched)).
  { apply run_inv; [apply first_step|]. unfold first_inv, tinit. cbn [gors]. rewrite !total_callers by reflexivity. lia. }
  apply F; [lia|].
  assert (LE : (total flagged (gors (run tstep (tinit calls) sched)) <= total has_begun (gors (run tstep (tinit calls) sched)))%nat)
    by (apply total_le; intros [[]|[]]; cbn; lia).
  assert (GE : (executions_in_progress (run tstep (tinit calls) sched) <= total flagged (gors (run tstep (tinit calls) sched)))%nat).
  { unfold executions_in_progress. generalize (gors (run tstep (tinit calls) sched)). clear. intros l.
    induction l as [|g l IH]; [cbn; lia|]. rewrite total_cons. destruct g as [[]|[]]; cbn [filter executing length flagged]; lia. }
  lia.
Qed.
Lemma start_panics calls sched i r : let s := run tstep (tinit calls) sched in
  began s = 1%nat -> executions_in_progress s = 1%nat ->
  (nth_error (gors s) i = Some (Caller CIdle (Start :: r)) ->
   nth_error (gors (run tstep s [i])) i = Some (Caller CPanicked r)) /\
  (nth_error (gors s) i = Some (Caller CIdle (TryStart :: r)) ->
   nth_error (gors (run tstep s [i])) i = Some (Caller CIdle r) /\ started (run tstep s [i]) = started s).
Proof.
  cbv zeta. intros B X. pose proof (first_running calls sched B X) as R.
  destruct (run tstep (tinit calls) sched) as [rn hd gs lg]. cbn [running gors] in *. subst rn.
  split; intros G; cbn [run]; unfold tstep; rewrite G; cbn [gors].
  - apply (set_nth_same _ _ _ _ G).
  - split; [apply (set_nth_same _ _ _ _ G)|reflexivity].
Qed.
