(** Proofs about how connections end: an invariant in sums over the goroutines. *)
From Coq Require Import Arith Lia ZifyBool ZifyNat.
From Verif Require Import Base ConcModel ShutdownModel ShutdownSpec.

Fixpoint sum (w : sgor -> nat) (l : list sgor) : nat := match l with [] => 0 | g :: l => w g + sum w l end.
Lemma sum_set w l i g g' : nth_error l i = Some g -> (sum w (set_nth l i g') + w g = sum w l + w g')%nat.
Proof.
  revert i. induction l as [|x l IH]; intros [|i] H; try discriminate; cbn in *.
  - injection H as ->. lia.
  - specialize (IH i H). lia.
Qed.
Lemma sum_app w l g : sum w (l ++ [g]) = (sum w l + w g)%nat.
Proof. induction l as [|x l IH]; cbn; lia. Qed.
Lemma sum_le w v l : (forall g, (w g <= v g)%nat) -> (sum w l <= sum v l)%nat.
Proof. intros H. induction l as [|x l IH]; cbn; [lia|]. specialize (H x). lia. Qed.
Lemma sum_add w v l : sum (fun g => w g + v g)%nat l = (sum w l + sum v l)%nat.
Proof. induction l as [|x l IH]; cbn; lia. Qed.
Lemma sum_in w l g : In g l -> (w g <= sum w l)%nat.
Proof. induction l as [|x l IH]; cbn; [tauto|]. intros [->|H]; [lia|]. specialize (IH H). lia. Qed.
Lemma sum_pos w l : (0 < sum w l)%nat -> exists g, In g l /\ (0 < w g)%nat.
Proof.
  induction l as [|x l IH]; cbn; [lia|]. intros H. destruct (Nat.eq_dec (w x) 0) as [E|E]; [|exists x; split; [auto|lia]].
  destruct IH as (g & I & K); [lia|]. exists g. auto.
Qed.
Lemma set_nth_length {A} (l : list A) i x : length (set_nth l i x) = length l.
Proof. revert i. induction l as [|y l IH]; intros [|i]; cbn; auto. Qed.

(** ** Weights *)

Definition only_disc (l : list uop) : nat := length (filter (fun o => match o with OConnect => true | _ => false end) l).
Definition w_bad (g : sgor) : nat :=
  match g with
  | User (UIdle | UDisc _) todo => only_disc todo
  | Disc false (XTermWait | XWait (S _)) => 1
  | Disc false _ => 0
  | _ => 1
  end.
Definition w_todo (g : sgor) : nat := match g with User _ todo => length todo | _ => 0 end.
Definition w_udisc (g : sgor) : nat := match g with User (UDisc _) _ => 1 | _ => 0 end.
Definition w_pre (g : sgor) : nat := match g with User (UDisc (DUnSet | DStart)) _ => 1 | _ => 0 end.
Definition w_start (g : sgor) : nat := match g with User (UDisc DStart) _ => 1 | _ => 0 end.
Definition w_disc (g : sgor) : nat := match g with Disc _ _ => 1 | _ => 0 end.
Definition w_hold (g : sgor) : nat := match g with Disc _ (XClose | XTest | XJoin | XWait _ | XNil | XNotify | XDone | XRelease) => 1 | _ => 0 end.
Definition w_closed (g : sgor) : nat := match g with Disc _ (XNew | XTerm | XTermWait | XLock | XClose) => 0 | Disc _ _ => 1 | _ => 0 end.
Definition w_join (g : sgor) : nat := match g with Disc _ (XJoin | XWait _ ) => 1 | _ => 0 end.
Definition w_nil (g : sgor) : nat := match g with Disc _ XNil => 1 | _ => 0 end.
Definition w_past (g : sgor) : nat := match g with Disc _ (XNil | XNotify | XDone | XRelease | XUnlock | XUnSet | XEnd) => 1 | _ => 0 end.
Definition w_live (g : sgor) : nat := match g with Disc _ (XRelease | XUnlock | XUnSet | XEnd) => 0 | Disc _ _ => 1 | _ => 0 end.
Definition w_noted (g : sgor) : nat := match g with Disc _ (XDone | XRelease | XUnlock | XUnSet | XEnd) => 1 | _ => 0 end.
Definition w_done (g : sgor) : nat := match g with Disc _ (XRelease | XUnlock | XUnSet | XEnd) => 1 | _ => 0 end.
(** Steps left, at most *)
Definition w_steps (g : sgor) : nat :=
  match g with
  | User pc todo => 20 * length todo + match pc with UDisc DTest => 19 | UDisc DSet => 18 | UDisc DUnSet => 17 | UDisc DStart => 16 | _ => 0 end
  | Disc _ pc => match pc with XNew => 14 | XTerm => 13 | XTermWait => 12 | XLock => 11 | XClose => 10 | XTest => 9 | XJoin => 8 | XWait _ => 7 | XNil => 6 | XNotify => 5
                 | XDone => 4 | XRelease => 3 | XUnlock => 2 | XUnSet => 1 | XEnd => 0 end
  | _ => 0
  end.
Definition reader_steps (connected : bool) (pc : rdpc) : nat :=
  match pc with RdNew => if connected then 8 else 5 | RdLoop => if connected then 7 else 4 | RdRead => 6 | RdErr => 5 | RdUnlock => 2 | RdUnSet => 1 | _ => 0 end.
Definition late (pc : rdpc) : bool := match pc with RdNew | RdLoop | RdUnlock | RdUnSet | RdEnd => true | _ => false end.
Definition fine (pc : rdpc) : bool := match pc with RdTry | RdStart | RdLock | RdSpawn => false | _ => true end.
Definition err (pc : rdpc) : bool := match pc with RdErr => true | _ => false end.

Definition terms (lg : list sev) : nat := length (filter (fun e => match e with ETerminated => true | _ => false end) lg).
Definition b2n (b : bool) : nat := if b then 1 else 0.
Record inv (total : nat) (cn dg dd ac : bool) (cm : option nat) (cl : list nat) (lg : list sev) (pc : rdpc) (rest : list sgor) : Prop := Inv {
  i_bad : sum w_bad rest = 0%nat;
  i_hold : sum w_hold rest = b2n ac;
  i_connected : cn = true -> (sum w_start rest + sum w_disc rest = 0)%nat;
  i_live : dg = true -> (0 < sum w_pre rest + sum w_live rest)%nat;
  i_begun : sum w_past rest = 0%nat -> (0 < sum w_pre rest + sum w_disc rest)%nat -> dg = true;
  i_past : (0 < sum w_past rest)%nat -> late pc = true;
  i_fine : fine pc = true;
  i_closed : (0 < sum w_closed rest)%nat -> has 1 cl = true;
  i_open : has 1 cl = true -> (0 < sum w_closed rest)%nat;
  i_only : forallb (Nat.eqb 1) cl = true;
  i_err : err pc = true -> has 1 cl = true;
  i_cmd : cm = Some 0%nat \/ cm = None /\ (0 < sum w_past rest)%nat /\ sum w_join rest = 0%nat;
  i_noted : terms lg = sum w_noted rest;
  i_done : (0 < sum w_done rest)%nat -> dd = true;
  i_total : (sum w_todo rest + sum w_udisc rest + sum w_disc rest <= total)%nat;
  i_some : (sum w_todo rest < total)%nat -> (0 < sum w_udisc rest + sum w_disc rest)%nat
}.
Definition measure (cn : bool) (pc : rdpc) (rest : list sgor) : nat := reader_steps cn pc + sum w_steps rest.
Definition state (cn dg dd ac : bool) (cm dt : option nat) (cl : list nat) (lg : list sev) (pc : rdpc) (rest : list sgor) : sst :=
  SState cn dg dd false false ac 1 cm dt cl [] false (Reader 1 pc :: rest) lg.
Inductive good (total : nat) (s : sst) (m : nat) : Prop :=
  Good cn dg dd ac cm dt cl lg pc rest : s = state cn dg dd ac cm dt cl lg pc rest -> inv total cn dg dd ac cm cl lg pc rest -> m = measure cn pc rest -> good total s m.

Lemma le_join_hold l : (sum w_join l + sum w_nil l <= sum w_hold l)%nat.
Proof. rewrite <- sum_add. apply sum_le. intros [| | |? []]; cbn; lia. Qed.
Lemma le_hold_disc l : (sum w_hold l <= sum w_disc l)%nat.
Proof. apply sum_le. intros [| | |? []]; cbn; lia. Qed.
Lemma le_past_closed l : (sum w_past l <= sum w_closed l)%nat.
Proof. apply sum_le. intros [| | |? []]; cbn; lia. Qed.
Lemma le_closed_disc l : (sum w_closed l <= sum w_disc l)%nat.
Proof. apply sum_le. intros [| | |? []]; cbn; lia. Qed.
Lemma le_start_pre l : (sum w_start l <= sum w_pre l)%nat.
Proof. apply sum_le. intros [[|[]| | | | | |] ?| | |]; cbn; lia. Qed.
Lemma le_pre_udisc l : (sum w_pre l <= sum w_udisc l)%nat.
Proof. apply sum_le. intros [[|[]| | | | | |] ?| | |]; cbn; lia. Qed.
Lemma le_live_disc l : (sum w_live l <= sum w_disc l)%nat.
Proof. apply sum_le. intros [| | |? []]; cbn; lia. Qed.
Lemma live_done l : (sum w_live l + sum w_done l = sum w_disc l)%nat.
Proof. induction l as [|g l IH]; [reflexivity|]. cbn [sum]. destruct g as [| | |? []]; cbn [w_live w_done w_disc]; lia. Qed.

Lemma reader_steps_le cn' cn pc : (cn' = true -> cn = true) -> (reader_steps cn' pc <= reader_steps cn pc)%nat.
Proof. intros C. destruct cn', cn, pc; cbn; try lia; discriminate (C eq_refl). Qed.

Ltac facts rest := pose proof (le_join_hold rest); pose proof (le_hold_disc rest); pose proof (le_past_closed rest); pose proof (le_closed_disc rest);
  pose proof (le_start_pre rest); pose proof (le_pre_udisc rest); pose proof (le_live_disc rest); pose proof (live_done rest).
Ltac one w rest j g g' N :=
  let E := fresh "E" in pose proof (sum_set w rest j g g' N) as E; cbn [w length] in E;
  first [ assert (sum w (set_nth rest j g') = sum w rest) by (clear -E; lia); clear E | idtac ].
Ltac moved rest j g g' N :=
  one w_bad rest j g g' N; one w_todo rest j g g' N; one w_udisc rest j g g' N; one w_pre rest j g g' N; one w_start rest j g g' N; one w_disc rest j g g' N; one w_hold rest j g g' N; one w_closed rest j g g' N; one w_join rest j g g' N; one w_nil rest j g g' N; one w_past rest j g g' N; one w_live rest j g g' N; one w_noted rest j g g' N; one w_done rest j g g' N.
Ltac lean := intros; repeat match goal with H : ?b = ?b -> _ |- _ => specialize (H eq_refl) end;
  repeat match goal with H : ?A -> _ |- _ => match type of A with Prop => clear H end | H : _ \/ _ |- _ => clear H | H : _ <-> _ |- _ => clear H end; lia.
Ltac back := repeat match goal with Q : sum ?w (set_nth _ _ _) = sum ?w _ |- _ => try rewrite Q in *; clear Q end.
Ltac close CM := constructor; back; cbn [b2n] in *; try assumption; try (solve [auto]); try solve [lean];
  try (destruct CM as [?CM|(?CM & ?CM1 & ?CM2)]; [left; exact CM|right; split; [exact CM|split; lean]]).

Lemma reader_keep total cn dg dd ac cm dt cl lg pc rest s' : inv total cn dg dd ac cm cl lg pc rest ->
  sstep (state cn dg dd ac cm dt cl lg pc rest) 0 = Some s' -> exists m', good total s' m' /\ (m' < measure cn pc rest)%nat.
Proof.
  intros V H. pose proof V as V0. destruct V as [B HO CN LV BG PA FI CL OP ON ER CM NO DO TO SO]. facts rest.
  assert (K : forall pc', s' = state cn dg dd ac cm dt cl lg pc' rest -> ((0 < sum w_past rest)%nat -> late pc' = true) -> fine pc' = true -> (err pc' = true -> has 1 cl = true) ->
    (reader_steps cn pc' < reader_steps cn pc)%nat -> exists m', good total s' m' /\ (m' < measure cn pc rest)%nat).
  { intros pc' E L F R M. exists (measure cn pc' rest). split; [|unfold measure; clear -M; lia]. apply (Good _ _ _ cn dg dd ac cm dt cl lg pc' rest); [exact E| |reflexivity]. destruct V0. constructor; assumption. }
  destruct pc; try discriminate FI.
  - injection H as <-. apply (K RdLoop); auto; try discriminate. cbn. destruct cn; lia.
  - injection H as <-. destruct cn.
    + specialize (CN eq_refl). apply (K RdRead); auto; try discriminate; try (intros; cbn; lia).
    + apply (K RdUnlock); auto; try discriminate; try (cbn; lia).
  - unfold sstep, state in H. cbn [crashed sgors nth_error closed gone] in H. change (has 1 []) with false in H. rewrite Bool.orb_false_r in H.
    destruct (has 1 cl) eqn:E; [|discriminate]. injection H as <-. apply (K RdErr); auto; try (cbn; lia).
  - specialize (ER eq_refl). specialize (OP ER). assert (D : dg = true).
    { apply BG; [|lia]. destruct (Nat.eq_dec (sum w_past rest) 0) as [E|E]; [assumption|]. specialize (PA ltac:(lia)). discriminate PA. }
    subst dg. injection H as <-. apply (K RdLoop); auto. destruct cn; [specialize (CN eq_refl); lia|cbn; lia].
  - injection H as <-. apply (K RdUnSet); auto; try discriminate; try (cbn; lia).
  - injection H as <-. apply (K RdEnd); auto; try discriminate; try (cbn; lia).
  - discriminate.
Qed.

Lemma cons_closed cl : has 1 (1%nat :: cl) = true.
Proof. reflexivity. Qed.
Lemma others_keep total cn dg dd ac cm dt cl lg pc rest j s' : inv total cn dg dd ac cm cl lg pc rest ->
  sstep (state cn dg dd ac cm dt cl lg pc rest) (S j) = Some s' -> exists m', good total s' m' /\ (m' < measure cn pc rest)%nat.
Proof.
  intros V H. pose proof V as V0. destruct V as [B HO CN LV BG PA FI CL OP ON ER CM NO DO TO SO]. facts rest.
  unfold sstep in H. cbn [state crashed sgors nth_error] in H. change (match rest with [] => _ | _ => _ end) with (nth_error rest j) in H.
  destruct (nth_error rest j) as [g|] eqn:N; [|discriminate].
  pose proof (sum_in w_bad rest g (nth_error_In _ _ N)) as B'.
  assert (K : forall cn' dg' dd' ac' cm' cl' lg' g',
    s' = state cn' dg' dd' ac' cm' dt cl' lg' pc (set_nth rest j g') ->
    inv total cn' dg' dd' ac' cm' cl' lg' pc (set_nth rest j g') ->
    (cn' = true -> cn = true) -> (w_steps g' < w_steps g)%nat -> exists m', good total s' m' /\ (m' < measure cn pc rest)%nat).
  { intros cn' dg' dd' ac' cm' cl' lg' g' E I C W. exists (measure cn' pc (set_nth rest j g')). split; [econstructor; [exact E|exact I|reflexivity]|].
    unfold measure. pose proof (sum_set w_steps rest j g g' N) as EM. pose proof (reader_steps_le cn' cn pc C) as L. clear -L W EM. lia. }
  destruct g as [u todo|c p|p|au p].
  - destruct u as [|p| | | | | |]; try (exfalso; clear -B B'; cbn in B'; lia).
    + destruct todo as [|[] todo]; [discriminate|exfalso; clear -B B'; cbn in B'; lia|]. injection H as <-.
      assert (only_disc (ODisconnect :: todo) = only_disc todo) by reflexivity.
      apply (K cn dg dd ac cm cl lg (User (if dg then UIdle else UDisc DTest) todo)); [reflexivity| |auto|clear; cbn [w_steps length]; destruct dg; lia].
      destruct dg.
      * moved rest j (User UIdle (ODisconnect :: todo)) (User UIdle todo) N. close CM.
      * moved rest j (User UIdle (ODisconnect :: todo)) (User (UDisc DTest) todo) N. close CM.
    + destruct p; cbn [disconnect_step] in H.
      * injection H as <-. apply (K cn dg dd ac cm cl lg (User (if dg then UIdle else UDisc DSet) todo)); [cbn; destruct dg; reflexivity| |auto|clear; cbn [w_steps length]; destruct dg; lia].
        destruct dg.
        -- pose proof (le_pre_udisc (set_nth rest j (User UIdle todo))). moved rest j (User (UDisc DTest) todo) (User UIdle todo) N. close CM.
        -- moved rest j (User (UDisc DTest) todo) (User (UDisc DSet) todo) N. close CM.
      * injection H as <-. apply (K cn true dd ac cm cl lg (User (UDisc DUnSet) todo)); [reflexivity| |auto|clear; cbn [w_steps length]; lia].
        moved rest j (User (UDisc DSet) todo) (User (UDisc DUnSet) todo) N. close CM.
      * injection H as <-. apply (K false dg dd ac cm cl lg (User (UDisc DStart) todo)); [reflexivity| |discriminate|clear; cbn [w_steps length]; lia].
        moved rest j (User (UDisc DUnSet) todo) (User (UDisc DStart) todo) N. close CM.
      * injection H as <-. set (g' := User UIdle todo). exists (measure cn pc (set_nth rest j g' ++ [Disc false XNew])). split.
        -- eapply (Good _ _ _ cn dg dd ac cm _ cl lg pc (set_nth rest j g' ++ [Disc false XNew])); [reflexivity| |reflexivity].
           assert (cn = false) by (destruct cn; [pose proof (sum_in w_start rest _ (nth_error_In _ _ N)) as Q; cbn in Q; lean|reflexivity]). subst cn.
           unfold g'. moved rest j (User (UDisc DStart) todo) (User UIdle todo) N.
           constructor; rewrite ?sum_app; cbn [w_bad w_todo w_udisc w_pre w_start w_disc w_hold w_closed w_join w_nil w_past w_live w_noted w_done]; rewrite ?Nat.add_0_r; back;
             try assumption; try solve [auto]; try solve [lean].
           ++ intros P _. apply BG; [exact P|]. pose proof (sum_in w_pre rest _ (nth_error_In _ _ N)) as Q; cbn in Q; lean.
        -- unfold measure. pose proof (sum_set w_steps rest j _ g' N) as EM. rewrite sum_app. subst g'. clear -EM. cbn [w_steps] in *. lia.
  - exfalso; clear -B B'; cbn in B'; lia.
  - exfalso; clear -B B'; cbn in B'; lia.
  - assert (au = false) by (destruct au; [exfalso; clear -B B'; cbn in B'; lia|reflexivity]). subst au.
    pose proof (sum_in w_hold rest _ (nth_error_In _ _ N)) as Q1. pose proof (sum_in w_join rest _ (nth_error_In _ _ N)) as Q2. pose proof (sum_in w_nil rest _ (nth_error_In _ _ N)) as Q3.
    pose proof (sum_in w_past rest _ (nth_error_In _ _ N)) as Q4.
    assert (A1 : (sum w_hold rest <= 1)%nat) by (rewrite HO; destruct ac; cbn; lia).
    destruct p; cbn [trunning theld action cmd conns state is_running is_held sgors nth_error] in H; try (exfalso; clear -B B'; cbn in B'; lia).
    + injection H as <-. apply (K cn dg dd ac cm cl lg (Disc false XTerm)); [reflexivity| |auto|clear; cbn; lia].
      moved rest j (Disc false XNew) (Disc false XTerm) N. close CM.
    + injection H as <-. apply (K cn dg dd ac cm cl lg (Disc false XLock)); [reflexivity| |auto|clear; cbn; lia].
      moved rest j (Disc false XTerm) (Disc false XLock) N. close CM.
    + destruct ac; [discriminate|]. injection H as <-. apply (K cn dg dd true cm cl lg (Disc false XClose)); [reflexivity| |auto|clear; cbn; lia].
      moved rest j (Disc false XLock) (Disc false XClose) N. close CM.
    + injection H as <-. apply (K cn dg dd ac cm (1%nat :: cl) lg (Disc false XTest)); [reflexivity| |auto|clear; cbn; lia].
      moved rest j (Disc false XClose) (Disc false XTest) N. close CM.
    + destruct CM as [->|(-> & CM1 & CM2)]; injection H as <-.
      * apply (K cn dg dd ac (Some 0%nat) cl lg (Disc false XJoin)); [reflexivity| |auto|clear; cbn; lia].
        moved rest j (Disc false XTest) (Disc false XJoin) N. constructor; back; try assumption; try solve [auto]; try solve [lean].
      * apply (K cn dg dd ac None cl lg (Disc false XNotify)); [reflexivity| |auto|clear; cbn; lia].
        moved rest j (Disc false XTest) (Disc false XNotify) N. constructor; back; try assumption; try solve [auto]; try solve [lean].
        right. split; [reflexivity|split; lean].
    + destruct CM as [->|(-> & CM1 & CM2)]; [|exfalso; cbn in Q2; lia].
      assert (R : exists p, s' = goes (state cn dg dd ac (Some 0%nat) dt cl lg pc rest) (S j) (Disc false p) /\ (p = XWait 0 \/ p = XNil /\ late pc = true)).
      { clear - H. destruct pc; injection H as <-; eexists; (split; [reflexivity|]); auto. }
      destruct R as (p & -> & [->|(-> & LT)]).
      * apply (K cn dg dd ac (Some 0%nat) cl lg (Disc false (XWait 0))); [reflexivity| |auto|clear; cbn; lia].
        moved rest j (Disc false XJoin) (Disc false (XWait 0)) N. constructor; back; try assumption; try solve [auto]; try solve [lean].
      * apply (K cn dg dd ac (Some 0%nat) cl lg (Disc false XNil)); [reflexivity| |auto|clear; cbn; lia].
        moved rest j (Disc false XJoin) (Disc false XNil) N. constructor; back; try assumption; try solve [auto]; try solve [lean].
    + destruct i as [|i]; [|exfalso; clear -B B'; cbn in B'; lia].
      destruct CM as [->|(-> & CM1 & CM2)]; [|exfalso; cbn in Q2; lean].
      assert (R : s' = goes (state cn dg dd ac (Some 0%nat) dt cl lg pc rest) (S j) (Disc false XNil) /\ late pc = true).
      { clear - H. destruct pc; try discriminate H; injection H as <-; auto. }
      destruct R as (-> & LT).
      apply (K cn dg dd ac (Some 0%nat) cl lg (Disc false XNil)); [reflexivity| |auto|clear; cbn; lia].
      moved rest j (Disc false (XWait 0)) (Disc false XNil) N. constructor; back; try assumption; try solve [auto]; try solve [lean].
    + injection H as <-. apply (K cn dg dd ac None cl lg (Disc false XNotify)); [reflexivity| |auto|clear; cbn; lia]. cbn [w_hold w_join w_nil w_past] in *. clear CM.
      moved rest j (Disc false XNil) (Disc false XNotify) N. constructor; back; try assumption; try solve [auto]; try solve [lean].
      right. split; [reflexivity|split; lean].
    + injection H as <-. apply (K cn dg dd ac cm cl (ETerminated :: lg) (Disc false XDone)); [reflexivity| |auto|clear; cbn; lia].
      assert (terms (ETerminated :: lg) = S (terms lg)) by reflexivity.
      moved rest j (Disc false XNotify) (Disc false XDone) N. close CM.
    + injection H as <-. apply (K cn false true ac cm cl lg (Disc false XRelease)); [reflexivity| |auto|clear; cbn; lia]. cbn [w_hold w_join w_nil w_past] in *.
      moved rest j (Disc false XDone) (Disc false XRelease) N. close CM.
    + injection H as <-. apply (K cn dg dd false cm cl lg (Disc false XUnlock)); [reflexivity| |auto|clear; cbn; lia]. cbn [w_hold w_join w_nil w_past] in *.
      moved rest j (Disc false XRelease) (Disc false XUnlock) N. close CM.
    + injection H as <-. apply (K cn dg dd ac cm cl lg (Disc false XUnSet)); [reflexivity| |auto|clear; cbn; lia].
      moved rest j (Disc false XUnlock) (Disc false XUnSet) N. close CM.
    + injection H as <-. apply (K cn dg dd ac cm cl lg (Disc false XEnd)); [reflexivity| |auto|clear; cbn; lia].
      moved rest j (Disc false XUnSet) (Disc false XEnd) N. close CM.
    + discriminate.
Qed.

Lemma good_step total s m i s' : good total s m -> sstep s i = Some s' -> exists m', good total s' m' /\ (m' < m)%nat.
Proof.
  intros [cn dg dd ac cm dt cl lg pc rest -> V ->] H. destruct i as [|j]; [exact (reader_keep _ _ _ _ _ _ _ _ _ _ _ _ V H)|exact (others_keep _ _ _ _ _ _ _ _ _ _ _ _ _ V H)].
Qed.
Lemma good_run total sched : forall s m, good total s m -> publisher_stays sched -> (exists m', good total (srun s sched) m') /\ (moves s sched <= m)%nat.
Proof.
  induction sched as [|a sched IH]; intros s m G P; cbn [srun moves]; [split; [eauto|lia]|]. inversion P as [|? ? (i & ->) P']; subst. cbn [sact_step].
  destruct (sstep s i) as [s'|] eqn:E.
  - destruct (good_step _ _ _ _ _ G E) as (m' & G' & L). destruct (IH s' m' G' P') as (R & M). split; [exact R|lia].
  - exact (IH s m G P').
Qed.
Lemma users_sum w calls : (forall l, w (User UIdle l) = 0%nat) -> sum w (map (User UIdle) calls) = 0%nat.
Proof. intros H. induction calls as [|l calls IH]; cbn [map sum]; [reflexivity|]. rewrite H, IH. reflexivity. Qed.
Lemma users_todo calls : sum w_todo (map (User UIdle) calls) = calls_of calls.
Proof. unfold calls_of. induction calls as [|l calls IH]; cbn; [reflexivity|]. rewrite IH. reflexivity. Qed.
Lemma users_steps calls : sum w_steps (map (User UIdle) calls) = (20 * calls_of calls)%nat.
Proof. unfold calls_of. induction calls as [|l calls IH]; [reflexivity|]. cbn [map sum w_steps list_sum fold_right]. rewrite IH. unfold list_sum. lia. Qed.
Lemma users_bad calls : disconnecting_only calls -> sum w_bad (map (User UIdle) calls) = 0%nat.
Proof.
  intros H. induction calls as [|l calls IH]; [reflexivity|]. inversion H as [|? ? L R]; subst. cbn [map sum w_bad]. rewrite (IH R).
  enough (E : only_disc l = 0%nat) by lia. clear -L. induction L as [|o l <- L IH]; [reflexivity|exact IH].
Qed.
Lemma good_init calls : disconnecting_only calls -> good (calls_of calls) (sconnected calls) (20 * calls_of calls + 8).
Proof.
  intros H. eapply (Good _ _ _ true false false false (Some 0%nat) None [] [EEstablished 1] RdNew (map (User UIdle) calls)); [reflexivity| |unfold measure; rewrite users_steps; cbn; lia].
  constructor; rewrite ?(users_bad _ H), ?users_todo, ?(users_sum w_hold), ?(users_sum w_start), ?(users_sum w_disc), ?(users_sum w_pre), ?(users_sum w_live), ?(users_sum w_past), ?(users_sum w_closed),
    ?(users_sum w_join), ?(users_sum w_noted), ?(users_sum w_done), ?(users_sum w_udisc) by reflexivity; auto; try reflexivity; try discriminate; lia.
Qed.

Lemma good_rest total s m : good total s m -> at_rest s -> returned s /\ ((0 < total)%nat -> down s /\ In 1%nat (closed s) /\ (1 <= terminations s)%nat).
Proof.
  intros [cn dg dd ac cm dt cl lg pc rest -> V ->] R. destruct V as [B HO CN LV BG PA FI CL OP ON ER CM NO DO TO SO].
  assert (RP : pc = RdEnd \/ has 1 cl = false).
  { specialize (R 0%nat). destruct pc; auto; try discriminate R; try discriminate FI. unfold sstep in R. cbn [state crashed sgors nth_error closed gone] in R.
    destruct (has 1 cl) eqn:E; [discriminate|auto]. }
  assert (RR : forall g, In g rest -> g = User UIdle [] \/ g = Disc false XEnd \/ g = Disc false (XWait 0) \/ g = Disc false XLock /\ ac = true).
  { intros g I. destruct (In_nth_error _ _ I) as (j & N). pose proof (sum_in w_bad rest g I) as B'. specialize (R (S j)).
    unfold sstep in R. cbn [state crashed sgors nth_error] in R. rewrite N in R.
    destruct g as [u todo|c p|p|au p]; try (exfalso; clear -B B'; cbn in B'; lia).
    - destruct u; try (exfalso; clear -B B'; cbn in B'; lia); [|discriminate R]. destruct todo as [|[] todo]; [auto|discriminate R|discriminate R].
    - destruct au; [exfalso; clear -B B'; cbn in B'; lia|]. destruct p; cbn [trunning theld action cmd conns state] in R; try discriminate R; try (exfalso; clear -B B'; cbn in B'; lia); auto.
      + destruct ac; [auto 6|discriminate].
      + destruct cm; discriminate R.
      + destruct i; [auto|exfalso; clear -B B'; cbn in B'; lia]. }
  assert (R1 : forall g, In g rest -> g <> Disc false (XWait 0)).
  { intros g I ->. destruct (In_nth_error _ _ I) as (j & N). specialize (R (S j)). unfold sstep in R. cbn [state crashed sgors nth_error] in R. rewrite N in R.
    pose proof (sum_in w_closed rest _ I) as C. cbn in C. specialize (CL ltac:(clear -C; lia)). destruct RP as [->|E]; [discriminate R|congruence]. }
  assert (R2 : forall g, In g rest -> g = User UIdle [] \/ g = Disc false XEnd).
  { intros g I. destruct (RR g I) as [E|[E|[E|(-> & ->)]]]; auto; [exfalso; exact (R1 g I E)|]. exfalso.
    destruct (sum_pos w_hold rest ltac:(clear -HO; cbn in HO; lia)) as (h & I' & P). specialize (R1 h I'). destruct (RR h I') as [->|[->|[->|(-> & _)]]]; cbn in P; try lia; apply R1; reflexivity. }
  clear RR R1 R. split.
  - intros p todo [E|I]; [discriminate E|]. destruct (R2 _ I) as [E|E]; [injection E as -> ->; auto|discriminate].
  - intros T. assert (Z : forall w, w (User UIdle []) = 0%nat -> w (Disc false XEnd) = 0%nat -> sum w rest = 0%nat).
    { clear -R2. intros w W1 W2. induction rest as [|g rest IH]; [reflexivity|]. cbn [sum]. rewrite IH by (intros x I; apply R2; right; exact I). destruct (R2 g (or_introl eq_refl)) as [->| ->]; lia. }
    pose proof (Z w_todo eq_refl eq_refl) as Z1. pose proof (Z w_udisc eq_refl eq_refl) as Z2. pose proof (Z w_pre eq_refl eq_refl) as Z3. pose proof (Z w_live eq_refl eq_refl) as Z4.
    specialize (SO ltac:(clear -Z1 T; lia)). pose proof (live_done rest) as LD. pose proof (le_pre_udisc rest) as LP.
    assert (EQ : sum w_done rest = sum w_disc rest /\ sum w_noted rest = sum w_disc rest /\ sum w_closed rest = sum w_disc rest).
    { clear -R2. induction rest as [|g rest IH]; [auto|]. cbn [sum]. destruct IH as (-> & -> & ->); [intros x I; apply R2; right; exact I|]. destruct (R2 g (or_introl eq_refl)) as [->| ->]; auto. }
    destruct EQ as (E1 & E2 & E3). rewrite E1 in *. rewrite E2 in *. rewrite E3 in *. clear E1 E2 E3 TO BG PA ER CM.
    split; [|split].
    + split; [|split]; cbn.
      * destruct cn; [specialize (CN eq_refl); clear -CN SO Z2; lia|reflexivity].
      * destruct dg; [specialize (LV eq_refl); clear -LV Z3 Z4; lia|reflexivity].
      * apply DO. clear -SO Z2; lia.
    + specialize (CL ltac:(clear -SO Z2; lia)). cbn. unfold has in CL. apply existsb_exists in CL as (x & I & E). apply Nat.eqb_eq in E. subst x. exact I.
    + change (terminations _) with (terms lg). rewrite NO. clear -SO Z2; lia.
Qed.

Lemma disconnect_shuts_down calls sched : disconnecting_only calls -> publisher_stays sched ->
  let s := srun (sconnected calls) sched in
  crashed s = false /\ (terminations s <= calls_of calls)%nat /\ (moves (sconnected calls) sched <= 20 * calls_of calls + 8)%nat /\
  (at_rest s -> returned s /\ ((0 < calls_of calls)%nat -> down s /\ In 1%nat (closed s) /\ (1 <= terminations s)%nat)).
Proof.
  intros H P. destruct (good_run _ sched _ _ (good_init _ H) P) as ((m & G) & M). cbn zeta. split; [|split; [|split]].
  - destruct G as [cn dg dd ac cm dt cl lg pc rest -> V ->]. reflexivity.
  - destruct G as [cn dg dd ac cm dt cl lg pc rest -> V ->]. change (terminations _) with (terms lg). rewrite (i_noted _ _ _ _ _ _ _ _ _ _ V).
    pose proof (i_total _ _ _ _ _ _ _ _ _ _ V). assert (sum w_noted rest <= sum w_disc rest)%nat by (apply sum_le; intros [| | |? []]; cbn; lia). lia.
  - exact M.
  - exact (good_rest _ _ _ G).
Qed.
