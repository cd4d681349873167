(** Proofs about commands that fail: an invariant in sums over goroutines and senders. *)
From Coq Require Import Arith Lia ZifyBool ZifyNat.
From Verif Require Import Base ConcModel ShutdownModel ShutdownSpec ShutdownProofs WriteModel WriteSpec.

Fixpoint ssum (w : wpc -> nat) (l : list sender) : nat := match l with [] => 0 | g :: l => w (wat g) + ssum w l end.
Lemma ssum_set w l i g g' : nth_error l i = Some g -> (ssum w (set_nth l i g') + w (wat g) = ssum w l + w (wat g'))%nat.
Proof.
  revert i. induction l as [|x l IH]; intros [|i] H; try discriminate; cbn in *.
  - injection H as ->. lia.
  - specialize (IH i H). lia.
Qed.
Lemma ssum_le w v l : (forall g, (w g <= v g)%nat) -> (ssum w l <= ssum v l)%nat.
Proof. intros H. induction l as [|x l IH]; cbn; [lia|]. specialize (H (wat x)). lia. Qed.
Lemma ssum_pos w l : (0 < ssum w l)%nat -> exists g, In g l /\ (0 < w (wat g))%nat.
Proof.
  induction l as [|x l IH]; cbn; [lia|]. intros H. destruct (Nat.eq_dec (w (wat x)) 0) as [E|E]; [|exists x; split; [auto|lia]].
  destruct IH as (g & I & K); [lia|]. exists g. auto.
Qed.
Lemma ssum_in w l g : In g l -> (w (wat g) <= ssum w l)%nat.
Proof. induction l as [|x l IH]; cbn; [tauto|]. intros [->|H]; [lia|]. specialize (IH H). lia. Qed.

(** ** Weights *)
Definition v_bad (g : sgor) : nat :=
  match g with
  | Term _ => 0
  | Disc true (XTerm | XTermWait | XLock | XRelease | XWait (S _)) => 1
  | Disc true _ => 0
  | _ => 1
  end.
Definition v_hold (g : sgor) : nat := match g with Term (TmNew | TmDisc _ | TmUnlock) => 1 | _ => 0 end.
Definition v_pre (g : sgor) : nat := match g with Term (TmDisc DSet) => 1 | _ => 0 end.
Definition v_test (g : sgor) : nat := match g with Term (TmDisc DTest) => 1 | _ => 0 end.
Definition v_tact (g : sgor) : nat := match g with Term (TmDisc (DUnSet | DStart)) => 1 | _ => 0 end.
Definition v_dact (g : sgor) : nat := match g with Disc _ (XRelease | XUnlock | XUnSet | XEnd) => 0 | Disc _ _ => 1 | _ => 0 end.
Definition v_start (g : sgor) : nat := match g with Term (TmDisc DStart) => 1 | _ => 0 end.
Definition v_join (g : sgor) : nat := match g with Disc _ (XJoin | XWait _ | XNil) => 1 | _ => 0 end.
Definition v_past (g : sgor) : nat := match g with Disc _ (XNil | XNotify | XDone | XRelease | XUnlock | XUnSet | XEnd) => 1 | _ => 0 end.
Definition v_closed (g : sgor) : nat := match g with Disc _ (XNew | XTerm | XTermWait | XLock | XClose) => 0 | Disc _ _ => 1 | _ => 0 end.
Definition v_noted (g : sgor) : nat := match g with Disc _ (XDone | XRelease | XUnlock | XUnSet | XEnd) => 1 | _ => 0 end.
Definition v_disc (g : sgor) : nat := match g with Disc _ _ => 1 | _ => 0 end.
Definition v_run (g : sgor) : nat := match g with Term (TmUnlock | TmUnSet | TmEnd) => 1 | _ => 0 end.
Definition v_term (g : sgor) : nat := match g with Term _ => 1 | _ => 0 end.
Definition r_hold (pc : rdpc) : nat := match pc with RdSpawn => 1 | _ => 0 end.
Definition r_pend (pc : rdpc) : nat := match pc with RdTry | RdStart | RdLock | RdSpawn => 1 | _ => 0 end.
Definition r_over (pc : rdpc) : nat := match pc with RdUnlock | RdUnSet | RdEnd => 1 | _ => 0 end.
Definition r_late (pc : rdpc) : nat := match pc with RdNew | RdLoop | RdUnlock | RdUnSet | RdEnd => 1 | _ => 0 end.
Definition r_calm (pc : rdpc) : nat := match pc with RdNew | RdLoop | RdRead => 1 | _ => 0 end.
Definition s_hold (pc : wpc) : nat := match pc with WSpawn => 1 | _ => 0 end.
Definition s_pend (pc : wpc) : nat := match pc with WTry | WStart | WLock | WSpawn => 1 | _ => 0 end.
Definition fails (l : list wev) : nat := length (filter (fun e => match e with EFailed _ _ => true | _ => false end) l).

Record winv (cn dg dd th : bool) (cm : option nat) (cl go : list nat) (lg : list sev) (pc : rdpc) (rest : list sgor) (ss : list sender) (wl : list wev) : Prop := WInv {
  j_bad : sum v_bad rest = 0%nat;
  j_hold : (r_hold pc + sum v_hold rest + ssum s_hold ss = b2n th)%nat;
  j_act : (sum v_tact rest + sum v_dact rest = b2n dg)%nat;
  j_pre : (0 < sum v_pre rest)%nat -> dg = false;
  j_cmd : cm = Some 0%nat \/ cm = None /\ (0 < sum v_past rest)%nat /\ sum v_join rest = 0%nat;
  j_up : cn = true -> (sum v_start rest + sum v_run rest + sum v_disc rest + r_over pc = 0)%nat;
  j_down : cn = false -> dg = true \/ dd = true /\ (0 < sum v_noted rest)%nat;
  j_closed : has 1 cl = (0 <? sum v_closed rest)%nat;
  j_past : (0 < sum v_past rest)%nat -> r_late pc = 1%nat;
  j_noted : terms lg = sum v_noted rest;
  j_disc : (sum v_disc rest <= sum v_run rest)%nat;
  j_fails : (ssum s_pend ss <= fails wl)%nat;
  j_bound : cn = false -> (sum v_term rest + r_pend pc + ssum s_pend ss <= 2 + fails wl)%nat;
  j_calm : has 1 go = false -> cn = true /\ (sum v_term rest + ssum s_pend ss + fails wl = 0)%nat /\ r_calm pc = 1%nat
}.
Definition wstate (cn dg dd tr th : bool) (cm dt : option nat) (cl go : list nat) (lg : list sev) (pc : rdpc) (rest : list sgor) : sst :=
  SState cn dg dd tr th false 1 cm dt cl go false (Reader 1 pc :: rest) lg.
Inductive wgood (s : wst) : Prop :=
  WGood cn dg dd tr th cm dt cl go lg pc rest ss wl :
    s = WState (wstate cn dg dd tr th cm dt cl go lg pc rest) ss wl -> winv cn dg dd th cm cl go lg pc rest ss wl -> wgood s.

Lemma le_pre_hold l : (sum v_test l + sum v_pre l + sum v_tact l <= sum v_hold l)%nat.
Proof. rewrite <- !sum_add. apply sum_le. intros [| |[|[]| | |]|]; cbn; lia. Qed.
Lemma le_vstart l : (sum v_start l <= sum v_tact l)%nat.
Proof. apply sum_le. intros [| |[|[]| | |]|]; cbn; lia. Qed.
Lemma le_join_act l : (sum v_join l <= sum v_dact l)%nat.
Proof. apply sum_le. intros [| | |? []]; cbn; lia. Qed.
Lemma le_vpast l : (sum v_past l <= sum v_closed l)%nat.
Proof. apply sum_le. intros [| | |? []]; cbn; lia. Qed.
Lemma le_vclosed l : (sum v_closed l <= sum v_disc l)%nat.
Proof. apply sum_le. intros [| | |? []]; cbn; lia. Qed.
Lemma le_vnoted l : (sum v_noted l <= sum v_past l)%nat.
Proof. apply sum_le. intros [| | |? []]; cbn; lia. Qed.
Lemma le_vdact l : (sum v_dact l <= sum v_disc l)%nat.
Proof. apply sum_le. intros [| | |? []]; cbn; lia. Qed.
Lemma le_vdisc l : (sum v_disc l <= sum v_dact l + sum v_noted l)%nat.
Proof. rewrite <- sum_add. apply sum_le. intros [| | |? []]; cbn; lia. Qed.
Lemma le_vrun l : (sum v_run l <= sum v_term l <= sum v_run l + sum v_hold l)%nat.
Proof.
  split; [apply sum_le; intros [| |[]|]; cbn; lia|]. rewrite <- sum_add. apply sum_le; intros [| |[]|]; cbn; lia.
Qed.
Lemma le_vhold l : (sum v_hold l <= sum v_term l)%nat.
Proof. apply sum_le; intros [| |[]|]; cbn; lia. Qed.
Lemma le_spend l : (ssum s_hold l <= ssum s_pend l)%nat.
Proof. apply ssum_le. intros []; cbn; lia. Qed.

Ltac wfacts rest ss := pose proof (le_pre_hold rest); pose proof (le_vstart rest); pose proof (le_join_act rest); pose proof (le_vpast rest); pose proof (le_vclosed rest);
  pose proof (le_vnoted rest); pose proof (le_vdact rest); pose proof (le_vdisc rest); pose proof (le_vrun rest); pose proof (le_vhold rest); pose proof (le_spend ss).
Ltac wone w rest j g g' N :=
  let E := fresh "E" in pose proof (sum_set w rest j g g' N) as E; cbn [w] in E;
  first [ assert (sum w (set_nth rest j g') = sum w rest) by (clear -E; lia); clear E | idtac ].
Ltac wmoved rest j g g' N :=
  wone v_bad rest j g g' N; wone v_hold rest j g g' N; wone v_pre rest j g g' N; wone v_tact rest j g g' N; wone v_dact rest j g g' N; wone v_start rest j g g' N;
  wone v_join rest j g g' N; wone v_past rest j g g' N; wone v_closed rest j g g' N; wone v_noted rest j g g' N; wone v_disc rest j g g' N; wone v_run rest j g g' N; wone v_term rest j g g' N.
Ltac wclose CM := constructor; cbn [b2n r_hold r_pend r_over r_late r_calm] in *; try assumption; try solve [auto]; try solve [lia];
  try (destruct CM as [?CM|(?CM & ?CM1 & ?CM2)]; [left; exact CM|right; split; [exact CM|split; lia]]).

Lemma wreader cn dg dd tr th cm dt cl go lg pc rest ss wl b' : winv cn dg dd th cm cl go lg pc rest ss wl ->
  sstep (wstate cn dg dd tr th cm dt cl go lg pc rest) 0 = Some b' -> wgood (WState b' ss wl).
Proof.
  intros V H. destruct V as [B HO AC PR CM UP DN CL PA NO DI FA BO CA]. wfacts rest ss.
  assert (K : forall pc' th' rest', b' = wstate cn dg dd tr th' cm dt cl go lg pc' rest' -> winv cn dg dd th' cm cl go lg pc' rest' ss wl -> wgood (WState b' ss wl)).
  { intros pc' th' rest' -> I. econstructor; [reflexivity|exact I]. }
  destruct pc; unfold sstep, wstate in H; cbn [crashed sgors nth_error] in H.
  - injection H as <-. apply (K RdLoop th rest); [reflexivity|]. wclose CM.
  - injection H as <-. cbn [connected]. destruct cn.
    + apply (K RdRead th rest); [reflexivity|]. wclose CM.
    + apply (K RdUnlock th rest); [reflexivity|]. wclose CM.
  - cbn [closed gone] in H. destruct (has 1 cl || has 1 go)%bool eqn:E; [|discriminate]. injection H as <-. apply (K RdErr th rest); [reflexivity|].
    assert (G : has 1 go = true) by (destruct (has 1 go) eqn:G; [reflexivity|]; lia).
    rewrite G in *. wclose CM.
  - injection H as <-. cbn [disconnecting]. destruct dg.
    + apply (K RdLoop th rest); [reflexivity|]. wclose CM.
    + apply (K RdTry th rest); [reflexivity|]. destruct cn; wclose CM.
  - injection H as <-. cbn [trunning]. destruct tr; [apply (K RdLoop th rest)|apply (K RdStart th rest)]; try reflexivity; wclose CM.
  - injection H as <-. cbn [trunning]. destruct tr; [apply (K RdLoop th rest)|apply (K RdLock th rest)]; try reflexivity; wclose CM.
  - cbn [theld] in H. destruct th; [discriminate|]. injection H as <-. apply (K RdSpawn true rest); [reflexivity|]. wclose CM.
  - injection H as <-. apply (K RdLoop th (rest ++ [Term TmNew])); [reflexivity|]. 
    constructor; rewrite ?sum_app; cbn [v_bad v_hold v_pre v_tact v_dact v_start v_join v_past v_closed v_noted v_disc v_run v_term]; rewrite ?Nat.add_0_r; cbn [b2n r_hold r_pend r_over r_late r_calm] in *; try assumption; try solve [auto]; try lia.
  - injection H as <-. apply (K RdUnSet th rest); [reflexivity|]. wclose CM.
  - injection H as <-. apply (K RdEnd th rest); [reflexivity|]. wclose CM.
  - discriminate.
Qed.

Lemma wother cn dg dd tr th cm dt cl go lg pc rest ss wl j b' : winv cn dg dd th cm cl go lg pc rest ss wl ->
  sstep (wstate cn dg dd tr th cm dt cl go lg pc rest) (S j) = Some b' -> wgood (WState b' ss wl).
Proof.
  intros V H. destruct V as [B HO AC PR CM UP DN CL PA NO DI FA BO CA]. wfacts rest ss.
  unfold sstep in H. cbn [wstate crashed sgors nth_error] in H. change (match rest with [] => _ | _ => _ end) with (nth_error rest j) in H.
  destruct (nth_error rest j) as [g|] eqn:N; [|discriminate].
  pose proof (sum_in v_bad rest g (nth_error_In _ _ N)) as B'.
  assert (HB : (b2n th <= 1)%nat) by (destruct th; cbn; lia). assert (AB : (b2n dg <= 1)%nat) by (destruct dg; cbn; lia).
  assert (K : forall cn' dg' dd' tr' th' cm' cl' lg' g',
    b' = wstate cn' dg' dd' tr' th' cm' dt cl' go lg' pc (set_nth rest j g') ->
    winv cn' dg' dd' th' cm' cl' go lg' pc (set_nth rest j g') ss wl -> wgood (WState b' ss wl)).
  { intros cn' dg' dd' tr' th' cm' cl' lg' g' -> I. econstructor; [reflexivity|exact I]. }
  destruct g as [u todo|c p|p|au p]; try (exfalso; clear -B B'; cbn in B'; lia).
  - destruct p as [|p| | |].
    + injection H as <-. apply (K cn dg dd true th cm cl lg (Term (TmDisc DTest))); [reflexivity|].
      wmoved rest j (Term TmNew) (Term (TmDisc DTest)) N. wclose CM.
    + destruct p; cbn [disconnect_step] in H.
      * injection H as <-. cbn [disconnecting]. pose proof (sum_in v_test rest _ (nth_error_In _ _ N)) as Q; cbn [v_test] in Q. destruct dg.
        -- apply (K cn true dd tr th cm cl lg (Term TmUnlock)); [reflexivity|]. wmoved rest j (Term (TmDisc DTest)) (Term TmUnlock) N. destruct cn; wclose CM.
        -- apply (K cn false dd tr th cm cl lg (Term (TmDisc DSet))); [reflexivity|]. wmoved rest j (Term (TmDisc DTest)) (Term (TmDisc DSet)) N. wclose CM.
      * injection H as <-. pose proof (sum_in v_pre rest _ (nth_error_In _ _ N)) as Q; cbn [v_pre] in Q. specialize (PR ltac:(lia)). subst dg.
        apply (K cn true dd tr th cm cl lg (Term (TmDisc DUnSet))); [reflexivity|]. wmoved rest j (Term (TmDisc DSet)) (Term (TmDisc DUnSet)) N. wclose CM.
      * injection H as <-. pose proof (sum_in v_tact rest _ (nth_error_In _ _ N)) as Q; cbn [v_tact] in Q.
        apply (K false dg dd tr th cm cl lg (Term (TmDisc DStart))); [reflexivity|]. wmoved rest j (Term (TmDisc DUnSet)) (Term (TmDisc DStart)) N.
        assert (dg = true) by (destruct dg; cbn in *; [reflexivity|lia]). subst dg.
        assert (G : has 1 go = true) by (destruct (has 1 go) eqn:G; [reflexivity|]; lia).
        destruct cn; wclose CM. destruct pc; cbn [r_pend r_hold] in *; lia.
      * injection H as <-. pose proof (sum_in v_tact rest _ (nth_error_In _ _ N)) as Q; cbn [v_tact] in Q. pose proof (sum_in v_start rest _ (nth_error_In _ _ N)) as Q'; cbn [v_start] in Q'.
        wmoved rest j (Term (TmDisc DStart)) (Term TmUnlock) N.
        assert (cn = false) by (destruct cn; [lia|reflexivity]). subst cn. 
        econstructor; [reflexivity|].
        constructor; rewrite ?sum_app; cbn [v_bad v_hold v_pre v_tact v_dact v_start v_join v_past v_closed v_noted v_disc v_run v_term]; rewrite ?Nat.add_0_r; cbn [b2n] in *; try assumption; try solve [auto]; try lia.
        destruct CM as [CM|(CM & CM1 & CM2)]; [left; exact CM|right; split; [exact CM|split; lia]].
    + injection H as <-. pose proof (sum_in v_run rest _ (nth_error_In _ _ N)) as Q; cbn [v_run] in Q. pose proof (sum_in v_hold rest _ (nth_error_In _ _ N)) as Q'; cbn [v_hold] in Q'.
      apply (K cn dg dd tr false cm cl lg (Term TmUnSet)); [reflexivity|]. wmoved rest j (Term TmUnlock) (Term TmUnSet) N. wclose CM.
    + injection H as <-. apply (K cn dg dd false th cm cl lg (Term TmEnd)); [reflexivity|]. wmoved rest j (Term TmUnSet) (Term TmEnd) N. wclose CM.
    + discriminate.
  - assert (au = true) by (destruct au; [reflexivity|exfalso; clear -B B'; cbn in B'; lia]). subst au.
    assert (CF : cn = false).
    { destruct cn; [|reflexivity]. pose proof (sum_in v_disc rest _ (nth_error_In _ _ N)) as Q. cbn [v_disc] in Q. lia. }
    subst cn. assert (G : has 1 go = true) by (destruct (has 1 go) eqn:G; [reflexivity|]; lia).
    destruct p; cbn [trunning theld action cmd conns wstate is_running is_held sgors nth_error] in H; try (exfalso; clear -B B'; cbn in B'; lia).
    + injection H as <-. apply (K false dg dd tr th cm cl lg (Disc true XClose)); [reflexivity|]. wmoved rest j (Disc true XNew) (Disc true XClose) N. wclose CM.
    + injection H as <-. apply (K false dg dd tr th cm (1%nat :: cl) lg (Disc true XTest)); [reflexivity|]. wmoved rest j (Disc true XClose) (Disc true XTest) N.
      pose proof (cons_closed cl) as CC. wclose CM.
    + destruct CM as [->|(-> & CM1 & CM2)]; injection H as <-.
      * apply (K false dg dd tr th (Some 0%nat) cl lg (Disc true XJoin)); [reflexivity|]. wmoved rest j (Disc true XTest) (Disc true XJoin) N.
        assert (CM : Some 0%nat = Some 0%nat) by reflexivity. wclose CM.
      * apply (K false dg dd tr th None cl lg (Disc true XNotify)); [reflexivity|]. wmoved rest j (Disc true XTest) (Disc true XNotify) N.
        constructor; cbn [b2n] in *; try assumption; try solve [auto]; try lia. right. split; [reflexivity|split; lia].
    + pose proof (sum_in v_join rest _ (nth_error_In _ _ N)) as Q. cbn [v_join] in Q. destruct CM as [->|(-> & CM1 & CM2)]; [|exfalso; lia].
      assert (R : exists p, b' = goes (wstate false dg dd tr th (Some 0%nat) dt cl go lg pc rest) (S j) (Disc true p) /\ (p = XWait 0 \/ p = XNil /\ r_late pc = 1%nat)).
      { clear - H. destruct pc; injection H as <-; eexists; (split; [reflexivity|]); auto. }
      destruct R as (p & -> & [->|(-> & LT)]).
      * apply (K false dg dd tr th (Some 0%nat) cl lg (Disc true (XWait 0))); [reflexivity|]. wmoved rest j (Disc true XJoin) (Disc true (XWait 0)) N.
        constructor; cbn [b2n] in *; try assumption; try solve [auto]; try lia.
      * apply (K false dg dd tr th (Some 0%nat) cl lg (Disc true XNil)); [reflexivity|]. wmoved rest j (Disc true XJoin) (Disc true XNil) N.
        constructor; cbn [b2n] in *; try assumption; try solve [auto]; try lia.
    + destruct i as [|i]; [|exfalso; clear -B B'; cbn in B'; lia].
      pose proof (sum_in v_join rest _ (nth_error_In _ _ N)) as Q. cbn [v_join] in Q. destruct CM as [->|(-> & CM1 & CM2)]; [|exfalso; lia].
      assert (R : b' = goes (wstate false dg dd tr th (Some 0%nat) dt cl go lg pc rest) (S j) (Disc true XNil) /\ r_late pc = 1%nat).
      { clear - H. destruct pc; try discriminate H; injection H as <-; auto. }
      destruct R as (-> & LT).
      apply (K false dg dd tr th (Some 0%nat) cl lg (Disc true XNil)); [reflexivity|]. wmoved rest j (Disc true (XWait 0)) (Disc true XNil) N.
      constructor; cbn [b2n] in *; try assumption; try solve [auto]; try lia.
    + injection H as <-. pose proof (sum_in v_join rest _ (nth_error_In _ _ N)) as Q. cbn [v_join] in Q. pose proof (sum_in v_past rest _ (nth_error_In _ _ N)) as Q'. cbn [v_past] in Q'.
      apply (K false dg dd tr th None cl lg (Disc true XNotify)); [reflexivity|]. wmoved rest j (Disc true XNil) (Disc true XNotify) N.
      constructor; cbn [b2n] in *; try assumption; try solve [auto]; try lia. right. split; [reflexivity|split; lia].
    + injection H as <-. apply (K false dg dd tr th cm cl (ETerminated :: lg) (Disc true XDone)); [reflexivity|].
      assert (terms (ETerminated :: lg) = S (terms lg)) by reflexivity. wmoved rest j (Disc true XNotify) (Disc true XDone) N. wclose CM.
    + injection H as <-. pose proof (sum_in v_dact rest _ (nth_error_In _ _ N)) as Q. cbn [v_dact] in Q. pose proof (sum_in v_noted rest _ (nth_error_In _ _ N)) as Q'. cbn [v_noted] in Q'.
      assert (dg = true) by (destruct dg; cbn in *; [reflexivity|lia]). subst dg.
      apply (K false false true tr th cm cl lg (Disc true XUnlock)); [reflexivity|]. wmoved rest j (Disc true XDone) (Disc true XUnlock) N. wclose CM.
    + injection H as <-. apply (K false dg dd tr th cm cl lg (Disc true XUnSet)); [reflexivity|]. wmoved rest j (Disc true XUnlock) (Disc true XUnSet) N. wclose CM.
    + injection H as <-. apply (K false dg dd tr th cm cl lg (Disc true XEnd)); [reflexivity|]. wmoved rest j (Disc true XUnSet) (Disc true XEnd) N. wclose CM.
    + discriminate.
Qed.

Lemma wsend s k f s' : wgood s -> send_step s k f = Some s' -> wgood s'.
Proof.
  intros [cn dg dd tr th cm dt cl go lg pc rest ss wl -> V] H. destruct V as [B HO AC PR CM UP DN CL PA NO DI FA BO CA]. wfacts rest ss.
  unfold send_step, wstate in H. cbn [below crashed senders] in H. destruct (nth_error ss k) as [[p n]|] eqn:N; [|discriminate].
  assert (HB : (b2n th <= 1)%nat) by (destruct th; cbn; lia).
  pose proof (ssum_in s_pend ss _ (nth_error_In _ _ N)) as Q.
  assert (K : forall th' rest' p' n' wl', s' = WState (wstate cn dg dd tr th' cm dt cl go lg pc rest') (set_nth ss k (Sender p' n')) wl' ->
    winv cn dg dd th' cm cl go lg pc rest' (set_nth ss k (Sender p' n')) wl' -> wgood s') by (intros; econstructor; eassumption).
  assert (M : forall p' n', (ssum s_hold (set_nth ss k (Sender p' n')) + s_hold p = ssum s_hold ss + s_hold p')%nat /\ (ssum s_pend (set_nth ss k (Sender p' n')) + s_pend p = ssum s_pend ss + s_pend p')%nat).
  { intros p' n'. split; [exact (ssum_set s_hold ss k _ (Sender p' n') N)|exact (ssum_set s_pend ss k _ (Sender p' n') N)]. }
  destruct p; cbn [s_hold s_pend wat] in *.
  - destruct n as [|n]; [discriminate|]. injection H as <-. cbn [connected]. destruct cn.
    + eapply (K th rest WWrite n wl); [reflexivity|]. destruct (M WWrite n) as [M1 M2]. cbn in M1, M2. wclose CM.
    + eapply (K th rest WIdle n wl); [reflexivity|]. destruct (M WIdle n) as [M1 M2]. cbn in M1, M2. wclose CM.
  - cbn [conns closed gone] in H. destruct (has 1 cl || has 1 go && f)%bool eqn:E; injection H as <-.
    + eapply (K th rest WTry n); [reflexivity|]. destruct (M WTry n) as [M1 M2]. cbn in M1, M2. cbn [conns wlog].
      assert (F : fails (EFailed k 1 :: wl) = S (fails wl)) by reflexivity.
      assert (G : has 1 go = true) by (destruct (has 1 go) eqn:G; [reflexivity|]; lia). wclose CM.
    + eapply (K th rest WIdle n); [reflexivity|]. destruct (M WIdle n) as [M1 M2]. cbn in M1, M2. cbn [conns wlog].
      assert (F : fails (EWritten k 1 :: wl) = fails wl) by reflexivity. wclose CM.
  - injection H as <-. cbn [trunning]. destruct tr.
    + eapply (K th rest WIdle n); [reflexivity|]. destruct (M WIdle n) as [M1 M2]. cbn in M1, M2. wclose CM.
    + eapply (K th rest WStart n); [reflexivity|]. destruct (M WStart n) as [M1 M2]. cbn in M1, M2. wclose CM.
  - injection H as <-. cbn [trunning]. destruct tr.
    + eapply (K th rest WIdle n); [reflexivity|]. destruct (M WIdle n) as [M1 M2]. cbn in M1, M2. wclose CM.
    + eapply (K th rest WLock n); [reflexivity|]. destruct (M WLock n) as [M1 M2]. cbn in M1, M2. wclose CM.
  - cbn [theld] in H. destruct th; [discriminate|]. injection H as <-.
    eapply (K true rest WSpawn n); [reflexivity|]. destruct (M WSpawn n) as [M1 M2]. cbn in M1, M2. wclose CM.
  - injection H as <-. eapply (K th (rest ++ [Term TmNew]) WIdle n); [reflexivity|]. destruct (M WIdle n) as [M1 M2]. cbn in M1, M2.
    constructor; rewrite ?sum_app; cbn [v_bad v_hold v_pre v_tact v_dact v_start v_join v_past v_closed v_noted v_disc v_run v_term]; rewrite ?Nat.add_0_r; cbn [b2n wlog] in *; try assumption; try solve [auto]; try lia.
Qed.

Lemma wstep_good s a s' : wgood s -> wact_step s a = Some s' -> wgood s'.
Proof.
  intros W H. destruct a as [[i|c]|k f]; cbn [wact_step sact_step] in H.
  - destruct W as [cn dg dd tr th cm dt cl go lg pc rest ss wl -> V]. cbn [below senders wlog] in H.
    destruct (sstep _ i) as [b|] eqn:E; [|discriminate]. injection H as <-. destruct i as [|j]; [exact (wreader _ _ _ _ _ _ _ _ _ _ _ _ _ _ _ V E)|exact (wother _ _ _ _ _ _ _ _ _ _ _ _ _ _ _ _ V E)].
  - destruct W as [cn dg dd tr th cm dt cl go lg pc rest ss wl -> V]. cbn [below senders wlog wstate conns gone] in H.
    destruct ((1 <=? c)%nat && (c <=? 1)%nat && negb (has c go))%bool eqn:E; [|discriminate]. injection H as <-.
    assert (c = 1%nat) by lia. subst c. econstructor; [reflexivity|]. destruct V. constructor; try assumption. intros X. discriminate X.
  - exact (wsend s k f s' W H).
Qed.
Lemma wrun_good sched : forall s, wgood s -> wgood (wrun s sched).
Proof.
  induction sched as [|a sched IH]; intros s W; [exact W|]. cbn [wrun]. apply IH. destruct (wact_step s a) as [s'|] eqn:E; [exact (wstep_good _ _ _ W E)|exact W].
Qed.
Lemma ssum_idle w commands : w WIdle = 0%nat -> ssum w (map (Sender WIdle) commands) = 0%nat.
Proof. intros H. induction commands as [|n l IH]; cbn; [reflexivity|]. lia. Qed.
Lemma winit_good commands : wgood (winit commands []).
Proof.
  eapply (WGood _ true false false false false (Some 0%nat) None [] [] [EEstablished 1] RdNew [] (map (Sender WIdle) commands) []); [reflexivity|].
  constructor; rewrite ?ssum_idle by reflexivity; cbn; auto; try lia; discriminate.
Qed.

(** ** Coming to rest *)
Lemma wgood_rest s : wgood s -> In 1%nat (gone (below s)) -> all_done s ->
  all_sent s /\ down (below s) /\ In 1%nat (closed (below s)) /\ (1 <= terminations (below s))%nat /\ forall g, In g (sgors (below s)) -> g = Reader 1 RdEnd \/ g = Term TmEnd \/ g = Disc true XEnd.
Proof.
  intros [cn dg dd tr th cm dt cl go lg pc rest ss wl -> V] G R. destruct V as [B HO AC PR CM UP DN CL PA NO DI FA BO CA]. cbn [below senders wstate gone] in *.
  assert (G1 : has 1 go = true) by (unfold has; apply existsb_exists; exists 1%nat; split; [exact G|reflexivity]). clear CA.
  assert (RB : forall i, sstep (wstate cn dg dd tr th cm dt cl go lg pc rest) i = None).
  { intros i. specialize (R (WAct (Go i))). cbn [wact_step sact_step below] in R. destruct (sstep _ i); [|reflexivity]. specialize (R ltac:(intros c E; discriminate E)). discriminate R. }
  assert (RS : forall g, In g ss -> g = Sender WIdle 0 \/ wat g = WLock /\ th = true).
  { intros g I. destruct (In_nth_error _ _ I) as (k & N). specialize (R (WSend k true) ltac:(intros c E; discriminate E)). cbn [wact_step] in R. unfold send_step, wstate in R. cbn [below crashed senders] in R.
    rewrite N in R. destruct g as [p n]. destruct p; try discriminate R.
    - destruct n; [auto|discriminate R].
    - destruct (_ || _)%bool; discriminate R.
    - cbn [theld] in R. destruct th; [auto|discriminate R]. }
  assert (RR : forall g, In g rest -> g = Term TmEnd \/ g = Disc true XEnd \/ g = Disc true (XWait 0)).
  { intros g I. destruct (In_nth_error _ _ I) as (j & N). pose proof (sum_in v_bad rest g I) as B'. specialize (RB (S j)).
    unfold sstep in RB. cbn [wstate crashed sgors nth_error] in RB. rewrite N in RB.
    destruct g as [u todo|c p|p|au p]; try (exfalso; clear -B B'; cbn in B'; lia).
    - destruct p; try discriminate RB; auto.
    - destruct au; [|exfalso; clear -B B'; cbn in B'; lia]. destruct p; cbn [trunning theld action cmd conns wstate] in RB; try discriminate RB; try (exfalso; clear -B B'; cbn in B'; lia); auto.
      + destruct cm; discriminate RB.
      + destruct i; [auto|exfalso; clear -B B'; cbn in B'; lia]. }
  assert (TF : th = false).
  { destruct th; [|reflexivity]. cbn [b2n] in HO.
    assert (H0 : sum v_hold rest = 0%nat).
    { destruct (Nat.eq_dec (sum v_hold rest) 0) as [E|E]; [exact E|]. destruct (sum_pos v_hold rest ltac:(lia)) as (g & I & P). destruct (RR g I) as [->|[->| ->]]; cbn in P; lia. }
    assert (H1 : ssum s_hold ss = 0%nat).
    { destruct (Nat.eq_dec (ssum s_hold ss) 0) as [E|E]; [exact E|]. destruct (ssum_pos s_hold ss ltac:(lia)) as (g & I & P). destruct (RS g I) as [->|(E1 & _)]; [cbn in P; lia|]. rewrite E1 in P. cbn in P. lia. }
    specialize (RB 0%nat). destruct pc; cbn in HO; try lia. discriminate RB. }
  subst th.
  assert (PC : pc = RdEnd).
  { specialize (RB 0%nat). unfold sstep, wstate in RB. cbn [crashed sgors nth_error] in RB. destruct pc; try discriminate RB; [|reflexivity].
    cbn [closed gone] in RB. rewrite G1, Bool.orb_true_r in RB. discriminate RB. }
  subst pc.
  assert (R2 : forall g, In g rest -> g = Term TmEnd \/ g = Disc true XEnd).
  { intros g I. destruct (RR g I) as [E|[E| ->]]; auto. destruct (In_nth_error _ _ I) as (j & N). specialize (RB (S j)).
    unfold sstep in RB. cbn [wstate crashed sgors nth_error] in RB. rewrite N in RB. discriminate RB. }
  assert (Zs : forall w, w (Term TmEnd) = 0%nat -> w (Disc true XEnd) = 0%nat -> sum w rest = 0%nat).
  { clear -R2. intros w W1 W2. induction rest as [|g rest IH]; [reflexivity|]. cbn [sum]. rewrite IH by (intros x I; apply R2; right; exact I). destruct (R2 g (or_introl eq_refl)) as [->| ->]; lia. }
  assert (CF : cn = false) by (destruct cn; [specialize (UP eq_refl); cbn in UP; lia|reflexivity]). subst cn.
  assert (DG : dg = false).
  { destruct dg; [|reflexivity]. pose proof (Zs v_tact eq_refl eq_refl). pose proof (Zs v_dact eq_refl eq_refl). cbn in AC. lia. }
  subst dg. destruct (DN eq_refl) as [D|(-> & D)]; [discriminate|].
  pose proof (le_vpast rest). pose proof (le_vnoted rest).
  split; [|split; [|split; [|split]]].
  - unfold all_sent. cbn [senders]. apply List.Forall_forall. intros g I. destruct (RS g I) as [->|(_ & E)]; [reflexivity|discriminate].
  - repeat split; reflexivity.
  - assert (C : has 1 cl = true) by lia. cbn. unfold has in C. apply existsb_exists in C as (x & I & E). apply Nat.eqb_eq in E. subst x. exact I.
  - change (terminations _) with (terms lg). lia.
  - cbn [sgors]. intros g [<-|I]; [auto|]. destruct (R2 g I); auto.
Qed.

