(** Commands on a connection that stays, and how often the callback is called *)
From Coq Require Import Arith Lia ZifyBool ZifyNat.
From Verif Require Import Base ConcModel ShutdownModel ShutdownSpec ShutdownProofs WriteModel WriteSpec WriteProofs.

Lemma has_in' n l : has n l = true <-> In n l.
Proof.
  unfold has. rewrite existsb_exists. split; [intros (x & I & E); apply Nat.eqb_eq in E; subst; exact I|]. intros I. exists n. split; [exact I|apply Nat.eqb_refl].
Qed.
Lemma not_has n l : ~ In n l -> has n l = false.
Proof. intros H. destruct (has n l) eqn:E; [|reflexivity]. apply has_in' in E. contradiction. Qed.

Lemma wgood_open s : wgood s -> ~ In 1%nat (gone (below s)) ->
  connected (below s) = true /\ disconnecting (below s) = false /\ ~ In 1%nat (closed (below s)) /\ terminations (below s) = 0%nat /\ (forall c, ~ failed_on s c) /\
  (forall g, In g (senders s) -> wat g = WIdle \/ wat g = WWrite).
Proof.
  intros [cn dg dd tr th cm dt cl go lg pc rest ss wl -> V] G. destruct V as [B HO AC PR CM UP DN CL PA NO DI FA BO CA]. cbn [below senders wstate gone wlog connected disconnecting closed] in *.
  destruct (CA (not_has _ _ G)) as (-> & Z0 & C). specialize (UP eq_refl). wfacts rest ss.
  split; [reflexivity|]. split; [destruct dg; [cbn in AC; lia|reflexivity]|]. split; [intros I; apply has_in' in I; lia|]. split; [change (terminations _) with (terms lg); lia|]. split.
  - intros c (k & I). cbn [wlog] in I. assert (F : fails wl = 0%nat) by lia. unfold fails in F. apply length_zero_iff_nil in F.
    assert (In (EFailed k c) (filter (fun e => match e with EFailed _ _ => true | _ => false end) wl)) as X by (apply filter_In; split; [exact I|reflexivity]). rewrite F in X. destruct X.
  - intros g I. pose proof (ssum_in s_pend ss g I) as Q. destruct (wat g); cbn in Q; auto; lia.
Qed.
Lemma wgood_bound s : wgood s -> crashed (below s) = false /\ (terminations (below s) <= 2 + fails (wlog s))%nat.
Proof.
  intros [cn dg dd tr th cm dt cl go lg pc rest ss wl -> V]. destruct V as [B HO AC PR CM UP DN CL PA NO DI FA BO CA]. cbn [below wlog wstate crashed]. split; [reflexivity|].
  change (terminations _) with (terms lg). wfacts rest ss. destruct cn; lia.
Qed.

(** ** Every command is written *)
Definition at_write (p : wpc) : nat := match p with WWrite => 1 | _ => 0 end.
Definition counted (commands : list nat) (s : wst) : Prop :=
  forall k p n, nth_error (senders s) k = Some (Sender p n) -> exists N, nth_error commands k = Some N /\ (has 1 (gone (below s)) = false -> (written s k 1 + n + at_write p = N)%nat).

Lemma sstep_gone s i s' : sstep s i = Some s' -> gone s' = gone s.
Proof.
  unfold sstep. destruct s as [a b c d e f g h o j k x l m]. cbn [crashed sgors]. destruct x; [discriminate|]. destruct (nth_error l i) as [[u todo|cc p|p|au p]|]; [| | | |discriminate].
  - destruct u; cbn; try (intros [= <-]; reflexivity).
    + destruct todo as [|[] r]; [discriminate|..]; intros [= <-]; reflexivity.
    + destruct p; intros [= <-]; reflexivity.
    + destruct o; intros [= <-]; reflexivity.
    + destruct (is_held _ _); [discriminate|]. intros [= <-]; reflexivity.
    + destruct f; [discriminate|]. intros [= <-]; reflexivity.
  - destruct p; cbn; try (intros [= <-]; reflexivity); try discriminate.
    + destruct (_ || _)%bool; [|discriminate]. intros [= <-]; reflexivity.
    + destruct e; [discriminate|]. intros [= <-]; reflexivity.
  - destruct p as [|p| | |]; cbn; try (intros [= <-]; reflexivity); try discriminate. destruct p; intros [= <-]; reflexivity.
  - destruct p; cbn; try (intros [= <-]; reflexivity); try discriminate.
    + destruct e; [discriminate|]. intros [= <-]; reflexivity.
    + destruct f; [discriminate|]. intros [= <-]; reflexivity.
    + destruct h; intros [= <-]; reflexivity.
    + destruct (is_held _ _); [discriminate|]. intros [= <-]; reflexivity.
Qed.
Lemma nth_set_nth {A} (l : list A) i j x : nth_error (set_nth l i x) j = if Nat.eq_dec i j then (match nth_error l i with Some _ => Some x | None => None end) else nth_error l j.
Proof.
  revert i j. induction l as [|y l IH]; intros i j.
  - destruct (Nat.eq_dec i j); destruct i, j; reflexivity.
  - destruct i as [|i], j as [|j]; cbn [set_nth nth_error]; try reflexivity.
    rewrite IH. destruct (Nat.eq_dec i j), (Nat.eq_dec (S i) (S j)); try reflexivity; lia.
Qed.

Lemma counted_step commands s a s' : wgood s -> counted commands s -> wact_step s a = Some s' -> counted commands s'.
Proof.
  intros W C H. destruct a as [[i|c]|k f]; cbn [wact_step sact_step] in H.
  - destruct (sstep (below s) i) as [b|] eqn:E; [|discriminate]. injection H as <-. intros k p n N. cbn [senders] in N. destruct (C k p n N) as (m & M & D).
    exists m. split; [exact M|]. cbn [below]. rewrite (sstep_gone _ _ _ E). exact D.
  - destruct W as [cn dg dd tr th cm dt cl go lg pc rest ss wl -> V]. cbn [below senders wlog wstate conns gone] in H.
    destruct ((1 <=? c)%nat && (c <=? 1)%nat && negb (has c go))%bool eqn:E; [|discriminate]. injection H as <-.
    assert (c = 1%nat) by lia. subst c. intros k p n N. destruct (C k p n N) as (m & M & _). exists m. split; [exact M|]. cbn [below with_gone gone]. discriminate.
  - assert (Qt : has 1 (gone (below s)) = false -> (forall g, In g (senders s) -> wat g = WIdle \/ wat g = WWrite) /\ connected (below s) = true /\ has 1 (closed (below s)) = false /\ conns (below s) = 1%nat).
    { intros G. assert (G' : ~ In 1%nat (gone (below s))) by (intros I; apply has_in' in I; congruence). destruct (wgood_open s W G') as (X1 & _ & X2 & _ & _ & X3).
      split; [exact X3|]. split; [exact X1|]. split; [apply not_has, X2|]. destruct W as [cn dg dd tr th cm dt cl go lg pc rest ss wl -> V]. reflexivity. }
    clear W. unfold send_step in H. destruct (crashed (below s)); [discriminate|]. destruct (nth_error (senders s) k) as [[p n]|] eqn:N; [|discriminate].
    assert (K : forall b' p' n' wl', s' = WState b' (set_nth (senders s) k (Sender p' n')) wl' -> gone b' = gone (below s) ->
      (forall j, j <> k -> written s' j 1 = written s j 1) -> (has 1 (gone (below s)) = false -> (written s' k 1 + n' + at_write p' = written s k 1 + n + at_write p)%nat) -> counted commands s').
    { intros b' p' n' wl' Es Eg Eo Ek j q m Nj. rewrite Es in Nj. cbn [senders] in Nj. rewrite nth_set_nth in Nj. destruct (Nat.eq_dec k j) as [<-|NE].
      - rewrite N in Nj. injection Nj as <- <-. destruct (C k p n N) as (x & M & D). exists x. split; [exact M|]. rewrite Es at 1. cbn [below]. rewrite Eg. intros G. rewrite (Ek G). exact (D G).
      - destruct (C j q m Nj) as (x & M & D). exists x. split; [exact M|]. rewrite Es at 1. cbn [below]. rewrite Eg, (Eo j ltac:(congruence)). exact D. }
    assert (Nt : In (Sender p n) (senders s)) by exact (nth_error_In _ _ N).
    destruct p.
    + destruct n as [|n]; [discriminate|]. injection H as <-. eapply K; [reflexivity|reflexivity|reflexivity|]. intros G. destruct (Qt G) as (_ & -> & _). unfold written. cbn [wlog at_write]. lia.
    + destruct (_ || _)%bool eqn:E; injection H as <-; (eapply K; [reflexivity|reflexivity|..]).
      * intros j _. reflexivity.
      * intros G. destruct (Qt G) as (_ & _ & X & Y). rewrite Y, X, G in E. discriminate E.
      * intros j NE. unfold written. cbn [wlog filter]. assert (Nat.eqb j k = false) as -> by (apply Nat.eqb_neq; exact NE). reflexivity.
      * intros G. destruct (Qt G) as (_ & _ & X & Y). unfold written. cbn [wlog filter]. rewrite Y, Nat.eqb_refl. cbn [Nat.eqb andb length at_write]. lia.
    + injection H as <-. eapply K; [reflexivity|reflexivity|reflexivity|]. intros G. destruct (Qt G) as (X & _). destruct (X _ Nt); discriminate.
    + injection H as <-. eapply K; [reflexivity|reflexivity|reflexivity|]. intros G. destruct (Qt G) as (X & _). destruct (X _ Nt); discriminate.
    + destruct (theld (below s)); [discriminate|]. injection H as <-. eapply K; [reflexivity|destruct (below s); reflexivity|reflexivity|]. intros G. destruct (Qt G) as (X & _). destruct (X _ Nt); discriminate.
    + injection H as <-. eapply K; [reflexivity|destruct (below s); reflexivity|reflexivity|]. intros G. destruct (Qt G) as (X & _). destruct (X _ Nt); discriminate.
Qed.
Lemma counted_run commands sched : forall s, wgood s -> counted commands s -> counted commands (wrun s sched).
Proof.
  induction sched as [|a sched IH]; intros s W C; [exact C|]. cbn [wrun]. destruct (wact_step s a) as [s'|] eqn:E; [|exact (IH s W C)].
  apply IH; [exact (wstep_good _ _ _ W E)|exact (counted_step _ _ _ _ W C E)].
Qed.
Lemma counted_init commands : counted commands (winit commands []).
Proof.
  intros k p n N. cbn [winit senders] in N. rewrite nth_error_map in N. destruct (nth_error commands k) as [m|] eqn:E; [|discriminate]. injection N as <- <-.
  exists m. split; [reflexivity|]. intros _. unfold written. cbn. lia.
Qed.
Lemma wrun_senders sched : forall s, length (senders (wrun s sched)) = length (senders s).
Proof.
  induction sched as [|a sched IH]; intros s; [reflexivity|]. cbn [wrun]. rewrite IH. destruct (wact_step s a) as [s'|] eqn:E; [|reflexivity].
  destruct a as [a|k f]; cbn [wact_step] in E; [destruct (sact_step _ _); [|discriminate]; injection E as <-; reflexivity|].
  unfold send_step in E. destruct (crashed _); [discriminate|]. destruct (nth_error (senders s) k) as [[p n]|]; [|discriminate].
  destruct p; try (injection E as <-; cbn [senders]; apply set_nth_length).
  - destruct n; [discriminate|]. injection E as <-; cbn [senders]; apply set_nth_length.
  - destruct (_ || _)%bool; injection E as <-; cbn [senders]; apply set_nth_length.
  - destruct (theld _); [discriminate|]. injection E as <-; cbn [senders]; apply set_nth_length.
Qed.

Lemma commands_written commands sched : let s := wrun (winit commands []) sched in ~ In 1%nat (gone (below s)) ->
  connected (below s) = true /\ disconnecting (below s) = false /\ ~ In 1%nat (closed (below s)) /\ terminations (below s) = 0%nat /\ (forall c, ~ failed_on s c) /\
  (all_done s -> all_sent s /\ forall k n, nth_error commands k = Some n -> written s k 1 = n).
Proof.
  intros s G. pose proof (wrun_good sched _ (winit_good commands)) as W. fold s in W. destruct (wgood_open s W G) as (A & B & C & D & E & F).
  split; [exact A|]. split; [exact B|]. split; [exact C|]. split; [exact D|]. split; [exact E|]. intros R.
  assert (RS : forall g, In g (senders s) -> g = Sender WIdle 0).
  { intros g I. destruct (In_nth_error _ _ I) as (k & N). specialize (R (WSend k true) ltac:(intros c X; discriminate X)). cbn [wact_step] in R. unfold send_step in R.
    destruct (wgood_bound s W) as (CR & _). rewrite CR, N in R. destruct g as [p n]. destruct (F _ I) as [X|X]; cbn in X; subst p.
    - destruct n; [reflexivity|discriminate R].
    - destruct (_ || _)%bool; discriminate R. }
  split; [apply List.Forall_forall; intros g I; symmetry; exact (RS g I)|]. intros k n Nk.
  assert (L : (k < length (senders s))%nat).
  { unfold s. rewrite wrun_senders. cbn [winit senders]. rewrite map_length. apply nth_error_Some. congruence. }
  destruct (nth_error (senders s) k) as [g|] eqn:N; [|apply nth_error_None in N; lia]. pose proof (RS g (nth_error_In _ _ N)) as ->.
  destruct (counted_run commands sched _ (winit_good commands) (counted_init commands) k WIdle 0%nat N) as (m & M & K). rewrite Nk in M. injection M as <-.
  specialize (K (not_has _ _ G)). cbn in K. fold s in K. lia.
Qed.
