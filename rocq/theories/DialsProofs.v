(** Proofs about goroutines that connect at the same time. *)
From Coq Require Import List Bool Arith Lia.
From Verif Require Import ConcModel ConcProofs DialsModel DialsSpec.
Import ListNotations.
Open Scope list_scope.

Ltac step_cases s i :=
  unfold dstep; destruct (nth_error (dgors s) i) as [[pc cs]|] eqn:N; [|discriminate];
  destruct pc as [|a|a| |ok]; [destruct cs as [|a r]; [discriminate|destruct (flag s) eqn:F]|destruct (locked s) eqn:L; [discriminate|]| | |]; intros [= <-]; cbn [trace flag socket opened dgors locked].

(** ** After a success *)
Definition well (s : dstate) : Prop :=
  (forall j, In (Returns j true) (trace s) -> flag s = true) /\ (forall j g, nth_error (dgors s) j = Some g -> at_ g = AtUnlock true -> flag s = true).
Lemma dgors_set s i j pc cs g : nth_error (set_nth (dgors s) i (DGor pc cs)) j = Some g -> (i = j /\ g = DGor pc cs) \/ (i <> j /\ nth_error (dgors s) j = Some g).
Proof.
  intros H. destruct (Nat.eq_dec i j) as [<-|D].
  - destruct (nth_error (dgors s) i) eqn:N; [rewrite (set_nth_same _ _ _ _ N) in H; injection H as <-; auto|].
    assert (K : nth_error (set_nth (dgors s) i (DGor pc cs)) i = None) by (apply nth_error_None; rewrite set_nth_length; apply nth_error_None; exact N). rewrite K in H. discriminate.
  - rewrite (set_nth_other _ _ _ _ D) in H. auto.
Qed.
Lemma well_step s i s' : well s -> dstep s i = Some s' -> well s'.
Proof.
  intros (W1 & W2). step_cases s i.
  - split; [reflexivity|reflexivity].
  - split; [intros j I; apply in_app_or in I as [I|[I|[]]]; [discriminate (W1 j I)|discriminate]|].
    intros j g H U. apply dgors_set in H as [(_ & ->)|(Dij & H)]; [discriminate|]. discriminate (W2 j g H U).
  - split; [exact W1|]. intros j g H U. apply dgors_set in H as [(_ & ->)|(Dij & H)]; [discriminate|]. exact (W2 j g H U).
  - split; [exact W1|]. intros j g H U. apply dgors_set in H as [(_ & ->)|(Dij & H)]; [destruct a; discriminate|]. exact (W2 j g H U).
  - split; reflexivity.
  - split.
    + intros j I. apply in_app_or in I as [I|[I|[]]]; [exact (W1 j I)|]. injection I as -> ->. exact (W2 j _ N eq_refl).
    + intros j g H U. apply dgors_set in H as [(_ & ->)|(Dij & H)]; [discriminate|]. exact (W2 j g H U).
Qed.
Lemma drun_snoc s sched i : run dstep s (sched ++ [i]) = match dstep (run dstep s sched) i with Some s' => s' | None => run dstep s sched end.
Proof. rewrite run_app. reflexivity. Qed.
Lemma run_keeps (P : dstate -> Prop) : (forall s i s', P s -> dstep s i = Some s' -> P s') -> forall sched s, P s -> P (run dstep s sched).
Proof. intros K. induction sched as [|i sched IH]; intros s H; [exact H|]. cbn [run]. apply IH. destruct (dstep s i) eqn:G; [exact (K _ _ _ H G)|exact H]. Qed.
Lemma well_init progs : well (dinit progs).
Proof.
  split; [intros j []|]. intros j g H U. cbn [dinit dgors] in H. rewrite nth_error_map in H. destruct (nth_error progs j); [|discriminate]. injection H as <-. discriminate.
Qed.
Definition refuses (t : list dev) : Prop := forall t1 j t2 i t3, t = t1 ++ Returns j true :: t2 ++ Begins i :: t3 -> exists t4, t3 = Returns i false :: t4.
Lemma app_mid {A} (l1 l2 x : list A) (a : A) (y : list A) : l1 ++ l2 = x ++ a :: y -> (exists y', l1 = x ++ a :: y' /\ y = y' ++ l2) \/ (exists x', x = l1 ++ x' /\ l2 = x' ++ a :: y).
Proof.
  revert x. induction l1 as [|b l1 IH]; intros x H; [right; exists x; auto|]. destruct x as [|c x]; cbn in H; injection H as -> H; [left; exists l1; auto|].
  destruct (IH x H) as [(y' & -> & ->)|(x' & -> & ->)]; [left; exists y'; auto|right; exists x'; auto].
Qed.
Lemma refuses_more t es : (forall j, In (Returns j true) es -> forall i, ~ In (Begins i) es) -> refuses t ->
  (forall i t3, (exists t0, es = t0 ++ Begins i :: t3) -> (exists j, In (Returns j true) t) -> exists t4, t3 = Returns i false :: t4) -> refuses (t ++ es).
Proof.
  intros E R B t1 j t2 i t3 H. apply app_mid in H as [(y & -> & H)|(x & -> & H)].
  - symmetry in H. apply app_mid in H as [(y' & -> & ->)|(x' & -> & H)].
    + destruct (R t1 j t2 i y') as (t4 & ->); [reflexivity|]. exists (t4 ++ es). reflexivity.
    + apply (B i t3); [exists x'; exact H|]. exists j. apply in_or_app. right. left. reflexivity.
  - exfalso. apply (fun q => E j q i); [rewrite H; apply in_or_app; right; left; reflexivity|]. rewrite H. apply in_or_app. right. right. apply in_or_app. right. left. reflexivity.
Qed.
Lemma refuses_step s i s' : well s -> refuses (trace s) -> dstep s i = Some s' -> refuses (trace s').
Proof.
  intros (W1 & _) R. step_cases s i; try exact R.
  - apply refuses_more; [|exact R|].
    + intros j [I|[I|[]]]; discriminate.
    + intros k t3 (t0 & E) _. destruct t0 as [|x [|y [|z t0]]]; try discriminate. injection E as <- <-. exists []. reflexivity.
  - apply refuses_more; [|exact R|].
    + intros j [I|[]]; discriminate.
    + intros k t3 _ (j & I). specialize (W1 j I). congruence.
  - apply refuses_more; [|exact R|].
    + intros j [I|[]] k [I2|[]]; congruence.
    + intros k t3 (t0 & E) _. destruct t0 as [|x [|y t0]]; discriminate.
Qed.

(** ** Calls that take turns *)
Fixpoint complete (t : list dev) : Prop := match t with [] => True | Begins i :: Returns j _ :: r => i = j /\ complete r | _ => False end.
Lemma even_ind (P : list dev -> Prop) : P [] -> (forall a, P [a]) -> (forall a b t, P t -> P (a :: b :: t)) -> forall t, P t.
Proof. intros A B C. assert (H : forall t, P t /\ forall a, P (a :: t)) by (induction t as [|x t (I1 & I2)]; [auto|split; [apply I2|intros a; apply C; exact I1]]). intros t. apply H. Qed.
Lemma turns_prefix es : forall t, turns (t ++ es) -> turns t.
Proof.
  induction t as [|a|a b t IH] using even_ind; intros H; [exact I| |].
  - destruct a as [i|i k]; [exact I|]. cbn in H. exact H.
  - cbn [app] in H. destruct a as [i|i k], b as [j|j k']; cbn [turns] in *; tauto.
Qed.
Lemma turns_complete t : complete t -> forall es, turns (t ++ es) <-> turns es.
Proof.
  induction t as [|a|a b t IH] using even_ind; intros C es; [reflexivity| |].
  - destruct a; destruct C.
  - destruct a as [i|i k], b as [j|j k']; cbn [complete] in C; try tauto. destruct C as (-> & C). cbn [app turns]. rewrite (IH C es). tauto.
Qed.
Lemma complete_app t es : complete t -> complete es -> complete (t ++ es).
Proof.
  induction t as [|a|a b t IH] using even_ind; intros C E; [exact E| |].
  - destruct a; destruct C.
  - destruct a as [i|i k], b as [j|j k']; cbn [complete] in C; try tauto. destruct C as (-> & C). cbn [app complete]. split; [reflexivity|]. exact (IH C E).
Qed.
Definition all_idle (s : dstate) (but : nat -> Prop) : Prop := forall j g, nth_error (dgors s) j = Some g -> ~ but j -> at_ g = Idle.
Definition open_now (s : dstate) : Prop := (flag s = false /\ socket s = None /\ opened s = []) \/ (flag s = true /\ socket s = Some 0 /\ opened s = [0]).
Definition orderly (s : dstate) : Prop :=
  turns (trace s) -> open_now s /\
  ((complete (trace s) /\ all_idle s (fun _ => False)) \/
   (exists i t g, trace s = t ++ [Begins i] /\ complete t /\ nth_error (dgors s) i = Some g /\ at_ g <> Idle /\ all_idle s (eq i) /\
     (match at_ g with AtLock _ | AtDial _ | AtSet => flag s = false | _ => True end))).
Lemma orderly_step s i s' : orderly s -> dstep s i = Some s' -> orderly s'.
Proof.
  intros O. unfold orderly in *. step_cases s i.
  - (* refused at once *)
    intros T. destruct (O (turns_prefix _ _ T)) as (P & [(C & A)|(k & t & g & E & C & Nk & D & A & M)]).
    + split; [destruct P as [(P & _)|P]; [congruence|unfold open_now; cbn [flag socket opened]; tauto]|]. left. split; [apply complete_app; [exact C|cbn; auto]|]. intros j g H Q. apply dgors_set in H as [(_ & ->)|(Dij & H)]; [reflexivity|exact (A j g H Q)].
    + exfalso. rewrite E, <- app_assoc in T. apply (proj1 (turns_complete t C _)) in T. cbn in T. exact T.
  - (* begins *)
    intros T. destruct (O (turns_prefix _ _ T)) as (P & [(C & A)|(k & t & g & E & C & Nk & D & A & M)]).
    + split; [destruct P as [P|(P & _)]; [left; cbn; intuition|congruence]|]. right. exists i, (trace s), (DGor (AtLock a) r). split; [reflexivity|]. split; [exact C|].
      split; [exact (set_nth_same _ _ _ _ N)|]. split; [discriminate|]. split; [|reflexivity]. intros j g H Q. apply dgors_set in H as [(-> & _)|(Dij & H)]; [congruence|]. apply (A j g H). auto.
    + exfalso. rewrite E, <- app_assoc in T. apply (proj1 (turns_complete t C _)) in T. cbn in T. exact T.
  - intros T. destruct (O T) as (P & [(C & A)|(k & t & g & E & C & Nk & D & A & M)]); [exfalso; specialize (A i _ N (fun x => x)); discriminate|].
    destruct (Nat.eq_dec k i) as [->|Dk]; [|exfalso; specialize (A i _ N Dk); discriminate]. rewrite N in Nk. injection Nk as <-. cbn in M.
    split; [exact P|]. right. exists i, t, (DGor (AtDial a) cs). split; [exact E|]. split; [exact C|]. split; [exact (set_nth_same _ _ _ _ N)|]. split; [discriminate|]. split; [|exact M].
    intros j g H Q. apply dgors_set in H as [(-> & _)|(Dij & H)]; [congruence|]. exact (A j g H Q).
  - intros T. destruct (O T) as (P & [(C & A)|(k & t & g & E & C & Nk & D & A & M)]); [exfalso; specialize (A i _ N (fun x => x)); discriminate|].
    destruct (Nat.eq_dec k i) as [->|Dk]; [|exfalso; specialize (A i _ N Dk); discriminate]. rewrite N in Nk. injection Nk as <-. cbn in M.
    split; [exact P|]. right. exists i, t, (DGor (if a then AtSet else AtUnlock false) cs). split; [exact E|]. split; [exact C|]. split; [exact (set_nth_same _ _ _ _ N)|]. split; [destruct a; discriminate|].
    split; [|destruct a; cbn; auto]. intros j g H Q. apply dgors_set in H as [(-> & _)|(Dij & H)]; [congruence|]. exact (A j g H Q).
  - intros T. destruct (O T) as (P & [(C & A)|(k & t & g & E & C & Nk & D & A & M)]); [exfalso; specialize (A i _ N (fun x => x)); discriminate|].
    destruct (Nat.eq_dec k i) as [->|Dk]; [|exfalso; specialize (A i _ N Dk); discriminate]. rewrite N in Nk. injection Nk as <-. cbn in M.
    split; [destruct P as [(_ & _ & P)|(P & _)]; [right; cbn; rewrite P; auto|congruence]|]. right. exists i, t, (DGor (AtUnlock true) cs). split; [exact E|]. split; [exact C|]. split; [exact (set_nth_same _ _ _ _ N)|]. split; [discriminate|].
    split; [|exact I]. intros j g H Q. apply dgors_set in H as [(-> & _)|(Dij & H)]; [congruence|]. exact (A j g H Q).
  - intros T. destruct (O (turns_prefix _ _ T)) as (P & [(C & A)|(k & t & g & E & C & Nk & D & A & M)]); [exfalso; specialize (A i _ N (fun x => x)); discriminate|].
    destruct (Nat.eq_dec k i) as [->|Dk]; [|exfalso; specialize (A i _ N Dk); discriminate].
    split; [exact P|]. left. split; [rewrite E, <- app_assoc; apply complete_app; [exact C|cbn; auto]|].
    intros j g0 H Q. apply dgors_set in H as [(_ & ->)|(Dij & H)]; [reflexivity|]. exact (A j g0 H Dij).
Qed.

Lemma orderly_init progs : orderly (dinit progs).
Proof.
  intros _. split; [left; auto|]. left. split; [exact I|]. intros j g H _. cbn [dinit dgors] in H. rewrite nth_error_map in H. destruct (nth_error progs j); [|discriminate]. injection H as <-. reflexivity.
Qed.

(** ** Calls that overlap *)
Lemma successes_app t es : successes (t ++ es) = successes t + successes es.
Proof. induction t as [|[i|i []] t IH]; cbn [app successes]; lia. Qed.
Lemma nth_at {A} (l1 l2 : list A) a : nth_error (l1 ++ a :: l2) (length l1) = Some a.
Proof. rewrite nth_error_app2 by lia. rewrite Nat.sub_diag. reflexivity. Qed.
Lemma set_at {A} (l1 l2 : list A) a b : set_nth (l1 ++ a :: l2) (length l1) b = l1 ++ b :: l2.
Proof. induction l1 as [|x l1 IH]; cbn; [reflexivity|f_equal; exact IH]. Qed.
Lemma repeat_next {A} (a : A) m l : repeat a m ++ a :: l = repeat a (S m) ++ l.
Proof. induction m as [|m IH]; [reflexivity|]. cbn [repeat app] in *. f_equal. exact IH. Qed.
Lemma all_look n : forall m t, exists t', successes t' = successes t /\
  run dstep (DState false false None [] t (repeat (DGor (AtLock true) []) m ++ repeat (DGor Idle [true]) n)) (seq m n) = DState false false None [] t' (repeat (DGor (AtLock true) []) (m + n)).
Proof.
  induction n as [|n IH]; intros m t.
  - exists t. split; [reflexivity|]. cbn [seq run repeat]. rewrite app_nil_r, Nat.add_0_r. reflexivity.
  - cbn [seq run repeat]. destruct (IH (S m) (t ++ [Begins m])) as (t' & S' & R). exists t'. split; [rewrite S', successes_app; cbn; lia|].
    rewrite <- Nat.add_succ_comm, <- R. f_equal. unfold dstep. cbn [dgors flag locked socket opened trace].
    pose proof (nth_at (repeat (DGor (AtLock true) []) m) (repeat (DGor Idle [true]) n) (DGor Idle [true])) as Q. rewrite repeat_length in Q. rewrite Q.
    pose proof (set_at (repeat (DGor (AtLock true) []) m) (repeat (DGor Idle [true]) n) (DGor Idle [true]) (DGor (AtLock true) [])) as Q2. rewrite repeat_length in Q2. rewrite Q2.
    rewrite repeat_next. reflexivity.
Qed.
Lemma one_dials m l f so op t g : length g = m -> run dstep (DState f false so op t (g ++ DGor (AtLock true) [] :: l)) [m; m; m; m] =
  DState true false (Some (length op)) (op ++ [length op]) (t ++ [Returns m true]) (g ++ DGor Idle [] :: l).
Proof.
  intros <-.
  change [length g; length g; length g; length g] with ([length g] ++ [length g] ++ [length g] ++ [length g]). rewrite !run_app.
  assert (E1 : run dstep (DState f false so op t (g ++ DGor (AtLock true) [] :: l)) [length g] = DState f true so op t (g ++ DGor (AtDial true) [] :: l)) by (unfold run, dstep; cbn [dgors flag locked socket opened trace]; rewrite nth_at, set_at; reflexivity).
  rewrite E1. clear E1.
  assert (E2 : run dstep (DState f true so op t (g ++ DGor (AtDial true) [] :: l)) [length g] = DState f true so op t (g ++ DGor AtSet [] :: l)) by (unfold run, dstep; cbn [dgors flag locked socket opened trace]; rewrite nth_at, set_at; reflexivity).
  rewrite E2. clear E2.
  assert (E3 : run dstep (DState f true so op t (g ++ DGor AtSet [] :: l)) [length g] = DState true true (Some (length op)) (op ++ [length op]) t (g ++ DGor (AtUnlock true) [] :: l)) by (unfold run, dstep; cbn [dgors flag locked socket opened trace]; rewrite nth_at, set_at; reflexivity).
  rewrite E3. clear E3. unfold run, dstep. cbn [dgors flag locked socket opened trace]. rewrite nth_at, set_at. reflexivity.
Qed.
Lemma all_dial n : forall m f so op t, exists t' so' op' f', successes t' = successes t + n /\ length op' = length op + n /\ (0 < n -> so' = Some (length op + n - 1)) /\
  run dstep (DState f false so op t (repeat (DGor Idle []) m ++ repeat (DGor (AtLock true) []) n)) (flat_map (fun i => [i; i; i; i]) (seq m n)) = DState f' false so' op' t' (repeat (DGor Idle []) (m + n)).
Proof.
  induction n as [|n IH]; intros m f so op t.
  - exists t, so, op, f. cbn [seq flat_map run repeat]. rewrite app_nil_r, !Nat.add_0_r. repeat split; intros; lia.
  - cbn [seq flat_map repeat]. rewrite run_app, one_dials by apply repeat_length. rewrite repeat_next.
    destruct (IH (S m) true (Some (length op)) (op ++ [length op]) (t ++ [Returns m true])) as (t' & so' & op' & f' & S1 & S2 & S3 & S4). exists t', so', op', f'.
    rewrite S1, S2, S4, successes_app, app_length, <- Nat.add_succ_comm. cbn [successes length]. split; [lia|]. split; [lia|]. split; [|rewrite Nat.add_succ_comm; reflexivity].
    intros _. destruct n as [|n]; [|rewrite S3 by lia; f_equal; rewrite ?app_length; cbn [length]; lia].
    cbn [seq flat_map run] in S4. injection S4 as _ <- _ _ _. f_equal. lia.
Qed.
Lemma init_repeat n : dinit (repeat [true] n) = DState false false None [] [] (repeat (DGor Idle [true]) n).
Proof. unfold dinit. f_equal. induction n as [|n IH]; cbn [repeat map]; [reflexivity|f_equal; exact IH]. Qed.
