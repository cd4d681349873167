(** Histories: the metadata handed to the user, the subscription settings in force,
    connection sequences that nobody ends. *)
From Coq Require Import String Lia ZArith.
From stdpp Require Import gmap.
From Verif Require ConnectorModel.
From Verif Require Import Base BaseProofs GuidModel FormatModel FormatSpec FormatProofs StrModel CalModel ExprModel TableModel XmlModel XmlSpec XmlProofs2.
From Verif Require Import CompactModel CacheModel FrameModel FrameSpec FrameProofs SubscriberModel SubscriberSpec SubscriberProofs SubscriberProofs4 SubscriberProofs5 SubscriberProofs6 SubscriberProofs7 SubscriberProofs8 SubscriberProofs9.
From Verif Require Import SessionModel SessionSpec SessionProofs SessionProofs2 SessionProofs3 SessionProofs4 SessionProofs5 SessionProofs6.
Open Scope list_scope.
Open Scope Z_scope.

(** ** Metadata *)

Definition is_meta (k : task) : bool := match k with TMetadata _ => true | _ => false end.
Definition metas (l : list task) : nat := length (List.filter is_meta l).
Lemma metas_app a b : metas (a ++ b) = (metas a + metas b)%nat.
Proof. unfold metas. rewrite List.filter_app, app_length. reflexivity. Qed.
Lemma metas_callbacks E b p : (metas (callbacks E b p) <= if ((code_of p =? 0x80) && (command_of p =? 1))%Z then 1 else 0)%nat.
Proof.
  unfold callbacks. destruct (_ && _); [destruct b; [destruct (gunzip _ _)|]; cbn; lia|]. destruct (_ =? _); [cbn; lia|]. destruct (_ =? _); cbn; lia.
Qed.
Lemma nth_split_task (l : list task) : forall i k, nth_error l i = Some k -> l = firstn i l ++ k :: skipn (S i) l.
Proof. induction l as [|x l IH]; intros [|i] k H; try discriminate; [injection H as ->; reflexivity|]. cbn. f_equal. apply IH, H. Qed.
Lemma is_packet_meta a p : is_packet a = Some p -> metadata_packet a = (code_of p =? 0x80) && (command_of p =? 1).
Proof. destruct a; try discriminate; intros [= ->]; reflexivity. Qed.
Lemma count_step E a s s' ev : cbc_ok (se_env E) -> spacket_ok a -> good (sn_ds s) -> sact_step E s a = Ok (s', ev) ->
  (length (metadata_seen ev) + waiting_metadata s' <= waiting_metadata s + (if metadata_packet a then 1 else 0))%nat.
Proof.
  intros Bc Bp G H. apply action_cases in H as (_ & _ & [(-> & [P|(p & A & P)])|(i & k & -> & N & P & K)]); try assumption; unfold waiting_metadata; fold is_meta; change (length (List.filter is_meta (sn_pending s'))) with (metas (sn_pending s')); change (length (List.filter is_meta (sn_pending s))) with (metas (sn_pending s)); rewrite P.
  - cbn. lia.
  - rewrite metas_app. rewrite (is_packet_meta a p A). pose proof (metas_callbacks E (CompressMetadata (sn_ds s)) p). cbn [length]. lia.
  - apply nth_split_task in N. rewrite N at 3. rewrite !metas_app. unfold metas at 4. cbn [List.filter]. destruct k as [m| |m]; [destruct K as (ds & -> & _)|rewrite K|rewrite K]; cbn [is_meta length metadata_packet]; fold (metas (skipn (S i) (sn_pending s))); unfold metas; lia.
Qed.
Lemma count_run E : cbc_ok (se_env E) -> forall acts s s' ev, Forall spacket_ok acts -> good (sn_ds s) -> srun E s acts = Ok (s', ev) ->
  (length (metadata_seen ev) + waiting_metadata s' <= waiting_metadata s + length (List.filter metadata_packet acts))%nat.
Proof.
  intros Bc. induction acts as [|a acts IH]; intros s s' ev F G H.
  - cbn in H. injection H as <- <-. cbn. lia.
  - apply Forall_cons_1 in F as (H3 & H4). apply srun_cons in H as (s1 & ev1 & ev2 & H1 & H2 & ->). pose proof (count_step _ _ _ _ _ Bc H3 G H1) as C. destruct (action_cases _ _ _ _ _ Bc H3 G H1) as (G1 & _).
    specialize (IH _ _ _ H4 G1 H2). rewrite metadata_seen_app, app_length. cbn [List.filter]. destruct (metadata_packet a); cbn [length]; lia.
Qed.
Lemma fresh_good st0 : good (sn_ds (NewSubscriber st0)).
Proof. apply new_good. Qed.
Lemma history_count E st0 acts s ev : history E st0 acts s ev -> (length (metadata_seen ev) + waiting_metadata s <= length (List.filter metadata_packet acts))%nat.
Proof. intros (Bc & Bp & H). pose proof (count_run E Bc _ _ _ _ Bp (fresh_good st0) H) as C. change (waiting_metadata (NewSubscriber st0)) with 0%nat in C. lia. Qed.

(** Where the metadata that the user sees comes from. *)
Section source.
Context (E : senv) (acts : list sact) (Bc : cbc_ok (se_env E)).
Definition from_acts (k : task) : Prop := match k with TMetadata m => received_metadata E acts m | _ => True end.
Definition waiting_ok (s : session) : Prop := good (sn_ds s) /\ Forall from_acts (sn_pending s).
Definition seen_ok (e : uevent) : Prop := match e with UMetadata ds => exists m, received_metadata E acts m /\ shown E m ds | _ => True end.
Lemma seen_all ev : (forall ds, In ds (metadata_seen ev) -> exists m, received_metadata E acts m /\ shown E m ds) -> Forall seen_ok ev.
Proof.
  intros H. rewrite List.Forall_forall. intros e I. destruct e; try exact Logic.I. apply H. unfold metadata_seen. apply in_flat_map. eexists. split; [exact I|]. left. reflexivity.
Qed.
Lemma from_callbacks a p b : In a acts -> is_packet a = Some p -> Forall from_acts (callbacks E b p).
Proof.
  intros A P. pose proof (is_packet_meta a p P) as M. unfold callbacks. destruct (_ && _).
  - assert (R : forall m, m = skipn 6 p \/ gunzip (se_env E) (skipn 6 p) = Some m -> received_metadata E acts m).
    { intros m Hm. exists a, p. split; [exact A|]. split; [destruct a as [ | | | | |pool p'|pool p'| | | | | ]; try discriminate; injection P as ->; exists pool; auto|]. split; [exact M|exact Hm]. }
    destruct b; [destruct (gunzip _ _) as [m|] eqn:Gz|]; repeat constructor; apply R; auto.
  - destruct (_ =? _); [repeat constructor|]. destruct (_ =? _); repeat constructor.
Qed.
Lemma source_step a s : In a acts /\ spacket_ok a -> waiting_ok s -> sok waiting_ok seen_ok (sact_step E s a).
Proof.
  intros (A & Bp) (G & W) s' ev H. destruct (action_cases E a s s' ev Bc Bp G H) as (G' & _ & [(M & P)|(i & k & -> & N & P & K)]).
  - split; [split; [exact G'|]|apply seen_all; rewrite M; intros ds []]. destruct P as [->|(p & Q & ->)]; [exact W|]. apply Forall_app. split; [exact W|]. exact (from_callbacks a p _ A Q).
  - apply nth_split_task in N. assert (W' : Forall from_acts (firstn i (sn_pending s) ++ k :: skipn (S i) (sn_pending s))) by (rewrite <- N; exact W). apply Forall_app in W' as (W1 & W2). inversion W2; subst.
    split; [split; [exact G'|rewrite P; apply Forall_app; auto]|]. apply seen_all. destruct k as [m| |m]; [destruct K as (ds & -> & K)|rewrite K; intros ds []..]. intros ds' [<-|[]]. exists m. auto.
Qed.
End source.
Lemma history_source E st0 acts s ev ds : history E st0 acts s ev -> In ds (metadata_seen ev) -> exists m, received_metadata E acts m /\ shown E m ds.
Proof.
  intros (Bc & Bp & H) I.
  destruct (srun_sok E (fun a => In a acts /\ spacket_ok a) (waiting_ok E acts) (seen_ok E acts) (fun a s => source_step E acts Bc a s) acts (NewSubscriber st0)) with (s := s) (ev := ev) as (_ & Q); [|split; [apply fresh_good|constructor]|exact H|].
  - rewrite List.Forall_forall in *. auto.
  - rewrite List.Forall_forall in Q. unfold metadata_seen in I. apply in_flat_map in I as (e & I1 & I2). specialize (Q e I1). destruct e; try contradiction. destruct I2 as [->|[]]. exact Q.
Qed.

(** ** The subscription settings in force *)

Lemma carries_payload st0 filter u st st' : carries st0 filter u st -> carries st0 filter u st' -> subscribe_payload st = subscribe_payload st'.
Proof.
  intros (A1 & A2 & A3 & A4 & A4' & A5 & A6 & A7 & A8 & A9 & A10 & A11 & A12 & A13 & A14 & A15 & A16 & A17 & A18 & A19) (B1 & B2 & B3 & B4 & B4' & B5 & B6 & B7 & B8 & B9 & B10 & B11 & B12 & B13 & B14 & B15 & B16 & B17 & B18 & B19).
  destruct (Z_le_gt_dec (u_UdpPort u) 0) as [L|L].
  - specialize (A4' L). specialize (B4' L). clear A4 B4. destruct st, st'. cbn in *. subst. reflexivity.
  - destruct (A4 L) as (A & A'). destruct (B4 L) as (B & B'). clear A4 B4 A4' B4'. destruct st, st'. cbn in *. subst. reflexivity.
Qed.
Lemma in_force E : cbc_ok (se_env E) -> forall l s s' ev, Forall spacket_ok l -> (forall f u, ~ In (SSubscribe f u) l) -> good (sn_ds s) -> srun E s l = Ok (s', ev) ->
  subscription (sn_ds s') = subscription (sn_ds s) /\ Forall (by_settings (subscription (sn_ds s))) (frames ev).
Proof.
  intros Bc. induction l as [|a l IH]; intros s s' ev F N G H.
  - cbn in H. injection H as <- <-. split; [reflexivity|constructor].
  - apply Forall_cons_1 in F as (H3 & H4). apply srun_cons in H as (s1 & ev1 & ev2 & H1 & H2 & ->). destruct (action_cases _ _ _ _ _ Bc H3 G H1) as (G1 & S & _).
    destruct S as (S1 & S2); [intros f u ->; apply (N f u); left; reflexivity|]. destruct (IH s1 s' ev2 H4) as (S3 & S4); [intros f u I; apply (N f u); right; exact I|exact G1|exact H2|].
    split; [congruence|]. rewrite frames_app. apply Forall_app. split; [exact S2|]. rewrite <- S1. exact S4.
Qed.
Lemma history_in_force E st0 l1 f u l2 s ev : history E st0 (l1 ++ SSubscribe f u :: l2) s ev -> (forall f u, ~ In (SSubscribe f u) l2) ->
  exists s1 ev1 ev2, history E st0 l1 s1 ev1 /\ ev = ev1 ++ ev2 /\ carries st0 f (settings_given u) (subscription (sn_ds s)) /\ Forall (by_settings (subscription (sn_ds s))) (frames ev2).
Proof.
  intros (Bc & Bp & H) N. apply Forall_app in Bp as (B1 & B2). apply Forall_cons_1 in B2 as (_ & H4). apply srun_app in H as (s1 & ev1 & ev2 & H1 & H2 & ->).
  exists s1, ev1, ev2. assert (Hs : history E st0 l1 s1 ev1) by (split; [exact Bc|split; [exact B1|exact H1]]). split; [exact Hs|]. split; [reflexivity|].
  apply srun_cons in H2 as (s2 & e1 & e2 & D & H2 & ->). apply history_inv in Hs as (I & _). cbn [sact_step] in D. pose proof (asked_info _ _ _ (i_asked _ _ _ I)) as (A1 & A2 & A3).
  apply still_session_Subscribe in D as (G2 & _ & _ & S2 & F2); [|apply I]. destruct (in_force E Bc l2 s2 s e2 H4 N G2 H2) as (S3 & F3). rewrite S3.
  split; [rewrite S2; apply carries_of; assumption|]. rewrite frames_app. apply Forall_app. auto.
Qed.

(** ** Histories that nobody ends *)

Definition free (s : session) : Prop := sn_cancel s = false /\ ConnectorModel.maxRetries (sn_conn s) = -1 /\ (sn_config s = NewConfig \/ c_MaxRetries (sn_config s) = -1).
Lemma free_ctl s1 s2 : ctl s1 = ctl s2 -> free s2 -> free s1.
Proof. intros H. apply ctl_eq in H as (A & _ & B & _ & _ & _ & C & _). unfold free. rewrite A, B, C. auto. Qed.
Definition never_ends (st : ConnectorModel.status) : Prop := st = ConnectorModel.Success \/ st = ConnectorModel.Running.
Lemma loop_free c : ConnectorModel.maxRetries c = -1 -> forall dials auto n es st m, (forall d, In d dials -> d <> ConnectorModel.Fails true) ->
  ConnectorModel.connect_loop c auto n dials = (es, st, m) -> never_ends st.
Proof.
  intros M. induction dials as [|d dials IH]; intros auto n es st m N H; cbn [ConnectorModel.connect_loop] in H; rewrite M in H; cbn [Z.eqb negb andb] in H.
  - injection H as <- <- <-. right. reflexivity.
  - assert (N' : forall d, In d dials -> d <> ConnectorModel.Fails true) by (intros d' I; apply N; right; exact I).
    destruct d as [|cn]; [injection H as <- <- <-; left; reflexivity|]. destruct cn; [exfalso; apply (N (ConnectorModel.Fails true)); [left|]; reflexivity|].
    destruct (0 <? _); destruct (ConnectorModel.connect_loop _ _ _ dials) as [[es' st'] m'] eqn:L; injection H as <- <- <-; exact (IH _ _ _ _ _ N' L).
Qed.
Lemma keeps_free s k : keeps s k -> free s -> sok free (fun _ => True) k.
Proof. intros K J. apply (sok_weaken _ calm); [auto|]. apply (keeps_sok _ s); [exact free_ctl|exact J|exact K]. Qed.
Lemma after_dials_conn s evs : sn_conn (after_dials s evs) = sn_conn s.
Proof. unfold after_dials. destruct (existsb _ _); reflexivity. Qed.
Lemma free_after s evs n : free s -> free (with_attempt (after_dials s evs) n).
Proof. intros (A & B & C). destruct (after_dials_ctl s evs) as (_ & K1 & _ & _ & _ & K2 & _). exact (conj (eq_trans K1 A) (conj (eq_trans (f_equal _ (after_dials_conn s evs)) B) (eq_ind_r (fun c => c = NewConfig \/ c_MaxRetries c = -1) C K2))). Qed.
Lemma undisturbed_step E a s : undisturbed a -> free s -> sok free (fun _ => True) (sact_step E s a).
Proof.
  intros U J. destruct (connecting a) eqn:CA; [|apply (keeps_free s), J; apply keeps_step, CA].
  destruct a as [a c d|a c ok| | |cn d| | | | | | | ]; try discriminate; cbn [sact_step undisturbed] in *.
  - destruct U as (N & c' & -> & M). unfold Dial. destruct (_ || _); [apply sok_says; [exact J|apply all_true]|]. destruct (parse_address a) as [[host port]|]; [|apply sok_says; [exact J|apply all_true]].
    destruct (configure_ctl s (Some c')) as (_ & K2 & _ & _ & _ & _ & _ & K8). unfold session_connect. cbv zeta. set (conn := ConnectorModel.Settings _ _ _). assert (Mc : ConnectorModel.maxRetries conn = -1) by (unfold conn; rewrite K8; exact M).
    set (s1 := with_connector _ conn _). assert (J1 : free s1) by (split; [exact (eq_trans K2 (proj1 J))|]; split; [exact Mc|right; exact M]). clearbody s1. destruct (sn_cancel s1); [apply sok_says; [exact J1|apply all_true]|].
    set (s2 := if c_AutoReconnect _ then _ else _). assert (J2 : free s2) by (unfold s2; destruct (c_AutoReconnect _); exact J1). clearbody s2.
    destruct (ConnectorModel.Connect _ _ _) as [[evs st] n] eqn:L. apply (loop_free conn Mc) in L; [|exact N].
    apply (sok_andthen free); [apply sok_says; [apply free_after, J2|apply all_true]|]. intros s3 J3. destruct L as [->| ->]; [|apply sok_quiet, J3].
    apply (sok_andthen free); [apply (sok_andthen free); [apply (keeps_free s3), J3; apply keeps_established|intros s4 J4; apply (keeps_free s4), J4; apply keeps_handleConnect]|]. intros s4 J4. apply sok_says; [exact J4|apply all_true].
  - destruct U as (c' & -> & M). unfold Listen. destruct (_ || _); [apply sok_says; [exact J|apply all_true]|]. destruct (parse_address a) as [[host port]|]; [|apply sok_says; [exact J|apply all_true]].
    apply sok_says; [|apply all_true]. destruct J as (J1 & J2 & _). destruct ok; (split; [exact J1|split; [exact J2|right; exact M]]).
  - unfold Lost. destruct (negb _); [apply sok_quiet, J|]. apply (sok_andthen free); [apply (keeps_free s), J; apply keeps_lift|]. intros s1 J1. apply sok_quiet. exact J1.
  - destruct U as (-> & N). unfold Reconnect. destruct (_ || _ || _); [apply sok_quiet, J|]. destruct (ConnectorModel.reconnect _ _ _ _ _) as [[evs st] n] eqn:L.
    assert (R : never_ends st).
    { unfold ConnectorModel.reconnect in L. cbv zeta in L. pose proof (proj1 (proj2 J)) as M. rewrite M in L. cbn [Z.eqb negb andb] in L. destruct (ConnectorModel.connect_loop _ _ _ _) as [[es' st'] m'] eqn:L'. injection L as <- <- <-. exact (loop_free _ M _ _ _ _ _ _ N L'). }
    apply (sok_andthen free); [apply sok_says; [exact (free_after s evs n J)|apply all_true]|]. intros s3 J3. destruct R as [->| ->]; [|apply sok_quiet, J3].
    apply (sok_andthen free); [apply (keeps_free s3), J3; apply keeps_established|intros s4 J4; apply (keeps_free s4), J4; apply keeps_handleConnect].
  - contradiction.
Qed.
Lemma history_free E st0 acts s ev : history E st0 acts s ev -> (forall a, In a acts -> undisturbed a) -> free s.
Proof.
  intros (_ & _ & H) N. refine (proj1 (srun_sok E undisturbed free (fun _ => True) (fun a s => undisturbed_step E a s) acts _ _ _ s ev H)); [rewrite List.Forall_forall; exact N|].
  split; [reflexivity|]. split; [reflexivity|left; reflexivity].
Qed.
Definition fails (n : nat) : list ConnectorModel.dial := repeat (ConnectorModel.Fails false) n.
Lemma dialled_seen t evs : dialled (map (seen t) evs) = repeat t (length (List.filter is_dial evs)).
Proof. induction evs as [|[] evs IH]; [reflexivity|cbn; f_equal; exact IH|exact IH]. Qed.
Lemma loop_fails c : ConnectorModel.maxRetries c = -1 -> forall n auto k, exists es m, ConnectorModel.connect_loop c auto k (fails n ++ [ConnectorModel.Accepts]) = (es, ConnectorModel.Success, m) /\ length (List.filter is_dial es) = S n.
Proof.
  intros M. induction n as [|n IH]; intros auto k; cbn [fails repeat app ConnectorModel.connect_loop]; rewrite M; cbn [Z.eqb negb andb].
  - eexists _, _. split; reflexivity.
  - destruct (0 <? _); [destruct (IH true (if auto then i32 (k + 1) else 0)) as (es & m & L & F)|destruct (IH auto (if auto then i32 (k + 1) else 0)) as (es & m & L & F)]; unfold fails in L; rewrite L; eexists _, _; (split; [reflexivity|]); cbn; lia.
Qed.
Lemma dialled_calm ev : Forall calm ev -> dialled ev = [].
Proof. induction 1 as [|e ev H _ IH]; [reflexivity|]. destruct e; try contradiction; exact IH. Qed.
Lemma established_connected s s' ev : good (sn_ds s) -> andthen (established s) handleConnect = Ok (s', ev) -> connected (sn_ds s') = true.
Proof.
  assert (HC : forall s s' ev, good (sn_ds s) -> connected (sn_ds s) = true -> handleConnect s = Ok (s', ev) -> connected (sn_ds s') = true).
  { clear. intros s s' ev G C H. apply andthen_inv in H as (s1 & e1 & e2 & [= <- <-] & H & ->). destruct (c_AutoRequestMetadata _).
    - apply lift_inv in H as (d & e & K & -> & _). apply low_send in K as (_ & K & _); [|exact G]. exact (eq_trans K C).
    - destruct (c_AutoSubscribe _); [|injection H as <- <-; exact C]. apply lift_inv in H as (d & e & K & -> & _). apply Subscribe_exact in K as (_ & _ & K & _); [|exact G]. exact (eq_trans K C). }
  intros G H. apply andthen_inv in H as (s1 & e1 & e2 & H1 & H2 & ->). destruct (proj1 (still_established s G) _ _ H1) as (G1 & _).
  refine (HC _ _ _ G1 _ H2). apply andthen_inv in H1 as (s2 & e3 & e4 & H1 & H3 & ->). apply lift_inv in H1 as (d & e & K & -> & ->). apply establish_exact in K as (Gd & _ & Cd & _); [|exact G].
  destruct (sn_handler _); [exact (HC (with_pending (with_ds s d) _) _ _ Gd Cd H3)|injection H3 as <- <-; exact Cd].
Qed.
(** A number has one decimal text. *)
Lemma dec_snoc l c : dec_value (l ++ [c]) = 10 * dec_value l + (c - 48).
Proof. unfold dec_value. rewrite fold_left_app. reflexivity. Qed.
Lemma dec_ge0 l : Forall is_digit l -> 0 <= dec_value l.
Proof. intros F. exact (dec_value_nonneg l 0 ltac:(lia) F). Qed.
Lemma dec_unique : forall l l', Forall is_digit l -> Forall is_digit l' -> length l = length l' -> dec_value l = dec_value l' -> l = l'.
Proof.
  induction l as [|c l IH] using rev_ind; intros l' F F' N V; [destruct l'; [reflexivity|discriminate]|].
  destruct l' as [|c' l' _] using rev_ind; [rewrite app_length in N; cbn in N; lia|]. rewrite !app_length in N. cbn in N. apply Forall_app in F as (F & Fc). apply Forall_app in F' as (F' & Fc').
  inversion Fc; subst. inversion Fc'; subst. unfold is_digit in *. rewrite !dec_snoc in V. f_equal; [apply IH; [assumption..|lia|lia]|f_equal; lia].
Qed.
Lemma dec_lt l : Forall is_digit l -> dec_value l < 10 ^ len l.
Proof.
  induction l as [|c l IH] using rev_ind; intros F; [reflexivity|]. apply Forall_app in F as (F & Fc). inversion Fc; subst. unfold is_digit in *. rewrite dec_snoc. specialize (IH F).
  unfold len in *. rewrite app_length, Nat2Z.inj_add. cbn [length Z.of_nat]. rewrite Z.pow_add_r by lia. change (10 ^ Z.of_nat 1) with 10. lia.
Qed.
Lemma dec_ge l : Forall is_digit l -> hd 0 l <> 48 -> l <> [] -> 10 ^ (len l - 1) <= dec_value l.
Proof.
  destruct l as [|c l]; [congruence|]. intros F H _. inversion F; subst. cbn in H. rewrite dec_value_cons. unfold is_digit in *. pose proof (dec_ge0 l H3). unfold len in *. cbn [length]. replace (Z.of_nat (S (length l)) - 1) with (Z.of_nat (length l)) by lia. nia.
Qed.
Lemma is_decimal_unique x l l' : is_decimal_of x l -> is_decimal_of x l' -> l = l'.
Proof.
  assert (W : forall x l l', is_decimal_of x l -> is_decimal_of x l' -> (length l < length l')%nat -> False).
  { clear. intros x l l' (F & V & N & _) (F' & V' & N' & H') L. assert (H : hd 0 l' <> 48) by (destruct H' as [H'|H']; [destruct l; cbn in *; [congruence|lia]|exact H']).
    pose proof (dec_lt l F). pose proof (dec_ge l' F' H N'). pose proof (Z.pow_le_mono_r 10 (len l) (len l' - 1) ltac:(lia) ltac:(unfold len; lia)). lia. }
  intros A B. destruct (lt_eq_lt_dec (length l) (length l')) as [[L|L]|L]; [exfalso; exact (W _ _ _ A B L)| |exfalso; exact (W _ _ _ B A L)].
  destruct A as (F & V & _), B as (F' & V' & _). apply dec_unique; try assumption. congruence.
Qed.
Lemma Dial_free s a host port t c n s' ev : good (sn_ds s) -> free s -> connected (sn_ds s) = false -> sn_listening s = false -> address_of a host port -> target_of host port t -> c_MaxRetries c = -1 ->
  Dial s a (Some c) (fails n ++ [ConnectorModel.Accepts]) = Ok (s', ev) -> dialled ev = repeat t (S n) /\ returned ev = [true] /\ connected (sn_ds s') = true.
Proof.
  intros G J C L A T M H. unfold Dial in H. rewrite C, L in H. cbn [orb] in H.
  pose proof A as A0. apply parse_address_spec in A0. rewrite A0 in H.
  destruct (configure_ctl s (Some c)) as (_ & K2 & _ & _ & _ & _ & _ & K8). assert (Gc : good (sn_ds (configure s (Some c)))) by exact G. revert H K2 K8 Gc. generalize (configure s (Some c)). intros s0 H K2 K8 Gc.
  unfold session_connect in H. cbv zeta in H. cbn [sn_cancel with_connector] in H. rewrite K2, (proj1 J) in H.
  set (conn := ConnectorModel.Settings _ _ _) in H. assert (Mc : ConnectorModel.maxRetries conn = -1) by (unfold conn; rewrite K8; exact M).
  set (s2 := if c_AutoReconnect _ then _ else _) in H. assert (J2 : good (sn_ds s2)) by (unfold s2; destruct (c_AutoReconnect _); exact Gc). clearbody s2.
  destruct (loop_fails conn Mc n false (sn_attempt s2)) as (es & m & Lp & Fl). unfold ConnectorModel.Connect in H. rewrite Lp in H.
  apply andthen_inv in H as (s3 & e1 & e2 & X & H & ->). unfold says in X. injection X as <- <-. set (target := host ++ [58] ++ FormatInt port) in *.
  assert (Tt : target = t).
  { destruct T as (digits & D & ->). unfold target. f_equal. f_equal. destruct A as (text & _ & (dg & _ & _ & _ & _ & P)). apply (is_decimal_unique port); [apply FormatInt_port; lia|exact D]. }
  set (s3 := with_attempt (after_dials s2 es) m) in *. assert (G3 : good (sn_ds s3)) by exact (good_after s2 es J2). clearbody s3.
  apply andthen_inv in H as (s4 & e3 & e4 & H & X & ->). unfold says in X. injection X as <- <-.
  pose proof (keeps_andthen s3 _ _ (keeps_established s3) keeps_handleConnect s4 e3 H) as (_ & Q).
  rewrite !dialled_app, !returned_app, dialled_seen, Fl, (dialled_calm _ Q), (returned_calm _ Q). change (host ++ 58 :: FormatInt port) with target. rewrite Tt, (proj2 (proj2 (seen_frames t es))). cbn [dialled flat_map app returned]. rewrite !app_nil_r.
  split; [reflexivity|]. split; [reflexivity|]. exact (established_connected s3 s4 e3 G3 H).
Qed.

(** ** The configuration in force *)

Lemma config_kept_step E a s : config_of a = None -> sok (fun s' => sn_config s' = sn_config s) (fun _ => True) (sact_step E s a).
Proof.
  intros A. set (I := fun s' : session => sn_config s' = sn_config s).
  assert (W : forall s1 k, I s1 -> keeps s1 k -> sok I (fun _ => True) k).
  { intros s1 k J K. apply (sok_weaken _ calm); [auto|]. apply (keeps_sok _ s1); [|exact J|exact K]. intros s2 s3 H. apply ctl_eq in H as (H & _). unfold I. rewrite H. auto. }
  assert (D : forall s1, I s1 -> sok I (fun _ => True) (Disconnect s1)).
  { intros s1 J s2 ev H. apply ctl_Disconnect in H as (C & _). apply ctl_eq in C as (C & _). split; [exact (eq_trans C J)|apply all_true]. }
  assert (J : I s) by reflexivity. destruct (connecting a) eqn:CA; [|apply (W s _ J), keeps_step, CA].
  destruct a as [a c d|a c ok| | |cn d| | | | | | | ]; try discriminate; cbn [sact_step].
  - unfold Lost. destruct (negb _); [apply sok_quiet, J|]. apply (sok_andthen I); [apply (W s _ J), keeps_lift|]. intros s1 J1. apply sok_quiet. exact J1.
  - unfold Reconnect. destruct (_ || _ || _); [apply sok_quiet, J|]. destruct (ConnectorModel.reconnect _ _ _ _ _) as [[evs st] n].
    apply (sok_andthen I); [apply sok_says; [|apply all_true]; exact (proj1 (proj2 (proj2 (proj2 (proj2 (proj2 (after_dials_ctl s evs)))))))|]. intros s1 J1. destruct st.
    + apply (sok_andthen I); [apply (W s1 _ J1), keeps_established|]. intros s2 J2. apply (W s2 _ J2), keeps_handleConnect.
    + destruct evs; [apply sok_says; [exact J1|apply all_true]|]. apply (sok_andthen I); [apply D, J1|]. intros s2 J2. apply sok_says; [exact J2|apply all_true].
    + apply D, J1.
    + apply sok_quiet, J1.
  - apply D, J.
Qed.
Lemma config_kept E l s s' ev : (forall a, In a l -> config_of a = None) -> srun E s l = Ok (s', ev) -> sn_config s' = sn_config s.
Proof.
  intros N H. set (c := sn_config s). refine (proj1 (srun_sok E (fun a => config_of a = None) (fun s' => sn_config s' = c) (fun _ => True) _ l s _ eq_refl s' ev H)); [|rewrite List.Forall_forall; exact N].
  intros a s1 A J s2 e2 K. destruct (config_kept_step E a s1 A s2 e2 K) as (Q & R). split; [congruence|exact R].
Qed.
Lemma config_connect s host port dials s' ev : session_connect s host port dials = Ok (s', ev) -> sn_config s' = sn_config s.
Proof.
  set (I := fun s' : session => sn_config s' = sn_config s).
  assert (W : forall s1 k, I s1 -> keeps s1 k -> sok I (fun _ => True) k).
  { intros s1 k J K. apply (sok_weaken _ calm); [auto|]. apply (keeps_sok _ s1); [|exact J|exact K]. intros s2 s3 H. apply ctl_eq in H as (H & _). unfold I. rewrite H. auto. }
  assert (D : forall s1, I s1 -> sok I (fun _ => True) (Disconnect s1)).
  { intros s1 J s2 ev' H. apply ctl_Disconnect in H as (C & _). apply ctl_eq in C as (C & _). split; [exact (eq_trans C J)|apply all_true]. }
  intros H. refine (proj1 ((_ : sok I (fun _ => True) (session_connect s host port dials)) s' ev H)). clear H. unfold session_connect. cbv zeta.
  set (s1 := with_connector s _ _). assert (J1 : I s1) by reflexivity. clearbody s1. destruct (sn_cancel s1); [apply sok_says; [exact J1|apply all_true]|].
  set (s2 := if c_AutoReconnect _ then _ else _). assert (J2 : I s2) by (unfold s2; destruct (c_AutoReconnect _); exact J1). clearbody s2. destruct (ConnectorModel.Connect _ _ _) as [[evs st] n].
  apply (sok_andthen I); [apply sok_says; [|apply all_true]; exact (eq_trans (proj1 (proj2 (proj2 (proj2 (proj2 (proj2 (after_dials_ctl s2 evs))))))) J2)|]. intros s3 J3. destruct st.
  - apply (sok_andthen I); [apply (sok_andthen I); [apply (W s3 _ J3), keeps_established|intros s4 J4; apply (W s4 _ J4), keeps_handleConnect]|]. intros s4 J4. apply sok_says; [exact J4|apply all_true].
  - apply sok_says; [exact J3|apply all_true].
  - apply (sok_andthen I); [apply D, J3|]. intros s4 J4. apply sok_says; [exact J4|apply all_true].
  - apply sok_quiet, J3.
Qed.
Lemma config_set E s a c d s' ev host port : connected (sn_ds s) = false -> sn_listening s = false -> address_of a host port ->
  sact_step E s (SDial a (Some c) d) = Ok (s', ev) -> sn_config s' = c.
Proof.
  intros C L A H. cbn [sact_step] in H. unfold Dial in H. rewrite C, L in H. cbn [orb] in H. apply parse_address_spec in A. rewrite A in H. apply config_connect in H. rewrite H. reflexivity.
Qed.

(** ** A second sequence after one that gave up *)

Lemma Dial_again s a c dials s1 ev1 : Dial s a (Some c) dials = Ok (s1, ev1) -> dialled ev1 <> [] -> returned ev1 = [false] ->
  sn_cancel s1 = true \/ (c_MaxRetries c <> -1 /\ c_MaxRetries c <= sn_attempt s1).
Proof.
  intros H D R. unfold Dial in H. destruct (_ || _); [injection H as <- <-; contradiction D; reflexivity|]. destruct (parse_address a) as [[host port]|]; [|injection H as <- <-; contradiction D; reflexivity].
  destruct (configure_ctl s (Some c)) as (_ & _ & _ & _ & _ & _ & _ & K8). revert H K8. generalize (configure s (Some c)). intros s0 H K8. unfold session_connect in H. cbv zeta in H.
  destruct (sn_cancel _); [injection H as <- <-; contradiction D; reflexivity|]. rewrite K8 in H. set (conn := ConnectorModel.Settings _ _ _) in H. set (s2 := if c_AutoReconnect c then _ else _) in H. clearbody s2.
  destruct (ConnectorModel.Connect _ _ _) as [[evs st] n] eqn:L. apply andthen_inv in H as (s3 & e1 & e2 & X & H & ->). unfold says in X. injection X as <- <-. set (s3 := with_attempt _ n) in H.
  destruct st.
  - apply andthen_inv in H as (s4 & e3 & e4 & H & X & ->). unfold says in X. injection X as <- <-. pose proof (keeps_andthen s3 _ _ (keeps_established s3) keeps_handleConnect s4 e3 H) as (_ & Q).
    rewrite !returned_app, (returned_calm _ Q), (proj2 (proj2 (seen_frames _ evs))) in R. discriminate.
  - injection H as <- <-. right. apply gave_up in L as (L1 & L2). split; [exact L1|exact L2].
  - apply andthen_inv in H as (s4 & e3 & e4 & H & X & ->). unfold says in X. injection X as <- <-. left. apply ctl_Disconnect in H as (_ & (H & _) & _). exact H.
  - injection H as <- <-. rewrite app_nil_r in R. rewrite (proj2 (proj2 (seen_frames _ evs))) in R. discriminate.
Qed.
Lemma Dial_gives_up s a c dials s1 ev1 : (c_MaxRetries c <> -1 /\ c_MaxRetries c <= sn_attempt s) -> Dial s a (Some c) dials = Ok (s1, ev1) -> ev1 = [UReturn false].
Proof.
  intros (M1 & M2) H. unfold Dial in H. destruct (_ || _); [injection H as <- <-; reflexivity|]. destruct (parse_address a) as [[host port]|]; [|injection H as <- <-; reflexivity].
  destruct (configure_ctl s (Some c)) as (_ & _ & K3 & _ & _ & _ & _ & K8). revert H K3 K8. generalize (configure s (Some c)). intros s0 H K3 K8. unfold session_connect in H. cbv zeta in H.
  destruct (sn_cancel _); [injection H as <- <-; reflexivity|]. rewrite K8 in H. set (conn := ConnectorModel.Settings _ _ _) in H. set (s2 := if c_AutoReconnect c then _ else _) in H.
  assert (Ka : sn_attempt s2 = sn_attempt s) by (rewrite <- K3; unfold s2; destruct (c_AutoReconnect c); reflexivity). clearbody s2. unfold ConnectorModel.Connect in H. rewrite (gives_up_at_once conn false (sn_attempt s2)) in H; [|exact M1|rewrite Ka; exact M2].
  injection H as <- <-. reflexivity.
Qed.
