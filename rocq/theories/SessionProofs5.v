(** Received metadata: the records of the signals. *)
From Coq Require Import String Lia ZArith.
From stdpp Require Import gmap.
From Verif Require ConnectorModel.
From Verif Require Import Base BaseProofs GuidModel FormatModel FormatSpec FormatProofs StrModel CalModel ExprModel TableModel XmlModel XmlSpec XmlProofs2.
From Verif Require Import CompactModel CacheModel FrameModel FrameSpec FrameProofs SubscriberModel SubscriberSpec SubscriberProofs SubscriberProofs4 SubscriberProofs5 SubscriberProofs8 SubscriberProofs9.
From Verif Require Import SessionModel SessionSpec SessionProofs SessionProofs2 SessionProofs3 SessionProofs4.
Open Scope list_scope.
Open Scope Z_scope.

(** ** Measurement keys *)

Lemma uint10_number : forall s a, 0 <= a <= 2 ^ 64 - 1 ->
  (Forall is_digit s /\ uint10_from s a = Z.min (fold_left (fun a c => 10 * a + (c - 48)) s a) (2 ^ 64 - 1)) \/
  (exists digits c rest, s = digits ++ c :: rest /\ Forall is_digit digits /\ ~ is_digit c /\
     uint10_from s a = if 2 ^ 64 <=? fold_left (fun a c => 10 * a + (c - 48)) digits a then 2 ^ 64 - 1 else 0).
Proof.
  induction s as [|c s IH]; intros a A; cbn [uint10_from].
  - left. split; [constructor|]. cbn [fold_left]. lia.
  - destruct (digit_byte c) eqn:D.
    + assert (Dc : is_digit c) by (unfold digit_byte in D; unfold is_digit; lia). cbv zeta. destruct (2 ^ 64 - 1 <? 10 * a + (c - 48)) eqn:O.
      * assert (K : forall l, Forall is_digit l -> 2 ^ 64 <= fold_left (fun a c => 10 * a + (c - 48)) l (10 * a + (c - 48))).
        { intros l F. pose proof (dec_value_nonneg l (10 * a + (c - 48)) ltac:(unfold is_digit in Dc; lia) F). lia. }
        assert (S : Forall is_digit s \/ exists digits c' rest, s = digits ++ c' :: rest /\ Forall is_digit digits /\ ~ is_digit c').
        { clear. induction s as [|b s [IH|(d & c' & r & -> & F & N)]]; [left; constructor|..]; (destruct (digit_byte b) eqn:B; [|right; exists [], b, (s); split; [reflexivity|]; split; [constructor|]; unfold digit_byte in B; unfold is_digit; lia] ||
            (destruct (digit_byte b) eqn:B; [|right; exists [], b, (d ++ c' :: r); split; [reflexivity|]; split; [constructor|]; unfold digit_byte in B; unfold is_digit; lia])).
          - left. constructor; [unfold digit_byte in B; unfold is_digit; lia|exact IH].
          - right. exists (b :: d), c', r. split; [reflexivity|]. split; [|exact N]. constructor; [unfold digit_byte in B; unfold is_digit; lia|exact F]. }
        destruct S as [F|(d & c' & r & -> & F & N)].
        -- left. split; [constructor; assumption|]. cbn [fold_left]. specialize (K s F). lia.
        -- right. exists (c :: d), c', r. split; [reflexivity|]. split; [constructor; assumption|]. split; [exact N|]. cbn [fold_left]. specialize (K d F). replace (2 ^ 64 <=? _) with true by lia. reflexivity.
      * destruct (IH (10 * a + (c - 48)) ltac:(unfold is_digit in Dc; lia)) as [(F & Q)|(d & c' & r & -> & F & N & Q)].
        -- left. split; [constructor; assumption|exact Q].
        -- right. exists (c :: d), c', r. split; [reflexivity|]. split; [constructor; assumption|]. split; [exact N|exact Q].
    + right. exists [], c, s. split; [reflexivity|]. split; [constructor|]. split; [unfold digit_byte in D; unfold is_digit; lia|]. cbn [fold_left]. replace (2 ^ 64 <=? a) with false by lia. reflexivity.
Qed.
Lemma ParseUint10_number s : number_of s (ParseUint10 s).
Proof. exact (uint10_number s 0 ltac:(lia)). Qed.
Lemma number_of_unique s n m : number_of s n -> number_of s m -> n = m.
Proof.
  assert (X : forall d c r, Forall is_digit (d ++ c :: r) -> is_digit c) by (intros d c r F; apply Forall_app in F as (_ & F); inversion F; assumption).
  intros [(F & ->)|(d & c & r & -> & F & N & ->)] [(F' & ->)|(d' & c' & r' & E' & F' & N' & ->)]; [reflexivity| | |].
  - exfalso. subst s. exact (N' (X _ _ _ F)).
  - exfalso. exact (N (X _ _ _ F')).
  - assert (K : d = d'); [|subst; reflexivity]. clear X. revert d' E' F'. induction d as [|b d IH]; intros [|b' d'] E' F'; cbn in E'; [reflexivity|..].
    + injection E' as -> _. inversion F'; subst. contradiction.
    + injection E' as -> _. inversion F; subst. contradiction.
    + injection E' as -> E'. inversion F; inversion F'; subst. f_equal. apply IH; assumption.
Qed.
Lemma split_two text source number : split_byte 58 text = [source; number] <-> text = source ++ [colon] ++ number /\ ~ In colon source /\ ~ In colon number.
Proof.
  split.
  - intros H. destruct (first_of 58 text) as [[a b]|] eqn:F.
    + apply first_of_some in F as (-> & N). rewrite split_byte_app in H by exact N. injection H as <- H.
      destruct (first_of 58 b) as [[u v]|] eqn:G.
      * apply first_of_some in G as (-> & N'). rewrite split_byte_app in H by exact N'. destruct (split_byte 58 v) eqn:V; [|discriminate]. destruct v as [|w v]; cbn in V; [discriminate|]. destruct (w =? 58); [discriminate|]. destruct (split_byte 58 v); discriminate.
      * apply first_of_none in G. rewrite split_byte_none in H by exact G. injection H as <-. auto.
    + apply first_of_none in F. rewrite split_byte_none in H by exact F. discriminate.
  - intros (-> & N1 & N2). cbn [app]. rewrite split_byte_app by exact N1. rewrite split_byte_none by exact N2. reflexivity.
Qed.
Lemma key_cases text : (exists source number, split_byte 58 text = [source; number] /\ is_key text source (ParseUint10 number)) \/
  ((forall source number, split_byte 58 text <> [source; number]) /\ forall source n, ~ is_key text source n).
Proof.
  assert (D : (exists source number, split_byte 58 text = [source; number]) \/ forall source number, split_byte 58 text <> [source; number]).
  { destruct (split_byte 58 text) as [|a [|b [|c l]]]; [right; discriminate..| |right; discriminate]. left. eauto. }
  destruct D as [(a & b & D)|D]; [left|right].
  - exists a, b. split; [exact D|]. apply split_two in D as (-> & N1 & N2). exists b. split; [reflexivity|]. split; [exact N1|]. split; [exact N2|]. apply ParseUint10_number.
  - split; [exact D|]. intros s n (b & E & N1 & N2 & _). apply (D s b), split_two. auto.
Qed.
Lemma is_key_unique text s n s' n' : is_key text s n -> is_key text s' n' -> s = s' /\ n = n'.
Proof.
  intros (b & E & N1 & N2 & K) (b' & E' & N1' & N2' & K'). pose proof (proj2 (split_two text s b) (conj E (conj N1 N2))) as Q1. pose proof (proj2 (split_two text s' b') (conj E' (conj N1' N2'))) as Q2.
  rewrite Q1 in Q2. injection Q2 as -> ->. split; [reflexivity|]. exact (number_of_unique _ _ _ K K').
Qed.

(** ** Rows *)

Lemma string_value_text E t r name x : string_value E t (row_values r) (ColumnIndex (se_xlib E) t (lit name)) = Ok x <-> row_text E t r name x.
Proof. unfold string_value, row_text. destruct (TypedValue _ _ _ _ _ DString) as [[[]|]| |]; split; try intros [= <-]; try intros ->; try reflexivity; try discriminate; contradiction. Qed.
Lemma time_value_time E t r name x : time_value E t (row_values r) (ColumnIndex (se_xlib E) t (lit name)) = Ok x <-> row_time E t r name x.
Proof. unfold time_value, row_time. destruct (TypedValue _ _ _ _ _ DDateTime) as [[[]|]| |]; split; try intros [= <-]; try intros ->; try reflexivity; try discriminate; contradiction. Qed.
Lemma column_or_sets {A} E t name (read : Z -> res A) (says : A -> Prop) old new :
  (forall x, read (ColumnIndex (se_xlib E) t (lit name)) = Ok x <-> says x) -> column_or E t name read old = Ok new -> column_sets E t name says old new.
Proof.
  intros R H. unfold column_or in H. cbv zeta in H. unfold column_sets, has_column. destruct (-1 <? _) eqn:I; [left; split; [lia|apply R, H]|right]. injection H as <-. split; [lia|reflexivity].
Qed.
Lemma column_trans {A} E t name (says says' : A -> Prop) a b c : column_sets E t name says a b -> column_sets E t name says' b c -> column_sets E t name says' a c.
Proof. unfold column_sets. intros [(H & S)|(H & ->)] [(H' & S')|(H' & ->)]; tauto. Qed.

Definition known (m : md) (g : guid) : (bytes * Z) * detail := (match fst m !! g with Some e => e | None => ([], 0) end, detail_of m g).
Lemma known_eq m g : known m g = (fst (known m g), detail_of m g). Proof. reflexivity. Qed.
Definition dflt (o : option (bytes * Z)) : bytes * Z := match o with Some e => e | None => ([], 0) end.
Lemma Lookup_known (reg : gmap (list Z) (bytes * Z)) (g g' : list Z) : dflt (fst (LookupMetadata reg g) !! g') = dflt (reg !! g').
Proof.
  unfold LookupMetadata. match goal with |- context [match ?x with Some e => (reg, e) | None => _ end] => destruct x eqn:L end; [reflexivity|]. change (reg !! g = None) in L.
  change (dflt (<[g := ([], 0)]> reg !! g') = dflt (reg !! g')). destruct (decide (g = g')) as [->|D]; [rewrite lookup_insert, L; reflexivity|rewrite lookup_insert_ne by exact D; reflexivity].
Qed.
Lemma known_insert (reg : registry) (dets : gmap (list Z) detail) (g0 g : list Z) d :
  known (reg, <[g0 := d]> dets) g = (dflt (reg !! g), if decide (g0 = g) then d else match dets !! g with Some d => d | None => no_detail end).
Proof.
  unfold known, detail_of. cbn [fst snd]. f_equal. destruct (decide (g0 = g)) as [->|D].
  - change (match <[g := d]> dets !! g with Some d => d | None => no_detail end = d). rewrite lookup_insert. reflexivity.
  - change (match <[g0 := d]> dets !! g with Some d => d | None => no_detail end = match dets !! g with Some d => d | None => no_detail end). rewrite lookup_insert_ne by exact D. reflexivity.
Qed.
Lemma dflt_insert (reg : gmap (list Z) (bytes * Z)) (g0 g : list Z) e : dflt (<[g0 := e]> reg !! g) = if decide (g0 = g) then e else dflt (reg !! g).
Proof. destruct (decide (g0 = g)) as [->|D]; [rewrite lookup_insert; reflexivity|rewrite lookup_insert_ne by exact D; reflexivity]. Qed.
Definition row_sets (E : senv) (t : dtable) (r : drow) (old new : detail) : Prop :=
  column_sets E t "PointTag" (row_text E t r "PointTag") (d_Tag old) (d_Tag new) /\
  column_sets E t "SignalReference" (row_text E t r "SignalReference") (d_SignalReference old) (d_SignalReference new) /\
  column_sets E t "SignalAcronym" (row_text E t r "SignalAcronym") (d_SignalType old) (d_SignalType new) /\
  column_sets E t "Description" (row_text E t r "Description") (d_Description old) (d_Description new) /\
  column_sets E t "UpdatedOn" (row_time E t r "UpdatedOn") (d_UpdatedOn old) (d_UpdatedOn new).
Lemma load_one E t m r m' g : load_measurement E t m (row_values r) = Ok m' ->
  (about E t g r /\ row_sets E t r (snd (known m g)) (snd (known m' g)) /\
     (keyed E t r (fst (fst (known m' g))) (snd (fst (known m' g))) \/ ((forall s n, ~ keyed E t r s n) /\ fst (known m' g) = fst (known m g)))) \/
  (~ about E t g r /\ known m' g = known m g).
Proof.
  unfold load_measurement, about, row_guid. intros H. set (T := TypedValue _ _ _ _ _ DGuid) in *. clearbody T.
  destruct T as [[c|]| |]; [|injection H as <-; right; split; [discriminate|reflexivity]..|discriminate].
  destruct c as [ | | | | | |g0| | | | | | | | ]; try (injection H as <-; right; split; [discriminate|reflexivity]).
  cbv zeta in H. destruct (column_or E t "ID" _ _) as [id| |] eqn:X0; try discriminate. cbn [bind] in H.
  destruct (column_or E t "PointTag" _ _) as [tag| |] eqn:X1; try discriminate. cbn [bind] in H.
  destruct (column_or E t "SignalReference" _ _) as [ref| |] eqn:X2; try discriminate. cbn [bind] in H.
  destruct (column_or E t "SignalAcronym" _ _) as [ty| |] eqn:X3; try discriminate. cbn [bind] in H.
  destruct (column_or E t "Description" _ _) as [desc| |] eqn:X4; try discriminate. cbn [bind] in H.
  destruct (column_or E t "UpdatedOn" _ _) as [upd| |] eqn:X5; try discriminate. cbn [bind] in H. injection H as <-.
  assert (St : forall name x, string_value E t (row_values r) (ColumnIndex (se_xlib E) t (lit name)) = Ok x <-> row_text E t r name x) by (intros; apply string_value_text).
  apply (column_or_sets _ _ _ _ _ _ _ (St "ID"%string)) in X0. apply (column_or_sets _ _ _ _ _ _ _ (St "PointTag"%string)) in X1. apply (column_or_sets _ _ _ _ _ _ _ (St "SignalReference"%string)) in X2.
  apply (column_or_sets _ _ _ _ _ _ _ (St "SignalAcronym"%string)) in X3. apply (column_or_sets _ _ _ _ _ _ _ (St "Description"%string)) in X4.
  apply (column_or_sets _ _ _ _ _ _ _ (fun x => time_value_time E t r "UpdatedOn" x)) in X5.
  set (old := detail_of m g0) in *. rewrite known_insert.
  match goal with |- context [decide ?P] => destruct (decide P) as [->|D] end.
  - left. split; [reflexivity|]. cbn [fst snd]. split; [unfold row_sets; cbn; auto|].
    destruct (key_cases id) as [(s & b & Sp & K)|(N & K)].
    + rewrite Sp. rewrite dflt_insert. match goal with |- context [decide ?P] => destruct (decide P) end; [|contradiction]. cbn. left. destruct X0 as [(C & X0)|(_ & ->)]; [|cbn in Sp; discriminate]. split; [exact C|]. exists id. auto.
    + right. split.
      * intros s n (C & id' & R & Q). destruct X0 as [(_ & X0)|(NC & _)]; [|contradiction]. apply St in R, X0. assert (id' = id) by congruence. subst id'. exact (K s n Q).
      * refine (eq_trans _ (Lookup_known (fst m) g g)). destruct (split_byte 58 id) as [|a [|b [|]]]; try reflexivity. exfalso. exact (N a b eq_refl).
  - right. split; [congruence|]. unfold known. f_equal. refine (eq_trans _ (Lookup_known (fst m) g0 g)). destruct (split_byte 58 id) as [|a [|b [|]]]; try reflexivity. rewrite dflt_insert. match goal with |- context [decide ?P] => destruct (decide P) end; [contradiction|reflexivity].
Qed.

Lemma load_snoc E t : forall l m x, load_measurements E t m (l ++ [x]) = bind (load_measurements E t m l) (fun m => match x with Some r => load_measurement E t m (row_values r) | None => Ok m end).
Proof.
  induction l as [|y l IH]; intros m x; cbn [app load_measurements].
  - destruct x as [r|]; [|reflexivity]. cbn [bind]. destruct (load_measurement _ _ _ _); reflexivity.
  - destruct y as [r|]; [|apply IH]. destruct (load_measurement E t m (row_values r)) as [m1| |]; [|reflexivity..]. cbn [bind]. apply IH.
Qed.
Lemma last_snoc_other P l r x : last_row P l r -> (forall r', x = Some r' -> ~ P r') -> last_row P (l ++ [x]) r.
Proof.
  intros (a & b & -> & H & N) X. exists a, (b ++ [x]). split; [rewrite <- app_assoc; reflexivity|]. split; [exact H|]. intros r' I. apply in_app_or in I as [I|[I|[]]]; [exact (N r' I)|exact (X r' I)].
Qed.
Lemma last_snoc (P : drow -> Prop) l r : P r -> last_row P (l ++ [Some r]) r.
Proof. intros H. exists l, []. split; [reflexivity|]. split; [exact H|]. intros r' []. Qed.
Lemma in_snoc {A} (l : list A) x y : In y (l ++ [x]) -> In y l \/ y = x.
Proof. intros H. apply in_app_or in H as [H|[H|[]]]; auto. Qed.
(** [record_after], with the rows apart. *)
Definition record_rows (E : senv) (t : dtable) (rows : list (option drow)) (g : guid) (old new : (bytes * Z) * detail) : Prop :=
  ((exists r, last_row (about E t g) rows r /\ row_sets E t r (snd old) (snd new)) /\
   ((exists r, last_row (fun r => about E t g r /\ exists source n, keyed E t r source n) rows r /\ keyed E t r (fst (fst new)) (snd (fst new))) \/
    ((forall r source n, In (Some r) rows -> about E t g r -> ~ keyed E t r source n) /\ fst new = fst old))) \/
  ((forall r, In (Some r) rows -> ~ about E t g r) /\ new = old).
Lemma row_sets_trans E t r r' a b c : row_sets E t r a b -> row_sets E t r' b c -> row_sets E t r' a c.
Proof. unfold row_sets. intros (H1 & H2 & H3 & H4 & H5) (K1 & K2 & K3 & K4 & K5). exact (conj (column_trans _ _ _ _ _ _ _ _ H1 K1) (conj (column_trans _ _ _ _ _ _ _ _ H2 K2) (conj (column_trans _ _ _ _ _ _ _ _ H3 K3) (conj (column_trans _ _ _ _ _ _ _ _ H4 K4) (column_trans _ _ _ _ _ _ _ _ H5 K5))))). Qed.
Lemma load_rows E t g : forall l m m', load_measurements E t m l = Ok m' -> record_rows E t l g (known m g) (known m' g).
Proof.
  induction l as [|x l IH] using rev_ind; intros m m' H.
  - cbn in H. injection H as <-. right. split; [intros r []|reflexivity].
  - rewrite load_snoc in H. destruct (load_measurements E t m l) as [m1| |] eqn:L; try discriminate. cbn [bind] in H. specialize (IH m m1 L).
    assert (Same : (forall r, x = Some r -> ~ about E t g r) -> known m' g = known m1 g -> record_rows E t (l ++ [x]) g (known m g) (known m' g)).
    { intros N ->. destruct IH as [((r & L1 & S1) & K)|(N1 & ->)].
      - left. split; [exists r; split; [apply last_snoc_other; assumption|exact S1]|]. destruct K as [(q & L2 & K)|(N2 & K)]; [left; exists q; split; [apply last_snoc_other; [exact L2|]|exact K]|right; split; [|exact K]].
        + intros r' -> (A & _). exact (N r' eq_refl A).
        + intros r' s n I A. apply in_snoc in I as [I|I]; [exact (N2 r' s n I A)|]. exfalso. exact (N r' (eq_sym I) A).
      - right. split; [|reflexivity]. intros r I. apply in_snoc in I as [I|I]; [exact (N1 r I)|exact (N r (eq_sym I))]. }
    destruct x as [r|]; [|injection H as <-; apply Same; [discriminate|reflexivity]].
    destruct (load_one E t m1 r m' g H) as [(A & S & K)|(A & Q)]; [|apply Same; [intros r' [= <-]; exact A|exact Q]].
    left. assert (S0 : row_sets E t r (snd (known m g)) (snd (known m' g))).
    { destruct IH as [((r0 & _ & S1) & _)|(_ & Q)]; [exact (row_sets_trans _ _ _ _ _ _ _ S1 S)|rewrite <- Q; exact S]. }
    split; [exists r; split; [apply last_snoc; exact A|exact S0]|]. destruct K as [K|(N & Q)].
    + left. exists r. split; [apply last_snoc; split; [exact A|eauto]|exact K].
    + rewrite Q. destruct IH as [(_ & [(q & L2 & K)|(N2 & K)])|(N1 & K)].
      * left. exists q. split; [apply last_snoc_other; [exact L2|]|exact K]. intros r' [= <-] (_ & s & n & F). exact (N s n F).
      * right. split; [|exact K]. intros r' s n I A'. apply in_snoc in I as [I|[= ->]]; [exact (N2 r' s n I A')|exact (N s n)].
      * right. split; [|rewrite K; reflexivity]. intros r' s n I A'. apply in_snoc in I as [I|[= ->]]; [exfalso; exact (N1 r' I A')|exact (N s n)].
Qed.

(** ** The handling of received metadata *)

Lemma metadata_seen_app a b : metadata_seen (a ++ b) = metadata_seen a ++ metadata_seen b. Proof. apply flat_map_app. Qed.
Lemma metadata_user ev : metadata_seen (flat_map user_event ev) = [].
Proof. induction ev as [|e ev IH]; [reflexivity|]. cbn [flat_map]. rewrite metadata_seen_app, IH. destruct e; reflexivity. Qed.
Lemma load_steps E s ds s' ev : loadMeasurementMetadata E s ds = Ok (s', ev) ->
  ctl s' = ctl s /\ sn_pending s' = sn_pending s /\ frames ev = [] /\ metadata_seen ev = [] /\
  (exists reg, sn_ds s' = set_measurementRegistry (sn_ds s) reg) /\
  match DataSetTable (se_xlib E) ds (lit "MeasurementDetail") with
  | Some t => has_column E t "SignalID" /\ (forall g, record_after E t g (MetadataOf s g) (MetadataOf s' g)) \/ ~ has_column E t "SignalID" /\ s' = s
  | None => s' = s
  end.
Proof.
  assert (Z : forall s : session, exists reg, sn_ds s = set_measurementRegistry (sn_ds s) reg) by (intros x; exists (measurementRegistry (sn_ds x)); destruct (sn_ds x); reflexivity).
  unfold loadMeasurementMetadata. destruct (DataSetTable _ _ _) as [t|]; [|intros H; injection H as <- <-; repeat split; apply Z]. unfold has_column. destruct (-1 <? _) eqn:I.
  - destruct (load_measurements _ _ _ _) as [[reg details]| |] eqn:L; try discriminate. cbn [bind]. unfold quiet. intros H. injection H as <- <-. repeat split; [exists reg; reflexivity|].
    left. split; [lia|]. intros g. exact (load_rows E t g (dt_rows t) _ _ L).
  - intros H. injection H as <- <-. repeat split; [apply Z|]. right. split; [lia|reflexivity].
Qed.
Lemma summary_steps E s ds s' ev : showMetadataSummary E s ds = Ok (s', ev) -> s' = s /\ frames ev = [] /\ metadata_seen ev = [].
Proof. unfold showMetadataSummary. intros H. match type of H with bind ?x _ = _ => destruct x as [x0| |] end; try discriminate. cbn [bind] in H. injection H as <- <-. auto. Qed.
(** The data set handed to the user, and what is known of the signals afterwards. *)
Lemma MetadataOf_lift s k s' ev g : lift s k = Ok (s', ev) -> (forall d e, k = Ok (d, e) -> measurementRegistry d = measurementRegistry (sn_ds s)) -> MetadataOf s' g = MetadataOf s g.
Proof. intros H K. apply lift_inv in H as (d & e & Q & -> & _). unfold MetadataOf. cbn. rewrite (K _ _ Q). reflexivity. Qed.
Lemma handle_steps E s d s' ev : good (sn_ds s) -> handleMetadataReceived E s d = Ok (s', ev) ->
  exists ds, metadata_seen ev = [ds] /\
    (ParseXml (se_xlib E) NewDataSet (se_decode E d) = Ok ds /\
       match DataSetTable (se_xlib E) ds (lit "MeasurementDetail") with
       | Some t => has_column E t "SignalID" /\ (forall g, record_after E t g (MetadataOf s g) (MetadataOf s' g)) \/ ~ has_column E t "SignalID" /\ (forall g, MetadataOf s' g = MetadataOf s g)
       | None => forall g, MetadataOf s' g = MetadataOf s g
       end \/
     ParseXml (se_xlib E) NewDataSet (se_decode E d) = Err /\ ds = NewDataSet /\ forall g, MetadataOf s' g = MetadataOf s g) /\
    frames ev = if c_AutoRequestMetadata (sn_config s) && c_AutoSubscribe (sn_config s) && connected (sn_ds s) && may s
                then (if subscribed (sn_ds s) && validated (sn_ds s) then [frame 3 []] else []) ++ [subscribe_request (subscription (sn_ds s))] else [].
Proof.
  intros G H. unfold handleMetadataReceived in H. match type of H with bind ?x _ = _ => destruct x as [[parsed ds]| |] eqn:P end; try discriminate. cbn [bind] in H.
  apply andthen_inv in H as (s1 & ev1 & ev2 & H1 & H2 & ->). apply andthen_inv in H1 as (s0 & ev3 & ev4 & H0 & H1 & ->). apply summary_steps in H1 as (-> & F1 & M1).
  apply andthen_inv in H2 as (s2 & ev5 & ev6 & H2 & H3 & ->). unfold says in H2. injection H2 as <- <-. exists ds.
  assert (K : ctl s0 = ctl s /\ frames ev3 = [] /\ metadata_seen ev3 = [] /\ (exists reg, sn_ds s0 = set_measurementRegistry (sn_ds s) reg) /\
    (ParseXml (se_xlib E) NewDataSet (se_decode E d) = Ok ds /\
       match DataSetTable (se_xlib E) ds (lit "MeasurementDetail") with
       | Some t => has_column E t "SignalID" /\ (forall g, record_after E t g (MetadataOf s g) (MetadataOf s0 g)) \/ ~ has_column E t "SignalID" /\ (forall g, MetadataOf s0 g = MetadataOf s g)
       | None => forall g, MetadataOf s0 g = MetadataOf s g
       end \/
     ParseXml (se_xlib E) NewDataSet (se_decode E d) = Err /\ ds = NewDataSet /\ forall g, MetadataOf s0 g = MetadataOf s g)).
  { destruct (ParseXml _ _ _) as [ds0| |]; try discriminate; injection P as <- <-.
    - apply load_steps in H0 as (L1 & _ & L2 & L3 & L4 & L5). split; [exact L1|]. split; [exact L2|]. split; [exact L3|]. split; [exact L4|]. left. split; [reflexivity|].
      destruct (DataSetTable _ _ _) as [t|]; [|intros; rewrite L5; reflexivity]. destruct L5 as [L5|(L5 & ->)]; [left; exact L5|right; split; [exact L5|reflexivity]].
    - unfold says in H0. injection H0 as <- <-. repeat split; [exists (measurementRegistry (sn_ds s)); destruct (sn_ds s); reflexivity|right; repeat split]. }
  destruct K as (K1 & K2 & K3 & (reg & K4) & K5). apply ctl_eq in K1 as (K1 & _).
  rewrite !frames_app, !metadata_seen_app, K2, K3, F1, M1. cbn [app frames metadata_seen flat_map]. rewrite K1 in H3.
  assert (V : good (sn_ds s0) /\ connected (sn_ds s0) = connected (sn_ds s) /\ subscribed (sn_ds s0) = subscribed (sn_ds s) /\ validated (sn_ds s0) = validated (sn_ds s) /\ subscription (sn_ds s0) = subscription (sn_ds s) /\ Version (sn_ds s0) = Version (sn_ds s)).
  { rewrite K4. repeat (split; [first [exact G|reflexivity]|]). reflexivity. }
  destruct V as (V1 & V2 & V3 & V4 & V5 & V6).
  assert (X : metadata_seen ev6 = [] /\ (forall g, MetadataOf s' g = MetadataOf s0 g) /\
    frames ev6 = if c_AutoRequestMetadata (sn_config s) && c_AutoSubscribe (sn_config s) && connected (sn_ds s) && may s
                then (if subscribed (sn_ds s) && validated (sn_ds s) then [frame 3 []] else []) ++ [subscribe_request (subscription (sn_ds s))] else []).
  { destruct (_ && c_AutoSubscribe _); cbn [andb]; [|unfold quiet in H3; injection H3 as <- <-; repeat split].
    pose proof H3 as H4. apply lift_inv in H4 as (d1 & e1 & H4 & _ & E6). split; [rewrite E6; apply metadata_user|]. apply Subscribe_exact in H4 as (_ & _ & _ & _ & _ & R & E1); [|exact V1]. split.
    - intros g. apply (MetadataOf_lift _ _ _ _ _ H3). intros d2 e2 Q. apply Subscribe_exact in Q as (_ & _ & _ & _ & _ & Q & _); [exact Q|exact V1].
    - rewrite E6, frames_user, E1, sent_map. unfold may_subscribe, may. rewrite V2, V3, V4, V5, V6. reflexivity. }
  destruct X as (X1 & X2 & X3). rewrite X1. split; [reflexivity|]. split; [|exact X3].
  destruct K5 as [(Q & K5)|(Q & K5 & K6)]; [left; split; [exact Q|]|right; split; [exact Q|split; [exact K5|intros g; rewrite X2; apply K6]]].
  destruct (DataSetTable _ _ _) as [t|]; [|intros g; rewrite X2; apply K5]. destruct K5 as [(K5 & K6)|(K5 & K6)]; [left; split; [exact K5|]; intros g; rewrite X2; apply K6|right; split; [exact K5|]; intros g; rewrite X2; apply K6].
Qed.
