(** Proofs about documents in the read buffer. *)
From Coq Require Import List Bool Arith ZArith Lia.
From Verif Require Import ConcModel ConcProofs BufferModel BufferSpec.
Import ListNotations.
Open Scope list_scope.

Lemma brun_snoc u size ms m : brun u size (ms ++ [m]) = bstep u (brun u size ms) m.
Proof. unfold brun. rewrite fold_left_app. reflexivity. Qed.
Lemma got_more (l : list (list Z)) n d x : nth_error l n = Some d -> nth_error (l ++ x) n = Some d.
Proof. intros H. rewrite nth_error_app1; [exact H|]. apply nth_error_Some. congruence. Qed.
Lemma got_last (l : list (list Z)) d : nth_error (l ++ [d]) (length l) = Some d.
Proof. rewrite nth_error_app2 by lia. rewrite Nat.sub_diag. reflexivity. Qed.
Lemma in_removed {A} (l : list A) k x : In x (firstn k l ++ skipn (S k) l) -> In x l.
Proof. intros H. apply in_app_or in H as [H|H]; [rewrite <- (firstn_skipn k l)|rewrite <- (firstn_skipn (S k) l)]; apply in_or_app; auto. Qed.
(** Every waiting goroutine would read the document it was started for. *)
Definition intact (s : bstate) : Prop := faithful s /\ forall n g, In (n, g) (waiting s) -> nth_error (got s) n = Some (contents s g).
Lemma intact_reads u s k : intact s -> intact (bstep u s (Reads k)).
Proof.
  intros (F & W). cbn [bstep]. destruct (nth_error (waiting s) k) as [[n g]|] eqn:N; [|split; assumption]. split.
  - intros m d I. cbn [seen got] in *. apply in_app_or in I as [I|[I|[]]]; [exact (F m d I)|]. injection I as <- <-. exact (W n g (nth_error_In _ _ N)).
  - intros m g' I. cbn [waiting got] in *. exact (W m g' (in_removed _ _ _ I)).
Qed.

(** ** Documents of their own *)
Definition owned (s : bstate) : Prop := forall n g, In (n, g) (waiting s) -> exists d, g = Bytes d.
Lemma unzipped z s m : intact s -> owned s -> intact (bstep (Some z) s m) /\ owned (bstep (Some z) s m).
Proof.
  intros Q O. destruct m as [body|k].
  - destruct Q as (F & W). cbn [bstep]. set (h := set_nth _ _ _). set (g := Nat.ltb _ _).
    assert (Same : forall h' c', intact (BState h' c' (waiting s) (got s) (seen s)) /\ owned (BState h' c' (waiting s) (got s) (seen s))).
    { intros h' c'. split; [|exact O]. split; [exact F|]. intros n x I. cbn [waiting got] in *. destruct (O n x I) as (d & ->). exact (W n _ I). }
    destruct (is_metadata body); [|apply Same]. destruct (z (skipn 6 body)) as [d|]; [|apply Same]. split; [split|].
    + intros n x I. cbn [seen got] in *. apply got_more. exact (F n x I).
    + intros n x I. cbn [waiting got] in *. apply in_app_or in I as [I|[I|[]]].
      * apply got_more. destruct (O n x I) as (e & ->). exact (W n _ I).
      * injection I as <- <-. apply got_last.
    + intros n x I. cbn [waiting] in I. apply in_app_or in I as [I|[I|[]]]; [exact (O n x I)|]. injection I as _ <-. exists d. reflexivity.
  - split; [apply intact_reads; exact Q|]. cbn [bstep]. destruct (nth_error (waiting s) k) as [[n g]|]; [|exact O]. intros m x I. cbn [waiting] in I. exact (O m x (in_removed _ _ _ I)).
Qed.

(** ** Parts of the buffer *)
Definition sound (s : bstate) : Prop :=
  current s < length (heap s) /\ 6 <= length (nth (current s) (heap s) []) /\ forall n b from k, In (n, Part b from k) (waiting s) -> from = 6 /\ b < length (heap s).
Lemma nth_set {A} (l : list A) i j x d : i < length l -> nth j (set_nth l i x) d = if i =? j then x else nth j l d.
Proof.
  revert i j. induction l as [|y l IH]; intros i j H; cbn in H; [lia|]. destruct i as [|i], j as [|j]; cbn [set_nth nth Nat.eqb]; try reflexivity. apply IH. lia.
Qed.
Lemma write_length b l : length l <= length b -> length (write b l) = length b.
Proof. unfold write. rewrite app_length, skipn_length. lia. Qed.
Lemma skipn_write b l n : length l <= n -> skipn n (write b l) = skipn n b.
Proof.
  intros H. unfold write. rewrite skipn_app, skipn_all2 by exact H. cbn [app]. revert b n H. induction l as [|x l IH]; intros b n H; cbn [length skipn] in *; [rewrite Nat.sub_0_r; reflexivity|].
  destruct n as [|n]; [lia|]. destruct b as [|y b]; [rewrite skipn_nil; reflexivity|]. cbn [skipn]. replace (S n - S (length l)) with (n - length l) by lia. apply IH. lia.
Qed.
Lemma part_written b body : firstn (length body - 6) (skipn 6 (write b body)) = skipn 6 body.
Proof.
  unfold write. rewrite skipn_app. rewrite firstn_app, skipn_length, Nat.sub_diag. cbn [firstn]. rewrite app_nil_r. apply firstn_all2. rewrite skipn_length. lia.
Qed.
Lemma size_four n : length (size_bytes n) = 4.
Proof. reflexivity. Qed.
(** The heap after a packet *)
Definition stored (s : bstate) (body : list Z) : list (list Z) * nat :=
  let h := set_nth (heap s) (current s) (write (nth (current s) (heap s) []) (size_bytes (length body))) in
  let grows := Nat.ltb (length (nth (current s) h [])) (length body) in
  let c := if grows then length h else current s in
  let h := if grows then h ++ [repeat 0%Z (length body)] else h in
  (set_nth h c (write (nth c h []) body), c).
Lemma stored_sound s body : sound s ->
  let '(h, c) := stored s body in
  c < length h /\ length (heap s) <= length h /\ 6 <= length (nth c h []) /\ firstn (length body - 6) (skipn 6 (nth c h [])) = skipn 6 body /\
  (length body <= 6 -> forall b, b < length (heap s) -> skipn 6 (nth b h []) = skipn 6 (nth b (heap s) [])).
Proof.
  intros (S1 & S2 & _). unfold stored. set (h := set_nth (heap s) _ _).
  assert (Lh : length h = length (heap s)) by apply set_nth_length.
  assert (Ln : length (nth (current s) h []) = length (nth (current s) (heap s) [])).
  { unfold h. rewrite nth_set by exact S1. rewrite Nat.eqb_refl. apply write_length. rewrite size_four. lia. }
  destruct (Nat.ltb_spec (length (nth (current s) h [])) (length body)) as [G|G].
  - set (h2 := h ++ [repeat 0%Z (length body)]). assert (L2 : length h2 = S (length h)) by (unfold h2; rewrite app_length; cbn; lia).
    assert (N2 : nth (length h) h2 [] = repeat 0%Z (length body)) by (unfold h2; rewrite app_nth2 by lia; rewrite Nat.sub_diag; reflexivity).
    rewrite set_nth_length, nth_set by lia. rewrite Nat.eqb_refl, N2. split; [lia|]. split; [lia|]. split; [rewrite write_length; rewrite repeat_length; lia|]. split; [apply part_written|]. intros B. exfalso. lia.
  - rewrite set_nth_length, nth_set by lia. rewrite Nat.eqb_refl. split; [lia|]. split; [lia|]. split; [rewrite write_length by exact G; lia|]. split; [apply part_written|].
    intros B b Hb. rewrite nth_set by lia. destruct (Nat.eqb_spec (current s) b) as [<-|D].
    + rewrite skipn_write by exact B. unfold h. rewrite nth_set by exact Hb. rewrite Nat.eqb_refl. apply skipn_write. rewrite size_four. lia.
    + unfold h. rewrite nth_set by exact S1. destruct (Nat.eqb_spec (current s) b); [congruence|reflexivity].
Qed.
Lemma calm_step s body : intact s -> sound s -> waiting s = [] \/ length body <= 6 -> intact (bstep None s (Packet body)) /\ sound (bstep None s (Packet body)).
Proof.
  intros (F & W) S C. pose proof (stored_sound s body S) as T.
  assert (E : bstep None s (Packet body) = let '(h, c) := stored s body in
    if is_metadata body then BState h c (waiting s ++ [(length (got s), Part c 6 (length body - 6))]) (got s ++ [skipn 6 body]) (seen s) else BState h c (waiting s) (got s) (seen s)) by reflexivity.
  rewrite E. clear E. destruct (stored s body) as [h c]. destruct T as (T1 & T2 & T3 & T4 & T5). destruct S as (S1 & S2 & S3).
  assert (Old : forall n g, In (n, g) (waiting s) -> nth_error (got s) n = Some (contents (BState h c [] [] []) g)).
  { intros n g I. rewrite (W n g I). f_equal. destruct g as [b from k|d]; [|reflexivity]. destruct (S3 n b from k I) as (-> & Hb). cbn [contents heap].
    destruct C as [C|C]; [rewrite C in I; destruct I|]. rewrite (T5 C b Hb). reflexivity. }
  destruct (is_metadata body).
  - split; [split|].
    + intros n d I. cbn [seen got] in *. apply got_more. exact (F n d I).
    + intros n g I. cbn [waiting got] in *. apply in_app_or in I as [I|[I|[]]]; [apply got_more; exact (Old n g I)|]. injection I as <- <-. rewrite got_last. cbn [contents heap]. rewrite T4. reflexivity.
    + split; [exact T1|]. split; [exact T3|]. intros n b from k I. cbn [waiting heap] in *. apply in_app_or in I as [I|[I|[]]]; [destruct (S3 n b from k I); split; [assumption|lia]|]. injection I as _ <- <- _. auto.
  - split; [split; [exact F|exact Old]|]. split; [exact T1|]. split; [exact T3|]. intros n b from k I. cbn [waiting heap] in *. destruct (S3 n b from k I). split; [assumption|lia].
Qed.
Lemma sound_reads s k : sound s -> sound (bstep None s (Reads k)).
Proof.
  intros (S1 & S2 & S3). cbn [bstep]. destruct (nth_error (waiting s) k) as [[n g]|]; [|repeat split; [assumption|assumption|apply (S3 _ _ _ _ H)|apply (S3 _ _ _ _ H)]].
  split; [exact S1|]. split; [exact S2|]. intros m b from q I. cbn [waiting] in I. exact (S3 m b from q (in_removed _ _ _ I)).
Qed.
Lemma calm_keeps size ms : 6 <= size -> calm None size ms -> intact (brun None size ms) /\ sound (brun None size ms).
Proof.
  intros Z. induction 1 as [|ms body C (I & S) K|ms k C (I & S)]; rewrite ?brun_snoc.
  - split; [split; [intros n d []|intros n g []]|]. split; [cbn; lia|]. split; [cbn [brun fold_left heap current nth]; rewrite repeat_length; exact Z|intros n b from k []].
  - apply calm_step; assumption.
  - split; [apply intact_reads; exact I|apply sound_reads; exact S].
Qed.
