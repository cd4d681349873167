(** C143: what is known of a signal is what the metadata document received last says. *)
From Coq Require Import List Bool Arith ZArith Lia.
From Verif Require Import ConcModel ConcProofs DocsModel DocsSpec DocsProofs.
Import ListNotations.
Open Scope list_scope.

(** Documents of which each is loaded before the next arrives: the last that says
    anything of a field of a signal counts.  Missing: documents that arrive while another
    is being loaded (refuted below). *)
Theorem C143_last_partial : forall ms, one_by_one ms -> loaded (mmrun ms) ->
  forall s f, known (mmrun ms) s f = latest (arrived (mmrun ms)) s f.
Proof. intros ms O L s f. destruct (one_keeps ms O) as (_ & K). rewrite <- K, (concat_empty _ L). reflexivity. Qed.
Print Assumptions C143_last_partial.

(** Whenever they arrive and however they are loaded: in the end every field of every
    signal is as one of the documents says (as its last row says), and a field of which
    none says anything is not known. *)
Theorem C143_some : forall ms, loaded (mmrun ms) -> forall s f,
  (exists d v, In d (arrived (mmrun ms)) /\ says d s f = Some v /\ known (mmrun ms) s f = Some v) \/
  (known (mmrun ms) s f = None /\ forall d, In d (arrived (mmrun ms)) -> says d s f = None).
Proof.
  intros ms L s f. destruct (mm_keeps halfway halfway_step ms _ halfway_new) as (Le & P & K). fold (mmrun ms) in Le, P, K.
  destruct (K s f) as [(N & H)|(i & l & d & v & H1 & H2 & H3 & H4)].
  - right. split; [exact N|]. intros d D. destruct (In_nth_error _ _ D) as (i & Nd). destruct (nth_error (loading (mmrun ms)) i) as [l|] eqn:Nl.
    + rewrite <- (H i l d Nl Nd). rewrite (L l (nth_error_In _ _ Nl)). reflexivity.
    + exfalso. apply nth_error_None in Nl. assert (i < length (arrived (mmrun ms))) by (apply nth_error_Some; congruence). lia.
  - left. exists d, v. split; [exact (nth_error_In _ _ H2)|]. split; [exact H4|]. rewrite (L l (nth_error_In _ _ H1)) in H3. exact H3.
Qed.
Print Assumptions C143_some.

(** Each document is loaded by a goroutine of its own: of any two that are received one
    after the other, the first can overwrite the second. *)
Theorem C143_last_refuted : forall d1 d2, exists ms,
  let st := mmrun ms in
  loaded st /\ arrived st = [d1; d2] /\ forall s f, known st s f = latest [d2; d1] s f.
Proof.
  intros d1 d2. exists ([Arrives d1; Arrives d2] ++ repeat (Assigns 1) (length (assigns d2)) ++ repeat (Assigns 0) (length (assigns d1))).
  unfold mmrun. cbv zeta. rewrite !fold_left_app. set (s0 := fold_left mmstep [Arrives d1; Arrives d2] mnew).
  destruct (runs_all 1 (assigns d2) s0 eq_refl) as (A1 & A2 & A3). set (s1 := fold_left mmstep (repeat (Assigns 1) (length (assigns d2))) s0) in *.
  destruct (runs_all 0 (assigns d1) s1) as (B1 & B2 & B3); [rewrite A1; reflexivity|]. split; [|split].
  - intros l I. rewrite B1, A1 in I. cbn in I. intuition congruence.
  - rewrite B2, A2. reflexivity.
  - intros s f. rewrite B3, A3, !after_doc. reflexivity.
Qed.
Print Assumptions C143_last_refuted.

(** And one record can be left with the tag of one document and the description of the other. *)
Theorem C143_mixed_refuted : forall s tag1 text1 tag2 text2,
  let doc tag text := [MRow s (fun f => match f with FTag => Some tag | FDescription => Some text | _ => None end)] in
  exists ms, let st := mmrun ms in
    loaded st /\ arrived st = [doc tag1 text1; doc tag2 text2] /\ known st s FTag = Some tag1 /\ known st s FDescription = Some text2.
Proof.
  intros s tag1 text1 tag2 text2 doc. exists [Arrives (doc tag1 text1); Arrives (doc tag2 text2); Assigns 1; Assigns 0; Assigns 0; Assigns 1].
  cbn. rewrite Z.eqb_refl. cbn. repeat split. intros l I. cbn in I. intuition congruence.
Qed.
Print Assumptions C143_mixed_refuted.

(** Two documents, one by one; the second says less. *)
Example C143_nonvacuous :
  let row s tag text := MRow s (fun f => match f with FTag => tag | FDescription => text | _ => None end) in
  let ms := [Arrives [row 1%Z (Some 10%Z) (Some 11%Z); row 2%Z (Some 20%Z) None]; Assigns 0; Assigns 0; Assigns 0; Arrives [row 1%Z None (Some 12%Z)]; Assigns 1] in
  one_by_one ms /\ loaded (mmrun ms) /\ known (mmrun ms) 1%Z FTag = Some 10%Z /\ known (mmrun ms) 1%Z FDescription = Some 12%Z /\ known (mmrun ms) 2%Z FTag = Some 20%Z /\ known (mmrun ms) 2%Z FUpdated = None.
Proof.
  intros row ms. split; [|split; [intros l I; cbn in I; intuition congruence|repeat split; reflexivity]].
  apply (one_assigns (firstn 5 ms)). apply (one_arrives (firstn 4 ms)); [|intros l I; cbn in I; intuition congruence].
  apply (one_assigns (firstn 3 ms)). apply (one_assigns (firstn 2 ms)). apply (one_assigns (firstn 1 ms)). apply (one_arrives []); [constructor|]. intros l [].
Qed.
