(** Lemmas about the signal index cache. *)
From stdpp Require Import gmap.
From Coq Require Import Lia Zify ZifyBool ZifyNat.
From Verif Require Import Base BaseProofs GuidModel GuidSpec GuidProofs CacheModel CacheSpec CompactProofs.
Open Scope Z_scope.
Ltac Zify.zify_post_hook ::= Z.div_mod_to_equations.

Lemma latest_snoc p rs r : latest p (rs ++ [r]) = if p r then Some r else latest p rs.
Proof. unfold latest. rewrite rev_app_distr. reflexivity. Qed.

Lemma latest_some p rs r : latest p rs = Some r -> In r rs /\ p r = true.
Proof. unfold latest. intros H. apply find_some in H. rewrite <- in_rev in H. exact H. Qed.
Lemma latest_none p rs : latest p rs = None <-> forall r, In r rs -> p r = false.
Proof.
  unfold latest. split.
  - intros H r Hr. apply (find_none p (rev rs) H). apply in_rev in Hr. exact Hr.
  - intros H. destruct (find p (rev rs)) as [r|] eqn:E; [|reflexivity].
    apply find_some in E as [E1 E2]. rewrite <- in_rev in E1. rewrite (H r E1) in E2. discriminate.
Qed.

Lemma add_all_snoc st rs r :
  add_all st (rs ++ [r]) = addRecord (add_all st rs) (r_index r) (r_guid r) (r_source r) (r_id r).
Proof. unfold add_all. rewrite fold_left_app. reflexivity. Qed.
Lemma add_all_cons st rs r :
  add_all st (r :: rs) = add_all (addRecord st (r_index r) (r_guid r) (r_source r) (r_id r)) rs.
Proof. reflexivity. Qed.

Definition cache_inv (rs : list crec) (c : sic) : Prop :=
  signalIDList c = map r_guid rs /\ sourceList c = map r_source rs /\ idList c = map r_id rs /\
  (forall i, match reference c !! i with
             | Some k => exists n r, k = Z.of_nat n /\ nth_error rs n = Some r /\ latest (by_index i) rs = Some r
             | None => latest (by_index i) rs = None
             end) /\
  (forall g, signalIDCache c !! g = option_map r_index (latest (by_guid g) rs)) /\
  dom (signalIDCache c) = (list_to_set (map r_guid rs) : gset (list Z)).

Lemma bytes_eqb_refl g : bytes_eqb g g = true.
Proof. apply bytes_eqb_spec. reflexivity. Qed.

Lemma cache_inv_ok reg rs : Z.of_nat (length rs) < 2 ^ 32 ->
  cache_inv rs (snd (add_all (reg, NewSignalIndexCache) rs)).
Proof.
  induction rs as [|r rs IH] using rev_ind; intros HL.
  - split; [reflexivity|]. split; [reflexivity|]. split; [reflexivity|]. split; [|split].
    + intros i. reflexivity.
    + intros g. reflexivity.
    + apply dom_empty_L.
  - rewrite app_length in HL. cbn [length] in HL.
    rewrite add_all_snoc. destruct (add_all (reg, NewSignalIndexCache) rs) as [reg' c] eqn:E.
    specialize (IH ltac:(lia)). cbn [snd] in IH.
    destruct IH as (I1 & I2 & I3 & I4 & I5 & I6).
    unfold addRecord. destruct (LookupMetadata reg' (r_guid r)) as [reg1 e]. cbn [snd].
    unfold cache_inv. cbn [signalIDList sourceList idList reference signalIDCache].
    rewrite !map_app, I1, I2, I3. cbn [map].
    split; [reflexivity|]. split; [reflexivity|]. split; [reflexivity|].
    assert (Hlen : u32 (len (map r_guid rs)) = Z.of_nat (length rs)).
    { unfold len, u32. rewrite map_length. apply Z.mod_small. lia. }
    rewrite Hlen.
    split; [|split].
    + intros i. rewrite latest_snoc. unfold by_index at 1 3.
      destruct (Z.eqb_spec (r_index r) i) as [<-|N].
      * rewrite lookup_insert. exists (length rs), r. split; [reflexivity|]. split; [|reflexivity].
        rewrite nth_error_app2 by lia. rewrite Nat.sub_diag. reflexivity.
      * rewrite lookup_insert_ne by exact N. specialize (I4 i).
        destruct (reference c !! i) as [k|]; [|exact I4].
        destruct I4 as (n & r' & H1 & H2 & H3). exists n, r'. split; [exact H1|]. split; [|exact H3].
        rewrite nth_error_app1; [exact H2|]. apply nth_error_Some. congruence.
    + intros g. rewrite latest_snoc. unfold by_guid at 1.
      destruct (bytes_eqb (r_guid r) g) eqn:Eg.
      * apply bytes_eqb_spec in Eg. rewrite <- Eg, lookup_insert. reflexivity.
      * rewrite lookup_insert_ne; [apply I5|]. intros Q. rewrite Q, bytes_eqb_refl in Eg. discriminate.
    + rewrite dom_insert_L, I6, list_to_set_app_L. cbn [list_to_set]. set_solver.
Qed.

Lemma idx_map {A B} (f : A -> B) l n r : nth_error l n = Some r -> idx (map f l) (Z.of_nat n) = Ok (f r).
Proof.
  intros H. unfold idx. replace (Z.of_nat n <? 0) with false by lia. rewrite Nat2Z.id.
  rewrite (map_nth_error f _ _ H). reflexivity.
Qed.

Definition cache_of (rs : list crec) : sic := snd (add_all (∅, NewSignalIndexCache) rs).

(** The cache part of the result does not depend on the registry. *)
Lemma add_all_sic_indep rs : forall reg1 reg2 c,
  snd (add_all (reg1, c) rs) = snd (add_all (reg2, c) rs).
Proof.
  induction rs as [|r rs IH]; intros reg1 reg2 c; [reflexivity|].
  rewrite !add_all_cons. unfold addRecord.
  destruct (LookupMetadata reg1 (r_guid r)), (LookupMetadata reg2 (r_guid r)). apply IH.
Qed.

Lemma lookups_ok rs i : Z.of_nat (length rs) < 2 ^ 32 ->
  let c := cache_of rs in
  match latest (by_index i) rs with
  | Some r => Contains c i = true /\ SignalID c i = Ok (r_guid r) /\ Source c i = Ok (r_source r) /\
              ID c i = Ok (r_id r) /\ RecordOf c i = Ok (r_guid r, r_source r, r_id r, true)
  | None => Contains c i = false /\ SignalID c i = Ok Empty /\ Source c i = Ok [] /\
            ID c i = Ok (2 ^ 64 - 1) /\ RecordOf c i = Ok (Empty, [], 0, false)
  end.
Proof.
  intros HL c. destruct (cache_inv_ok ∅ rs HL) as (I1 & I2 & I3 & I4 & I5 & I6).
  fold (cache_of rs) in *. fold c in I1, I2, I3, I4. specialize (I4 i).
  unfold Contains, SignalID, Source, ID, RecordOf.
  destruct (reference c !! i) as [k|].
  - destruct I4 as (n & r & -> & H2 & H3). rewrite H3, I1, I2, I3.
    rewrite !(idx_map _ _ _ _ H2). cbn [bind]. auto.
  - rewrite I4. auto.
Qed.

Lemma reverse_lookup_ok rs g : Z.of_nat (length rs) < 2 ^ 32 ->
  SignalIndex (cache_of rs) g =
  match latest (by_guid g) rs with Some r => r_index r | None => -1 end.
Proof.
  intros HL. destruct (cache_inv_ok ∅ rs HL) as (_ & _ & _ & _ & I5 & _).
  unfold SignalIndex, cache_of. rewrite I5. destruct (latest (by_guid g) rs); reflexivity.
Qed.

Lemma signal_ids_ok rs g : Z.of_nat (length rs) < 2 ^ 32 ->
  (g ∈ SignalIDs (cache_of rs) <-> In g (map r_guid rs)).
Proof.
  intros HL. destruct (cache_inv_ok ∅ rs HL) as (I1 & _).
  unfold SignalIDs, cache_of. rewrite I1, elem_of_list_to_set, elem_of_list_In. reflexivity.
Qed.

Lemma count_ok rs : Z.of_nat (length rs) < 2 ^ 32 ->
  Count (cache_of rs) = Z.of_nat (length (nodup (list_eq_dec Z.eq_dec) (map r_guid rs))).
Proof.
  intros HL. destruct (cache_inv_ok ∅ rs HL) as (_ & _ & _ & _ & _ & I6).
  unfold Count, cache_of.
  rewrite <- size_dom, I6.
  set (nd := nodup (list_eq_dec Z.eq_dec) (map r_guid rs)).
  assert (E : (list_to_set (map r_guid rs) : gset (list Z)) = list_to_set nd).
  { apply set_eq. intros x. rewrite !elem_of_list_to_set, !elem_of_list_In. unfold nd.
    rewrite nodup_In. reflexivity. }
  rewrite E, size_list_to_set.
  - unfold u32. apply Z.mod_small.
    assert (length nd <= length (map r_guid rs))%nat.
    { apply List.NoDup_incl_length; [apply List.NoDup_nodup|]. intros x Hx. apply nodup_In in Hx. exact Hx. }
    rewrite map_length in H. lia.
  - apply NoDup_ListNoDup, List.NoDup_nodup.
Qed.

(** With distinct indices and distinct signal IDs. *)
Lemma latest_unique (key : crec -> Z) rs r :
  List.NoDup (map key rs) -> In r rs -> latest (fun x => key x =? key r) rs = Some r.
Proof.
  intros Hnd Hin. destruct (latest (fun x => key x =? key r) rs) as [r'|] eqn:E.
  - apply latest_some in E as [E1 E2]. apply Z.eqb_eq in E2. f_equal.
    clear -Hnd Hin E1 E2. induction rs as [|x rs IH]; [destruct Hin|].
    cbn [map] in Hnd. inversion Hnd as [|? ? Hx Hnd']; subst.
    destruct Hin as [->|Hin], E1 as [->|E1]; try reflexivity.
    + exfalso. apply Hx. rewrite <- E2. apply in_map. exact E1.
    + exfalso. apply Hx. rewrite E2. apply in_map. exact Hin.
    + exact (IH Hnd' Hin E1).
  - apply (proj1 (latest_none _ _)) with (r := r) in E; [|exact Hin]. rewrite Z.eqb_refl in E. discriminate.
Qed.
Lemma latest_unique_guid rs r :
  List.NoDup (map r_guid rs) -> In r rs -> latest (by_guid (r_guid r)) rs = Some r.
Proof.
  intros Hnd Hin. destruct (latest (by_guid (r_guid r)) rs) as [r'|] eqn:E.
  - apply latest_some in E as [E1 E2]. apply bytes_eqb_spec in E2. f_equal.
    clear -Hnd Hin E1 E2. induction rs as [|x rs IH]; [destruct Hin|].
    cbn [map] in Hnd. inversion Hnd as [|? ? Hx Hnd']; subst.
    destruct Hin as [->|Hin], E1 as [->|E1]; try reflexivity.
    + exfalso. apply Hx. rewrite <- E2. apply in_map. exact E1.
    + exfalso. apply Hx. rewrite E2. apply in_map. exact Hin.
    + exact (IH Hnd' Hin E1).
  - apply (proj1 (latest_none _ _)) with (r := r) in E; [|exact Hin].
    unfold by_guid in E. rewrite bytes_eqb_refl in E. discriminate.
Qed.

Lemma distinct_ok rs r : Z.of_nat (length rs) < 2 ^ 32 ->
  List.NoDup (map r_index rs) -> List.NoDup (map r_guid rs) -> In r rs ->
  let c := cache_of rs in
  SignalID c (r_index r) = Ok (r_guid r) /\ Source c (r_index r) = Ok (r_source r) /\
  ID c (r_index r) = Ok (r_id r) /\ SignalIndex c (r_guid r) = r_index r /\
  Count c = Z.of_nat (length rs).
Proof.
  intros HL N1 N2 Hin c. pose proof (lookups_ok rs (r_index r) HL) as H.
  change (latest (by_index (r_index r)) rs) with (latest (fun x => r_index x =? r_index r) rs) in H.
  rewrite (latest_unique r_index rs r N1 Hin) in H. cbn zeta in H.
  destruct H as (_ & H1 & H2 & H3 & _).
  split; [exact H1|]. split; [exact H2|]. split; [exact H3|].
  split; [unfold c; rewrite reverse_lookup_ok by exact HL; rewrite (latest_unique_guid rs r N2 Hin); reflexivity|].
  unfold c. rewrite count_ok by exact HL. rewrite nodup_fixed_point by exact N2. rewrite map_length. reflexivity.
Qed.

(** ** Decoding *)
Lemma ToBytes_length g swap : length g = 16%nat -> length (ToBytes g swap) = 16%nat.
Proof. intros H. destruct swap; [reflexivity|exact H]. Qed.

Lemma slice_mid {A} (a b c : list A) : slice (a ++ b ++ c) (len a) (len a + len b) = Ok b.
Proof.
  unfold slice, len. rewrite !app_length.
  replace ((Z.of_nat (length a) <? 0) || (Z.of_nat (length a) + Z.of_nat (length b) <? Z.of_nat (length a))
    || (Z.of_nat (length a + (length b + length c)) <? Z.of_nat (length a) + Z.of_nat (length b))) with false by lia.
  rewrite Nat2Z.id, skipn_app, skipn_all, Nat.sub_diag. cbn [skipn app].
  replace (Z.to_nat (Z.of_nat (length a) + Z.of_nat (length b) - Z.of_nat (length a))) with (length b) by lia.
  rewrite drop_0, take_app. reflexivity.
Qed.

Lemma decode_loop_wire swap rs : forall pre extra st,
  Forall rec_ok rs ->
  len (pre ++ concat (map (rec_wire swap) rs) ++ extra) < 2 ^ 32 ->
  decode_loop (pre ++ concat (map (rec_wire swap) rs) ++ extra) swap (length rs) (len pre) st
  = (add_all st rs, Ok tt).
Proof.
  induction rs as [|r rs IH]; intros pre extra st HF HL; [reflexivity|].
  inversion HF as [|? ? Hr HF']; subst. destruct Hr as (R1 & R2 & R3 & R4).
  cbn [length]. cbn [map concat] in HL |- *.
  set (rest := concat (map (rec_wire swap) rs) ++ extra).
  set (A := be_put 4 (u32 (r_index r))). set (B := ToBytes (r_guid r) swap).
  set (C := be_put 4 (len (r_source r))). set (D := r_source r). set (E := be_put 8 (r_id r)).
  assert (LA : len A = 4) by (unfold A, len; rewrite be_put_length; reflexivity).
  assert (LB : len B = 16) by (unfold B, len; rewrite ToBytes_length by exact R2; reflexivity).
  assert (LC : len C = 4) by (unfold C, len; rewrite be_put_length; reflexivity).
  assert (LE : len E = 8) by (unfold E, len; rewrite be_put_length; reflexivity).
  assert (LD : 0 <= len D) by (unfold len; lia).
  assert (LP : 0 <= len pre) by (unfold len; lia).
  assert (LR : 0 <= len rest) by (unfold len; lia).
  set (buf := pre ++ ((A ++ B ++ C ++ D ++ E) ++ concat (map (rec_wire swap) rs)) ++ extra).
  assert (EB : buf = pre ++ A ++ B ++ C ++ D ++ E ++ rest)
    by (unfold buf, rest; rewrite <- !app_assoc; reflexivity).
  assert (HB : len pre + 4 + 16 + 4 + len D + 8 + len rest < 2 ^ 32).
  { change (len (pre ++ ((A ++ B ++ C ++ D ++ E) ++ concat (map (rec_wire swap) rs)) ++ extra) < 2 ^ 32) in HL.
    fold buf in HL. rewrite EB in HL. rewrite !len_app in HL. lia. }
  assert (U : forall x, 0 <= x < 2 ^ 32 -> u32 x = x) by (intros x Hx; apply Z.mod_small; exact Hx).
  change (decode_loop buf swap (S (length rs)) (len pre) st = (add_all st (r :: rs), Ok tt)).
  assert (Q1 : (let* t := slice_from buf (len pre) in be_u32 t) = Ok (u32 (r_index r))).
  { rewrite EB, (slice_from_at pre) by reflexivity. cbn [bind]. unfold be_u32, A.
    apply be_put_get. unfold u32. lia. }
  assert (Q2 : (let* t := slice_from buf (len pre + 4) in FromBytes t swap) = Ok (r_guid r)).
  { rewrite EB, (app_assoc pre). rewrite (slice_from_at (pre ++ A)) by (rewrite len_app; lia). cbn [bind].
    apply FromBytes_ToBytes. exact R2. }
  assert (Q3 : (let* t := slice_from buf (len pre + 4 + 16) in be_u32 t) = Ok (len D)).
  { rewrite EB, (app_assoc pre), (app_assoc (pre ++ A)).
    rewrite (slice_from_at ((pre ++ A) ++ B)) by (rewrite !len_app; lia). cbn [bind].
    unfold be_u32, C. apply be_put_get. fold D. lia. }
  assert (Q4 : slice buf (len pre + 4 + 16 + 4) (len pre + 4 + 16 + 4 + len D) = Ok D).
  { rewrite EB, (app_assoc pre), (app_assoc (pre ++ A)), (app_assoc ((pre ++ A) ++ B)).
    replace (len pre + 4 + 16 + 4) with (len (((pre ++ A) ++ B) ++ C)) by (rewrite !len_app; lia). apply slice_mid. }
  assert (Q5 : (let* t := slice_from buf (len pre + 4 + 16 + 4 + len D) in be_u64 t) = Ok (r_id r)).
  { rewrite EB, (app_assoc pre), (app_assoc (pre ++ A)), (app_assoc ((pre ++ A) ++ B)), (app_assoc (((pre ++ A) ++ B) ++ C)).
    rewrite (slice_from_at ((((pre ++ A) ++ B) ++ C) ++ D)) by (rewrite !len_app; lia). cbn [bind].
    unfold be_u64, E. apply be_put_get. unfold is_u64 in R4. lia. }
  cbn [decode_loop].
  rewrite Q1. rewrite u32_i32 by exact R1.
  rewrite (U (len pre + 4)) by lia. rewrite Q2.
  rewrite (U (len pre + 4 + 16)) by lia. rewrite Q3.
  rewrite (U (len pre + 4 + 16 + 4)) by lia.
  rewrite (U (len pre + 4 + 16 + 4 + len D)) by lia. rewrite Q4, Q5.
  rewrite (U (len pre + 4 + 16 + 4 + len D + 8)) by lia.
  rewrite add_all_cons.
  replace buf with ((((((pre ++ A) ++ B) ++ C) ++ D) ++ E) ++ concat (map (rec_wire swap) rs) ++ extra)
    by (rewrite EB; unfold rest; rewrite <- !app_assoc; reflexivity).
  replace (len pre + 4 + 16 + 4 + len D + 8) with (len (((((pre ++ A) ++ B) ++ C) ++ D) ++ E))
    by (rewrite !len_app; lia).
  apply IH; [exact HF'|].
  fold rest. rewrite !len_app. lia.
Qed.

Lemma decode_wire swap declared sub rs extra ds :
  Forall rec_ok rs -> length sub = 16%nat ->
  let msg := cache_wire swap declared sub rs extra in
  len msg < 2 ^ 32 -> 0 <= declared <= len msg ->
  decode ds msg swap =
  (let '(reg, c) := add_all (d_reg ds, d_sic ds) rs in mkDec reg sub c, Ok tt).
Proof.
  intros HF HS msg HL HD. unfold decode. 
  assert (U : u32 (len msg) = len msg) by (apply Z.mod_small; unfold len in *; lia).
  rewrite U.
  set (A := be_put 4 declared). set (B := ToBytes sub swap). set (C := be_put 4 (len rs)).
  set (R := concat (map (rec_wire swap) rs) ++ extra).
  assert (EM : msg = A ++ B ++ C ++ R) by reflexivity.
  assert (LA : len A = 4) by (unfold A, len; rewrite be_put_length; reflexivity).
  assert (LB : len B = 16) by (unfold B, len; rewrite ToBytes_length by exact HS; reflexivity).
  assert (LC : len C = 4) by (unfold C, len; rewrite be_put_length; reflexivity).
  assert (LR : 0 <= len R) by (unfold len; lia).
  assert (HM : len msg = 24 + len R) by (rewrite EM, !len_app; lia).
  assert (HR : len rs <= len R).
  { unfold R. rewrite len_app. assert (forall l, len l <= len (concat (map (rec_wire swap) l))).
    { clear. induction l as [|x l IH]; [reflexivity|]. cbn [map concat]. rewrite len_app.
      assert (4 <= len (rec_wire swap x)).
      { unfold rec_wire. rewrite len_app.
        match goal with |- 4 <= ?a + len ?y => pose proof (len_nonneg y) as P; replace a with 4; [lia|] end.
        unfold len. rewrite be_put_length. reflexivity. }
      unfold len at 1. cbn [length]. unfold len at 1 in IH. lia. }
    specialize (H rs). pose proof (len_nonneg extra). lia. }
  assert (LRS : 0 <= len rs) by apply len_nonneg.
  assert (Q1 : be_u32 msg = Ok declared).
  { rewrite EM. unfold be_u32, A. apply be_put_get. lia. }
  assert (Q2 : (let* t := slice_from msg 4 in FromBytes t swap) = Ok sub).
  { rewrite EM, (slice_from_at A) by lia. cbn [bind]. apply FromBytes_ToBytes. exact HS. }
  assert (Q3 : (let* t := slice_from msg 20 in be_u32 t) = Ok (len rs)).
  { rewrite EM, (app_assoc A), (slice_from_at (A ++ B)) by (rewrite len_app; lia). cbn [bind].
    unfold be_u32, C. apply be_put_get. lia. }
  replace (len msg <? 4) with false by lia.
  rewrite Q1. replace (len msg <? declared) with false by lia. rewrite Q2, Q3. cbn [d_reg d_sic].
  rewrite EM, (app_assoc A), (app_assoc (A ++ B)).
  replace 24 with (len ((A ++ B) ++ C)) by (rewrite !len_app; lia).
  replace (Z.to_nat (len rs)) with (length rs) by (unfold len; lia).
  unfold R. rewrite decode_loop_wire; [|exact HF|].
  - destruct (add_all (d_reg ds, d_sic ds) rs). reflexivity.
  - fold R. rewrite !len_app. lia.
Qed.

Lemma decode_short ds msg swap : len msg < 2 ^ 32 ->
  (len msg < 4 \/ (4 <= len msg /\ len msg < be_val (firstn 4 msg))) ->
  decode ds msg swap = (ds, Err).
Proof.
  intros HL H. unfold decode. assert (U : u32 (len msg) = len msg) by (apply Z.mod_small; unfold len in *; lia).
  rewrite U. destruct H as [H|[H1 H2]].
  - replace (len msg <? 4) with true by lia. reflexivity.
  - replace (len msg <? 4) with false by lia. unfold be_u32.
    rewrite be_get_cases by (unfold len in H1; lia).
    replace (len msg <? be_val (firstn 4 msg)) with true by lia. reflexivity.
Qed.

(** ** Registry *)
Definition first_for (g : guid) (rs : list crec) : option crec := List.find (by_guid g) rs.

Lemma registry_ok rs : forall reg c g,
  Forall (fun r => r_source r <> []) rs ->
  fst (add_all (reg, c) rs) !! g =
  match reg !! g with
  | Some (s, i) => if len s =? 0
                   then match first_for g rs with Some r => Some (r_source r, r_id r) | None => Some (s, i) end
                   else Some (s, i)
  | None => match first_for g rs with Some r => Some (r_source r, r_id r) | None => None end
  end.
Proof.
  induction rs as [|r rs IH]; intros reg c g HF.
  - cbn. destruct (reg !! g) as [[s i]|]; [destruct (len s =? 0)|]; reflexivity.
  - inversion HF as [|? ? Hr HF']; subst. rewrite add_all_cons. unfold addRecord, LookupMetadata.
    assert (Hr' : (len (r_source r) =? 0) = false).
    { destruct (r_source r); [congruence|]. unfold len. cbn [length]. lia. }
    unfold first_for. cbn [List.find]. fold (first_for g rs). unfold by_guid at 1 2.
    destruct (reg !! r_guid r) as [[s0 i0]|] eqn:E0.
    + unfold bytes, guid, registry in *. cbn [fst]. rewrite IH by exact HF'.
      destruct (bytes_eqb (r_guid r) g) eqn:Eg.
      * apply bytes_eqb_spec in Eg. rewrite <- Eg, E0. destruct (len s0 =? 0) eqn:El.
        -- rewrite lookup_insert, Hr'. reflexivity.
        -- rewrite E0, El. reflexivity.
      * assert (N : r_guid r <> g) by (intros Q; rewrite Q, bytes_eqb_refl in Eg; discriminate).
        destruct (len s0 =? 0); [rewrite lookup_insert_ne by exact N|]; reflexivity.
    + unfold bytes, guid, registry in *. cbn [fst]. change (len (@nil Z) =? 0) with true. cbv iota. rewrite IH by exact HF'.
      destruct (bytes_eqb (r_guid r) g) eqn:Eg.
      * apply bytes_eqb_spec in Eg. rewrite <- Eg, E0, lookup_insert, Hr'. reflexivity.
      * assert (N : r_guid r <> g) by (intros Q; rewrite Q, bytes_eqb_refl in Eg; discriminate).
        rewrite !lookup_insert_ne by exact N. reflexivity.
Qed.

Lemma rev_snoc_cons {A} (a : A) l : exists x r, List.rev (a :: l) = x :: r /\ (l <> [] -> exists r', List.rev l = x :: r').
Proof.
  cbn [List.rev]. destruct (List.rev l) as [|x r] eqn:E.
  - exists a, []. split; [reflexivity|]. intros N. exfalso. apply N. apply (f_equal (@List.rev A)) in E. rewrite List.rev_involutive in E. exact E.
  - exists x, (r ++ [a]). split; [reflexivity|]. intros _. exists r. reflexivity.
Qed.

Lemma registered_step reg c r g : fst (addRecord (reg, c) (r_index r) (r_guid r) (r_source r) (r_id r)) !! g =
  if by_guid g r then match reg !! g with Some (_ :: _, _) => reg !! g | _ => Some (r_source r, r_id r) end else reg !! g.
Proof.
  unfold addRecord, LookupMetadata, by_guid. destruct (bytes_eqb (r_guid r) g) eqn:Eg.
  - apply bytes_eqb_spec in Eg. rewrite Eg. unfold bytes, guid, registry in *.
    destruct (reg !! g) as [[[|b s0] i0]|] eqn:E0; cbn [fst].
    + change (len (@nil Z) =? 0) with true. cbv iota. apply lookup_insert.
    + replace (len (b :: s0) =? 0) with false by (unfold len; cbn [length]; lia). exact E0.
    + change (len (@nil Z) =? 0) with true. cbv iota. apply lookup_insert.
  - assert (N : r_guid r <> g) by (intros Q; rewrite Q, bytes_eqb_refl in Eg; discriminate).
    destruct (reg !! r_guid r) as [[s0 i0]|] eqn:E0; cbv zeta; cbn [fst].
    + destruct (len s0 =? 0); [exact (lookup_insert_ne reg (r_guid r) g (r_source r, r_id r) N)|reflexivity].
    + change (len (@nil Z) =? 0) with true. cbv iota. etransitivity; [exact (lookup_insert_ne _ (r_guid r) g (r_source r, r_id r) N)|exact (lookup_insert_ne reg (r_guid r) g ([], 0) N)].
Qed.

Lemma registry_any rs : forall reg c g, fst (add_all (reg, c) rs) !! g = registered (reg !! g) rs g.
Proof.
  induction rs as [|r rs IH]; intros reg c g.
  - unfold registered. cbn. destruct (reg !! g) as [[[|] ?]|]; reflexivity.
  - rewrite add_all_cons. destruct (addRecord (reg, c) (r_index r) (r_guid r) (r_source r) (r_id r)) as [reg1 c1] eqn:E.
    rewrite IH. pose proof (registered_step reg c r g) as S. rewrite E in S. cbn [fst] in S. rewrite S.
    unfold registered. cbn [List.filter]. destruct (by_guid g r); [|reflexivity].
    destruct (reg !! g) as [[[|b s0] i0]|]; [| reflexivity |];
      (cbn [List.find]; destruct (r_source r) as [|b0 s1] eqn:Er;
       [change (len (@nil Z) =? 0) with true; cbn [negb]; destruct (List.find _ (List.filter (by_guid g) rs)); [reflexivity|];
        destruct (List.filter (by_guid g) rs) as [|r1 l] eqn:Ef; [cbn; rewrite Er; reflexivity|];
        destruct (rev_snoc_cons r (r1 :: l)) as (x & q & Q & Q'); rewrite Q; destruct Q' as (q' & Q'); [discriminate|]; rewrite Q'; reflexivity
       |replace (len (b0 :: s1) =? 0) with false by (unfold len; cbn [length]; lia); cbn [negb]; rewrite ?Er; reflexivity]).
Qed.

Lemma binary_length rs : forall reg c, BinaryLength (snd (add_all (reg, c) rs)) = match rs with [] => BinaryLength c | _ => (BinaryLength c + records_size rs) mod 2 ^ 32 end.
Proof.
  assert (X : forall rs reg c, exists z, BinaryLength (snd (add_all (reg, c) rs)) = z /\ (rs <> [] -> 0 <= z < 2 ^ 32) /\ z mod 2 ^ 32 = (BinaryLength c + records_size rs) mod 2 ^ 32).
  { clear. induction rs as [|r rs IH]; intros reg c.
    - exists (BinaryLength c). split; [reflexivity|]. split; [intros N; contradiction N; reflexivity|]. f_equal. cbn. lia.
    - rewrite add_all_cons. destruct (addRecord (reg, c) (r_index r) (r_guid r) (r_source r) (r_id r)) as [reg1 c1] eqn:E.
      assert (B : BinaryLength c1 = u32 (BinaryLength c + (32 + u32 (u32 (len (r_source r)) * 1)))).
      { unfold addRecord in E. destruct (LookupMetadata reg (r_guid r)). injection E as _ <-. reflexivity. }
      destruct (IH reg1 c1) as (z & Z1 & Z2 & Z3). exists z. split; [exact Z1|].
      assert (BM : BinaryLength c1 mod 2 ^ 32 = (BinaryLength c + 32 + len (r_source r)) mod 2 ^ 32).
      { rewrite B. unfold u32. rewrite Z.mod_mod by lia. rewrite Z.mul_1_r, Z.mod_mod by lia.
        rewrite Z.add_assoc. rewrite <- Zplus_mod_idemp_r, Z.mod_mod, Zplus_mod_idemp_r by lia. reflexivity. }
      split.
      + intros _. destruct rs as [|r2 rs]; [|apply Z2; discriminate]. cbn in Z1. rewrite <- Z1, B. apply Z.mod_pos_bound. lia.
      + rewrite Z3. cbn [records_size fold_right]. fold (records_size rs). rewrite <- Zplus_mod_idemp_l, BM, Zplus_mod_idemp_l. f_equal. lia. }
  intros reg c. destruct (X rs reg c) as (z & Z1 & Z2 & Z3). destruct rs as [|r rs]; [reflexivity|].
  rewrite Z1, <- Z3. symmetry. apply Z.mod_small. apply Z2. discriminate.
Qed.
