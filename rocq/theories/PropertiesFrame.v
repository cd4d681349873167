(** Property theorems for framing (C16-C20). *)
From Coq Require Import String Lia.
From Verif Require Import Base BaseProofs FormatModel FrameModel FrameSpec FrameProofs.
Open Scope Z_scope.

(** C16 *)
Theorem C16_frame_written : forall wb cmd data, len wb = maxPacketSize -> len data <= maxPacketSize - 5 ->
  exists wb', SendServerCommandWithPayload true wb cmd data = Ok (wb', Some (frame cmd data)) /\
              len wb' = maxPacketSize.
Proof. exact Send_ok. Qed.
Print Assumptions C16_frame_written.

(** A peer that follows the length fields recovers any sequence of commands. *)
Theorem C16_sequence_recovered : forall wb cmds, len wb = maxPacketSize ->
  Forall (fun cd => len (snd cd) <= maxPacketSize - 5) cmds ->
  exists s, send_all wb cmds = Ok s /\ split_frames (length cmds) s = Some cmds.
Proof.
  exact (fun wb cmds H F => ex_intro _ _ (conj (send_all_ok cmds wb H F)
    (split_frames_ok cmds (length cmds) (le_n _) F))).
Qed.
Print Assumptions C16_sequence_recovered.
Theorem C16_not_connected_sends_nothing : forall wb cmd data,
  SendServerCommandWithPayload false wb cmd data = Ok (wb, None).
Proof. exact (fun _ _ _ => eq_refl). Qed.
Print Assumptions C16_not_connected_sends_nothing.
Example C16_nonvacuous :
  exists s, send_all (repeat 7 (Z.to_nat maxPacketSize)) [(2, [1; 2; 3]); (6, []); (9, [255])] = Ok s /\
  s = [0; 0; 0; 4; 2; 1; 2; 3; 0; 0; 0; 1; 6; 0; 0; 0; 2; 9; 255] /\
  split_frames 3 s = Some [(2, [1; 2; 3]); (6, []); (9, [255])].
Proof. eexists. split; [vm_compute; reflexivity|]. split; reflexivity. Qed.

(** C17: the exact set of payloads on which sending crashes. *)
Theorem C17_send_panics_iff : forall wb cmd data, len wb = maxPacketSize ->
  (SendServerCommandWithPayload true wb cmd data = Panic <-> 32763 < len data).
Proof.
  intros wb cmd data H. split.
  - intros P. destruct (Z.le_gt_cases (len data) 32763) as [L|L]; [|lia].
    destruct (Send_ok wb cmd data H L) as (w & E & _). rewrite E in P. discriminate.
  - exact (fun L => Send_panic wb cmd data H L).
Qed.
Print Assumptions C17_send_panics_iff.
Theorem C17_long_payload_refuted : exists wb data, len wb = maxPacketSize /\
  SendServerCommandWithPayload true wb sc_Subscribe data = Panic.
Proof.
  exists (repeat 0 (Z.to_nat maxPacketSize)), (repeat 0 (Z.to_nat 32764)).
  split; [vm_compute; reflexivity|]. apply Send_panic; [vm_compute; reflexivity|].
  unfold len. rewrite repeat_length. vm_compute. reflexivity.
Qed.
Print Assumptions C17_long_payload_refuted.
(** In particular Subscribe crashes on a long filter expression. *)
Theorem C17_subscribe_long_filter_refuted : forall wb s, len wb = maxPacketSize ->
  32763 < 5 + len (parameterString s) ->
  SendServerCommandWithPayload true wb sc_Subscribe (subscribe_payload s) = Panic.
Proof.
  intros wb s H L. apply Send_panic; [exact H|]. unfold subscribe_payload, maxPacketSize.
  unfold len in *. cbn [length]. rewrite app_length, be_put_length. lia.
Qed.
Print Assumptions C17_subscribe_long_filter_refuted.

(** C18 *)
Theorem C18_chunking_irrelevant : forall (S : Type) (header : S -> Z -> after S) (process : S -> bytes -> after S) fuel st r1 r2,
  nonempty_chunks (under r1) -> nonempty_chunks (under r2) -> bytes_ok (stream r1) ->
  stream r1 = stream r2 ->
  channel_loop header process fuel st r1 = channel_loop header process fuel st r2.
Proof. exact @channel_chunking. Qed.
Print Assumptions C18_chunking_irrelevant.

(** However the stream of the packets [ps] (followed by [rest]) is cut up, exactly
    [ps] are processed, in order and unchanged, before anything of [rest]. *)
Theorem C18_whole_packets : forall (S : Type) (header : S -> Z -> after S) (process : S -> bytes -> after S) ps fuel st r rest,
  nonempty_chunks (under r) -> Forall (fun p => len p < 2 ^ 32) ps ->
  stream r = concat (map packet_wire ps) ++ rest -> (length ps <= fuel)%nat ->
  exists r', stream r' = rest /\ nonempty_chunks (under r') /\
  channel_loop header process fuel st r =
  match handle_all header process st ps with
  | Continue st' => channel_loop header process (fuel - length ps) st' r'
  | x => x
  end.
Proof. exact @channel_packets. Qed.
Print Assumptions C18_whole_packets.

Theorem C18_incomplete_never_processed : forall (S : Type) (header : S -> Z -> after S) process1 process2 fuel st r,
  nonempty_chunks (under r) -> bytes_ok (stream r) ->
  len (stream r) < 4 \/ len (stream r) < 4 + be_val (firstn 4 (stream r)) ->
  channel_loop header process1 fuel st r = channel_loop header process2 fuel st r.
Proof. exact @channel_incomplete. Qed.
Print Assumptions C18_incomplete_never_processed.

Example C18_nonvacuous :
  let header := fun (st : list bytes) (_ : Z) => Continue st in
  let process := fun (st : list bytes) p => Continue (st ++ [p]) in
  let r := mkReader [] [[0]; [0; 0; 3; 9]; [8; 7; 0; 0; 0; 1; 5; 0]] in
  nonempty_chunks (under r) /\ channel_loop header process 3 [] r = Stop [[9; 8; 7]; [5]].
Proof. split; [repeat constructor; discriminate|vm_compute; reflexivity]. Qed.

(** C19: each field of the operational modes word.  The version sits in the low
    byte; for versions below 10 the API also sets the old compression bits there. *)
Theorem C19_fields_partial : forall v cp udp cmd csc, 0 <= v < 256 ->
  let w := operationalModes v oe_UTF8 cp udp cmd csc in
  is_u32 w /\
  Z.land w om_EncodingMask = oe_UTF8 /\
  (Z.testbit w 29 = cp && negb udp) /\ Z.testbit w 30 = csc /\ Z.testbit w 31 = cmd /\
  Z.land w 0x1FFFFC00 = 0 /\
  Z.land w om_VersionMask =
    (if v <? 10 then v + 32 + (if cp && negb udp then 64 else 0) else v).
Proof. exact om_all_fields. Qed.
Print Assumptions C19_fields_partial.
(** The version read through the API's own version mask is wrong for every version
    below 10, among them the default, 2. *)
Theorem C19_version_refuted : forall v cp udp cmd csc, 0 <= v < 10 ->
  Z.land (operationalModes v oe_UTF8 cp udp cmd csc) om_VersionMask <> v.
Proof.
  intros v cp udp cmd csc H. destruct (om_all_fields v cp udp cmd csc ltac:(lia)) as (_ & _ & _ & _ & _ & _ & E).
  rewrite E. replace (v <? 10) with true by lia. destruct (cp && negb udp); lia.
Qed.
Print Assumptions C19_version_refuted.
(** Read with the five-bit mask of pre-standard publishers it is right. *)
Theorem C19_version_five_bits_partial : forall v cp udp cmd csc, 0 <= v < 10 ->
  Z.land (operationalModes v oe_UTF8 cp udp cmd csc) 0x1F = v.
Proof.
  intros v cp udp cmd csc H.
  assert (A : forallb (fun v => forallb (fun cp => forallb (fun udp => forallb (fun cmd => forallb (fun csc =>
    Z.land (operationalModes v oe_UTF8 cp udp cmd csc) 0x1F =? v)
    [true; false]) [true; false]) [true; false]) [true; false]) [0;1;2;3;4;5;6;7;8;9] = true) by (vm_compute; reflexivity).
  assert (HB : forall b, In b [true; false]) by (intros []; cbn; auto).
  rewrite forallb_forall in A. specialize (A v). assert (I : In v [0;1;2;3;4;5;6;7;8;9]) by (cbn; lia). specialize (A I).
  rewrite forallb_forall in A. specialize (A cp (HB cp)).
  rewrite forallb_forall in A. specialize (A udp (HB udp)).
  rewrite forallb_forall in A. specialize (A cmd (HB cmd)).
  rewrite forallb_forall in A. specialize (A csc (HB csc)). lia.
Qed.
Print Assumptions C19_version_five_bits_partial.
Example C19_nonvacuous : operationalModes 2 oe_UTF8 true false true true = 0xE0000262.
Proof. reflexivity. Qed.

(** C20: what a publisher reads back from the parameter string. *)
Theorem C20_parameters_partial : forall s, settings_ok s ->
  parse_conn (parameterString s) =
  map Some (settings_before s) ++ None :: map Some (settings_after s) ++
  match s_ExtraConnectionStringParameters s with [] => [] | x => parse_conn x end.
Proof. exact parse_parameterString. Qed.
Print Assumptions C20_parameters_partial.
(** The NaN filter request is never transmitted as a setting. *)
Theorem C20_nan_filter_refuted : forall s v, settings_ok s -> s_ExtraConnectionStringParameters s = [] ->
  ~ In (Some (str "requestNaNValueFilter", v)) (parse_conn (parameterString s)).
Proof. exact nan_key_absent. Qed.
Print Assumptions C20_nan_filter_refuted.

Definition ex_settings (filter : bytes) (nan : bool) : settings :=
  mkSettings filter false (str "1.000000") true 9600 true false (str "10.000000") (str "5.000000")
    false true nan (str "*-5m") [] [] (-1) [] (str "STTP {Go}") (str "0.6") (str "2022-01-01").
Example C20_nonvacuous :
  settings_ok (ex_settings (str "FILTER ActiveMeasurements WHERE SignalType='FREQ'; PPA:1") true) /\
  parse_conn (parameterString (ex_settings (str "PPA:1;PPA:2") true)) <>
    map Some (intended (ex_settings (str "PPA:1;PPA:2") true)) /\
  nth_error (parse_conn (parameterString (ex_settings (str "PPA:1;PPA:2") true))) 11 =
    Some (Some (str "filterExpression", str "{PPA:1;PPA:2}")).
Proof.
  split; [|split].
  - unfold settings_ok, safe, balanced, is_i32. cbn. repeat split; lia.
  - vm_compute. discriminate.
  - vm_compute. reflexivity.
Qed.

(** A filter expression with unbalanced braces adds settings of its own. *)
Theorem C20_filter_injection_refuted : exists s,
  s_ExtraConnectionStringParameters s = [] /\
  In (Some (str "throttled", str "true")) (parse_conn (parameterString s)) /\
  s_Throttled s = false.
Proof.
  exists (ex_settings (str "x};throttled=true;y={z") true). split; [reflexivity|].
  split; [vm_compute; intuition|reflexivity].
Qed.
Print Assumptions C20_filter_injection_refuted.
