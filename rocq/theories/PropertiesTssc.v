(** Property theorems for the TSSC decompressor (C21-C26). *)
From stdpp Require Import gmap.
From Coq Require Import Lia ZArith.
From Verif Require Import Base BaseProofs TsscModel TsscSpec TsscCode TsscCode2 TsscRead TsscProofs TsscProofs2 TsscProofs3 TsscCutSpec TsscProofs4.
Open Scope Z_scope.

(** C21: in every coding state that a history of commands can lead to, a sequence of
    commands written by WriteCode is read back by ReadCode.  [rest]: whatever bits and
    bytes follow in the packet. *)
Theorem C21_codes_round_trip : forall hist codes t rest,
  Forall is_code hist -> Forall is_code codes -> code_history newCoder hist = Ok (current_coder t) ->
  exists bs c', write_codes (current_coder t) codes = Ok (bs, c') /\
  let t0 := SetBuffer t (ser (map Bit bs ++ rest) 0) in
  exists t', read_codes (length codes) t0 = DOk codes t' /\
    current_coder t' = c' /\
    code_history newCoder (hist ++ codes) = Ok c' /\
    bits_left t' = bits_left t0 - len bs.
Proof.
  intros hist codes t rest H1 H2 H3. destruct (codes_round_trip hist codes t rest H1 H2 H3) as (bs & c' & W & t' & R1 & R2 & R3 & R4 & _).
  exists bs, c'. split; [exact W|]. exists t'. auto.
Qed.
Print Assumptions C21_codes_round_trip.
(** After ten repeated commands the coding has adapted: a code of one bit and one of six. *)
Example C21_nonvacuous :
  let hist := [20; 20; 20; 20; 20; 20] in
  exists c, code_history newCoder hist = Ok c /\
    let t := set_points NewDecoder (set_coder newPointMetadata c) None ∅ in
    code_history newCoder hist = Ok (current_coder t) /\
    (exists bs c', write_codes (current_coder t) [20; 31; 20] = Ok (bs, c') /\ bs = [true; false; true; true; true; true; true; true]) /\
    match read_codes 3 (SetBuffer t [191; 7]) with DOk l t' => l = [20; 31; 20] /\ bits_left t' = 8 | _ => False end.
Proof.
  eexists. split; [vm_compute; reflexivity|]. split; [reflexivity|]. split; [|vm_compute; split; reflexivity].
  eexists _, _. split; [vm_compute; reflexivity|reflexivity].
Qed.

(** C22: commands come in segments of 6, 21, 101, 101, ... commands.  At the end of a
    segment the short codes are replaced by a choice that is the cheapest possible for
    the commands of that segment, among all choices of at most three short codes;
    within a segment they do not change; no command history leads to an error, and the
    counters stay within their types. *)
Theorem C22_adaptation_optimal : forall n pre seg,
  Forall is_code (pre ++ seg) -> length pre = boundary n -> length seg = segment n ->
  exists c, code_history newCoder (pre ++ seg) = Ok c /\
    forall short, (length short <= 3)%nat -> total_bits (shorts c) seg <= total_bits short seg.
Proof. exact adapt_optimal. Qed.
Print Assumptions C22_adaptation_optimal.
Theorem C22_stable_within_segment : forall n pre part,
  Forall is_code (pre ++ part) -> length pre = boundary n -> (length part < segment n)%nat ->
  exists c c', code_history newCoder pre = Ok c /\ code_history newCoder (pre ++ part) = Ok c' /\ shorts c' = shorts c.
Proof. exact adapt_stable. Qed.
Print Assumptions C22_stable_within_segment.
Theorem C22_never_fails : forall codes, Forall is_code codes -> exists c, code_history newCoder codes = Ok c /\
  0 <= commandsSentSinceLastChange c <= 100 /\ Forall (fun n => 0 <= n <= 100) (commandStats c).
Proof.
  intros codes H. destruct (history_any codes H) as (c & seg & E & _). exists c. split; [exact E|].
  destruct (coder_counters codes c H E) as (A & B & _). split; assumption.
Qed.
Print Assumptions C22_never_fails.
(** The bits written are those counted by [code_len]. *)
Theorem C22_cost_is_bits_written : forall hist code c,
  Forall is_code hist -> is_code code -> code_history newCoder hist = Ok c ->
  exists bs c', WriteCode c code = Ok (bs, c') /\ len bs = code_len (shorts c) code.
Proof.
  intros hist code c Hh Hc E. destruct (history_any hist Hh) as (c0 & seg & E0 & K0). assert (c0 = c) by congruence. subst c0.
  destruct (updated_ok c seg code K0 Hc) as (c1 & U & _).
  rewrite WriteCode_bits by (try exact (k_codes _ _ K0); exact Hc). rewrite U. cbn [bind].
  exists (code_bits c code), c1. split; [reflexivity|]. apply code_bits_len, (k_codes _ _ K0).
Qed.
Print Assumptions C22_cost_is_bits_written.
Example C22_nonvacuous : (** second segment of a mixed history *)
  let pre := [1; 2; 3; 4; 5; 6] in
  let seg := [20; 20; 20; 20; 20; 20; 20; 20; 20; 20; 20; 20; 31; 31; 31; 31; 31; 31; 31; 9; 9] in
  Forall is_code (pre ++ seg) /\ length pre = boundary 1 /\ length seg = segment 1 /\
  exists c, code_history newCoder (pre ++ seg) = Ok c /\ shorts c = [20; 31; 9] /\ total_bits (shorts c) seg = 32.
Proof.
  cbv zeta. split; [|split; [reflexivity|split; [reflexivity|]]].
  - unfold is_code. repeat constructor; lia.
  - eexists. split; [vm_compute; reflexivity|]. split; reflexivity.
Qed.

(** C23 *)
Theorem C23_uint32 : forall v pre post, is_u32 v ->
  decode7BitUInt32 (pre ++ enc7_32 v ++ post) (len pre) = Ok (v, len pre + len (enc7_32 v)).
Proof. exact decode7_32_spec. Qed.
Print Assumptions C23_uint32.
Theorem C23_uint64 : forall v pre post, is_u64 v ->
  decode7BitUInt64 (pre ++ enc7_64 v ++ post) (len pre) = Ok (v, len pre + len (enc7_64 v)).
Proof. exact decode7_64_spec. Qed.
Print Assumptions C23_uint64.
Example C23_nonvacuous : enc7_64 (2 ^ 64 - 1) = repeat 255 9 /\ enc7_32 300 = [172; 2] /\
  decode7BitUInt32 [9; 172; 2; 200] 1 = Ok (300, 3).
Proof. repeat split. Qed.

(** C24: any packets a conforming encoder can produce, with any choice of codes, for
    any measurements. *)
Theorem C24_lossless : forall packets bs,
  Forall (Forall (fun cm => tmeas_ok (snd cm))) packets -> e_packets enc0 packets = Some bs ->
  forall fuel, Forall (fun p => (length p < fuel)%nat) packets ->
  exists t, d_packets fuel NewDecoder bs = DOk (map (map snd) packets) t.
Proof. exact (fun packets bs H E fuel F => decode_packets packets NewDecoder enc0 bs fuel NewDecoder_rel H E F). Qed.
Print Assumptions C24_lossless.
(** Every list of measurements, however split into packets, can be encoded. *)
Theorem C24_encodable : forall mss, Forall (Forall tmeas_ok) mss ->
  exists packets bs, e_packets enc0 packets = Some bs /\ map (map snd) packets = mss.
Proof.
  intros mss H. destruct (wide_packets mss enc0 enc0_ok H) as (bs & E). exists (map (map wide) mss), bs. split; [exact E|].
  rewrite map_map. rewrite <- (map_id mss) at 2. apply map_ext. intros l. rewrite map_map. apply map_id.
Qed.
Print Assumptions C24_encodable.
Definition C24_packets : list (list (choice * tmeas)) :=
  [[(mkChoice (Some 2) (Some 17) (Some 19) 31, mkTm 7 637000000000000000 300 0x42c80000);
    (mkChoice None (Some 17) None 31, mkTm 8 637000000000000333 0 0x42c80001);
    (mkChoice (Some 1) (Some 8) None 24, mkTm 7 637000000000000666 300 0x42c80005)];
   [(mkChoice None None (Some 19) 21, mkTm 8 637000000000000666 1 0);
    (mkChoice None (Some 16) (Some 18) 20, mkTm 7 637000000000000333 0 0x42c80005)]].
Example C24_nonvacuous :
  exists bs, e_packets enc0 C24_packets = Some bs /\ map len bs = [32; 6] /\
    match d_packets 10 NewDecoder bs with DOk l _ => l = map (map snd) C24_packets | _ => False end.
Proof. eexists. split; [vm_compute; reflexivity|]. split; vm_compute; reflexivity. Qed.

(** C25 *)
Theorem C25_deltas : forall t h, decoded t h ->
  let d := deltas t in let g := gaps_of (h ++ [0]) in
  nth 0 d 0 <= nth 1 d 0 <= nth 2 d 0 /\ nth 2 d 0 <= nth 3 d 0 /\
  (forall i, (i < 3)%nat -> nth i d 0 <> MaxInt64 -> nth i d 0 < nth (i + 1) d 0) /\
  (forall x, In x d -> x = MaxInt64 \/ In x g) /\
  (forall x, In x g -> x <> 0 -> x < nth 3 d 0 -> In x d).
Proof. exact decoded_deltas. Qed.
Print Assumptions C25_deltas.
Example C25_nonvacuous :
  exists t, decoded t [1700; 1500; 1000] /\ deltas t = [200; 500; 1000; MaxInt64].
Proof.
  pose (pk := [[(mkChoice (Some 1) (Some 17) None 20, mkTm 7 1000 0 0); (mkChoice None (Some 17) None 20, mkTm 8 1500 0 0);
                (mkChoice None (Some 17) None 20, mkTm 9 1700 0 0)]]).
  destruct (e_packets enc0 pk) as [[|b [|]]|] eqn:E; vm_compute in E; try discriminate.
  destruct (TryGetMeasurement (SetBuffer NewDecoder b)) as [[m1|] t1| |] eqn:E1; [|exfalso; injection E as <-; vm_compute in E1; discriminate..].
  destruct (TryGetMeasurement t1) as [[m2|] t2| |] eqn:E2; [|exfalso; injection E as <-; vm_compute in E1; injection E1 as <- <-; vm_compute in E2; discriminate..].
  destruct (TryGetMeasurement t2) as [[m3|] t3| |] eqn:E3; [|exfalso; injection E as <-; vm_compute in E1; injection E1 as <- <-; vm_compute in E2; injection E2 as <- <-; vm_compute in E3; discriminate..].
  exists t3. injection E as <-. pose proof E1 as F1. vm_compute in F1. injection F1 as <- <-.
  pose proof E2 as F2. vm_compute in F2. injection F2 as <- <-. pose proof E3 as F3. vm_compute in F3. injection F3 as <- <-.
  split; [|reflexivity].
  exact (dec_some _ _ _ _ (dec_some _ _ _ _ (dec_some _ _ _ _ (dec_buffer _ _ _ dec_new) E1) E2) E3).
Qed.

(** C26: false as stated: a packet that ends inside a measurement makes the decoder
    index beyond the slice. *)
Theorem C26_refuted : exists packet, bytes_ok packet /\ TryGetMeasurement (SetBuffer NewDecoder packet) = DPanic.
Proof. exists [8]. split; [repeat constructor; lia|reflexivity]. Qed.
Print Assumptions C26_refuted.
(** What holds for every state of a decoder, whatever packets it was given and whatever
    its calls returned.  A call panics exactly when the packet ends inside what it reads:
    it is not at the end, and had the packet continued, the call would have ended beyond
    it; *)
Theorem C26_panics_iff_cut_short_partial : forall t, used t -> (TryGetMeasurement t = DPanic <-> cut_short t).
Proof. exact panics_iff_cut. Qed.
Print Assumptions C26_panics_iff_cut_short_partial.
(** the result of a call does not depend on what follows in the packet; *)
Theorem C26_rest_irrelevant_partial : forall t x r t', used t -> ~ all_read t ->
  TryGetMeasurement t = DOk r t' -> TryGetMeasurement (with_more x t) = DOk r (with_more x t').
Proof. exact result_prefix. Qed.
Print Assumptions C26_rest_irrelevant_partial.
(** a call leaves the position inside the packet; *)
Theorem C26_stays_inside_partial : forall t x t', used t -> TryGetMeasurement t = DOk x t' ->
  data t' = data t /\ position t <= position t' <= len (data t).
Proof. exact used_inside. Qed.
Print Assumptions C26_stays_inside_partial.
(** a panic happens only in the last 63 bytes of the packet; *)
Theorem C26_panics_only_at_end_partial : forall t, used t -> TryGetMeasurement t = DPanic -> len (data t) - position t < 64.
Proof. exact used_panic. Qed.
Print Assumptions C26_panics_only_at_end_partial.
(** reading a command never fails for another reason; *)
Theorem C26_commands_never_refused_partial : forall t, used t ->
  (exists code t', ReadCode t = DOk code t' /\ is_code code) \/ ReadCode t = DPanic.
Proof. exact used_ReadCode. Qed.
Print Assumptions C26_commands_never_refused_partial.
(** and decoding a packet ends after at most as many calls as it has bits, plus one. *)
Theorem C26_terminates_partial : forall t packet, used t -> forall fuel, 8 * len packet < Z.of_nat fuel ->
  decode_all fuel (SetBuffer t packet) = decode_all (S (Z.to_nat (8 * len packet))) (SetBuffer t packet) /\
  (forall l t', decode_all fuel (SetBuffer t packet) = DOk l t' -> len l <= 8 * len packet).
Proof. exact used_terminates. Qed.
Print Assumptions C26_terminates_partial.
Example C26_nonvacuous :
  let t := SetBuffer NewDecoder [2; 7; 17; 128; 128; 178; 143; 128; 132; 197; 235; 8; 19; 172; 2; 31; 0; 0; 200; 66] in
  used t /\ ~ all_read t /\
  match TryGetMeasurement t with
  | DOk (Some m) t' => m = mkTm 7 637000000000000000 300 0x42c80000 /\ position t' = 20
  | _ => False
  end /\
  cut_short (SetBuffer NewDecoder [2; 7; 17; 128; 128; 178; 143]).
Proof.
  split; [apply used_buffer, used_new|]. split; [vm_compute; intros [? ?]; discriminate|]. split; [vm_compute; split; reflexivity|].
  apply C26_panics_iff_cut_short_partial; [apply used_buffer, used_new|reflexivity].
Qed.
