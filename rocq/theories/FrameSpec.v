(** Specification of framing, operational modes and connection strings. *)
From Coq Require Import String Ascii.
From Verif Require Import Base FormatModel FrameModel.
Open Scope Z_scope.

(** One outgoing frame: length of what follows, command byte, payload. *)
Definition frame (cmd : Z) (payload : bytes) : bytes :=
  be_put 4 (len payload + 1) ++ cmd :: payload.

(** A peer that follows the length fields: splits a byte stream into frames. *)
Fixpoint split_frames (fuel : nat) (s : bytes) : option (list (Z * bytes)) :=
  match s with
  | [] => Some []
  | _ =>
      match fuel with
      | O => None
      | S fuel' =>
          let n := Z.to_nat (be_val (firstn 4 s)) in
          let rest := skipn 4 s in
          if (length rest <? n)%nat then None
          else match firstn n rest with
               | [] => None
               | cmd :: payload =>
                   match split_frames fuel' (skipn n rest) with
                   | Some l => Some ((cmd, payload) :: l)
                   | None => None
                   end
               end
      end
  end.

(** Sending a list of commands one after the other from one goroutine: what the
    socket receives. *)
Fixpoint send_all (wb : bytes) (cmds : list (Z * bytes)) : res bytes :=
  match cmds with
  | [] => Ok []
  | (c, d) :: rest =>
      let* r := SendServerCommandWithPayload true wb c d in
      let* more := send_all (fst r) rest in
      Ok (match snd r with Some f => f | None => [] end ++ more)
  end.

(** An incoming packet on the wire. *)
Definition packet_wire (p : bytes) : bytes := be_put 4 (len p) ++ p.

(** The byte stream a socket will deliver, and legal splits (no empty reads). *)
Definition stream (r : reader) : bytes := buffered r ++ concat (under r).
Definition nonempty_chunks (s : sock) : Prop := Forall (fun c => c <> []) s.

(** Handling packets one after the other, without any network. *)
Fixpoint handle_all {S} (header : S -> Z -> after S) (process : S -> bytes -> after S)
  (st : S) (ps : list bytes) : after S :=
  match ps with
  | [] => Continue st
  | p :: ps' =>
      match header st (len p) with
      | Continue st1 =>
          match process st1 p with
          | Continue st2 => handle_all header process st2 ps'
          | x => x
          end
      | x => x
      end
  end.

(** Connection strings: key=value pairs separated by ';' outside braces. *)
Definition c_semi : Z := 59. Definition c_eq : Z := 61. Definition c_open : Z := 123. Definition c_close : Z := 125.

(** [cut d s]: the text up to the first ';' at brace depth 0 (starting at depth
    [d]) and the text after it, if there is one. *)
Fixpoint cut (d : nat) (s : bytes) : bytes * option bytes :=
  match s with
  | [] => ([], None)
  | c :: r =>
      if (c =? c_semi) && (d =? 0)%nat then ([], Some r)
      else
        let d' := if c =? c_open then S d else if c =? c_close then pred d else d in
        let '(a, b) := cut d' r in (c :: a, b)
  end.
Fixpoint segments (fuel : nat) (s : bytes) : list bytes :=
  match fuel with
  | O => []
  | S fuel' =>
      match cut 0 s with
      | (a, None) => [a]
      | (a, Some r) => a :: segments fuel' r
      end
  end.
(** Split a segment at its first '='; None when there is none. *)
Fixpoint key_value (s : bytes) : option (bytes * bytes) :=
  match s with
  | [] => None
  | c :: r => if c =? c_eq then Some ([], r)
              else match key_value r with Some (k, v) => Some (c :: k, v) | None => None end
  end.
Definition parse_conn (s : bytes) : list (option (bytes * bytes)) :=
  map key_value (segments (S (length s)) s).

(** Text that may be used as a value without quoting: balanced braces (never
    closing more than was opened) and no ';' outside them. *)
Fixpoint safe_from (d : nat) (s : bytes) : bool :=
  match s with
  | [] => (d =? 0)%nat
  | c :: r =>
      if c =? c_open then safe_from (S d) r
      else if c =? c_close then match d with O => false | S d' => safe_from d' r end
      else if (c =? c_semi) && (d =? 0)%nat then false
      else safe_from d r
  end.
(** Text that may be used between braces: balanced. *)
Fixpoint balanced_from (d : nat) (s : bytes) : bool :=
  match s with
  | [] => (d =? 0)%nat
  | c :: r =>
      if c =? c_open then balanced_from (S d) r
      else if c =? c_close then match d with O => false | S d' => balanced_from d' r end
      else balanced_from d r
  end.
Definition safe (s : bytes) : Prop := safe_from 0 s = true.
Definition balanced (s : bytes) : Prop := balanced_from 0 s = true.

Definition settings_ok (s : settings) : Prop :=
  safe (s_PublishInterval s) /\ safe (s_LagTime s) /\ safe (s_LeadTime s) /\
  safe (s_StartTime s) /\ safe (s_StopTime s) /\ safe (s_ConstraintParameters s) /\
  balanced (s_FilterExpression s) /\
  balanced (s_STTPSourceInfo s) /\ balanced (s_STTPVersionInfo s) /\ balanced (s_STTPUpdatedOnInfo s) /\
  is_i32 (s_ProcessingInterval s) /\ 0 <= s_DataChannelLocalPort s < 65536.

(** The settings a publisher should see, as key/value pairs in order. *)
Definition braces (s : bytes) : bytes := c_open :: s ++ [c_close].
Definition bool_text (b : bool) : bytes := if b then str "true" else str "false".
Definition optional (c : bool) (kv : bytes * bytes) : list (bytes * bytes) := if c then [kv] else [].
Definition nonempty (s : bytes) : bool := match s with [] => false | _ => true end.

Definition settings_before (s : settings) : list (bytes * bytes) :=
  [(str "throttled", bool_text (s_Throttled s));
   (str "publishInterval", s_PublishInterval s);
   (str "includeTime", bool_text (s_IncludeTime s));
   (str "enableTimeReasonabilityCheck", bool_text (s_EnableTimeReasonabilityCheck s));
   (str "lagTime", s_LagTime s);
   (str "leadTime", s_LeadTime s);
   (str "useLocalClockAsRealTime", bool_text (s_UseLocalClockAsRealTime s));
   (str "processingInterval", FormatInt (s_ProcessingInterval s));
   (str "useMillisecondResolution", bool_text (s_UseMillisecondResolution s))].
Definition nan_setting (s : settings) : bytes * bytes :=
  (str "requestNaNValueFilter", bool_text (s_RequestNaNValueFilter s)).
Definition settings_after (s : settings) : list (bytes * bytes) :=
  (str "assemblyInfo",
     braces (str "source=" ++ s_STTPSourceInfo s ++ str ";version=" ++ s_STTPVersionInfo s ++
             str ";updatedOn=" ++ s_STTPUpdatedOnInfo s))
  :: optional (nonempty (s_FilterExpression s)) (str "filterExpression", braces (s_FilterExpression s))
  ++ optional (s_UdpDataChannel s) (str "dataChannel", braces (str "localport=" ++ FormatInt (s_DataChannelLocalPort s)))
  ++ optional (nonempty (s_StartTime s)) (str "startTimeConstraint", s_StartTime s)
  ++ optional (nonempty (s_StopTime s)) (str "stopTimeConstraint", s_StopTime s)
  ++ optional (nonempty (s_ConstraintParameters s)) (str "timeConstraintParameters", s_ConstraintParameters s).

(** The full intended reading. *)
Definition intended (s : settings) : list (bytes * bytes) :=
  settings_before s ++ nan_setting s :: settings_after s.
