(** Model of the connection and reconnection sequencing of a subscriber
    (sttp/transport/SubscriberConnector.go).

    Two models are given.  The first runs one connection sequence to the end
    against a list saying what each dial meets; it gives the delays, the number
    of dials and the reported status.  The second is a small-step model of the
    reconnect goroutine against a goroutine calling Cancel and against the
    run-time timer, at the granularity of the shared-memory accesses. *)
From Verif Require Import Base.

(** ** Settings *)

(** SubscriberConnector.go:53-62 (MaxRetries, RetryInterval, MaxRetryInterval;
    all int32).  AutoReconnect and the host name and port do not influence the
    sequence itself and are left out. *)
Record settings : Type := Settings {
  maxRetries : Z;
  retryInterval : Z;
  maxRetryInterval : Z
}.

(** ** waitForRetry: the delay *)

(** SubscriberConnector.go:133-181: milliseconds handed to time.NewTimer by
    waitForRetry when connectAttempt is [attempt].  math.Pow(2, exponent) is
    exact here because the exponent is an integer between 0 and 13 whenever it
    is used; the int32 product wraps. The status message is left out. *)
Definition waitForRetry_delay (c : settings) (attempt : Z) : Z :=
  let exponent := if 13 <? attempt then 12 else attempt in
  let ri := if 0 <? attempt then i32 (retryInterval c * 2 ^ exponent) else 0 in
  let ri := if maxRetryInterval c <? ri then maxRetryInterval c else ri in
  if 0 <? ri then ri else retryInterval c.

(** ** connect *)

(** ConnectStatus (transport/Constants.go:698-711):
    Success, Failed, Canceled; [Running] stands for a sequence which has used
    up the given list of dial outcomes and goes on. *)
Inductive status : Type := Success | Failed | Canceled | Running.

(** What one call of net.Dial meets (DataSubscriber.go:361), and for a failed
    dial whether Cancel is called before the following wait is over. *)
Inductive dial : Type :=
| Accepts
| Fails (cancelled : bool).

(** Observable events of a sequence: a dial, and a wait of so many milliseconds. *)
Inductive event : Type := Dial | Wait (ms : Z).

(** SubscriberConnector.go:207-233: the loop of connect, entered with
    connectAttempt = [attempt].  DataSubscriber.go:354-356: a dial that is not
    auto-reconnecting first resets connectAttempt to 0 (ResetConnection).
    Simplifications: the subscriber is not disposed, not connected and not
    listening when the loop starts; a dial that succeeds leaves it connected. *)
Fixpoint connect_loop (c : settings) (autoReconnecting : bool) (attempt : Z)
    (dials : list dial) : list event * status * Z :=
  if negb (maxRetries c =? -1) && (maxRetries c <=? attempt) then ([], Failed, attempt)
  else
    let attempt := i32 (attempt + 1) in
    match dials with
    | [] => ([], Running, attempt)
    | d :: rest =>
        let attempt := if autoReconnecting then attempt else 0 in
        match d with
        | Accepts => ([Dial], Success, attempt)
        | Fails cancelled =>
            if 0 <? retryInterval c then
              let w := Wait (waitForRetry_delay c attempt) in
              if cancelled then ([Dial; w], Canceled, attempt)
              else let '(es, st, a) := connect_loop c true attempt rest in
                   (Dial :: w :: es, st, a)
            else let '(es, st, a) := connect_loop c autoReconnecting attempt rest in
                 (Dial :: es, st, a)
        end
    end.

(** SubscriberConnector.go:190-196 Connect and 198-242 connect (the cancel flag
    is cleared at line 205): [attempt] is the value of connectAttempt left by
    earlier sequences. *)
Definition Connect (c : settings) (attempt : Z) (dials : list dial) : list event * status * Z :=
  connect_loop c false attempt dials.

(** SubscriberConnector.go:95-117: the body of the reconnect goroutine started by
    autoReconnect after a connection ended.  [refused] is connectionRefused: the
    publisher answered the operational modes with a failure
    (DataSubscriber.go:986).  [cancelled] says whether Cancel is called during
    the first wait. *)
Definition reconnect (c : settings) (refused cancelled : bool) (attempt : Z)
    (dials : list dial) : list event * status * Z :=
  let attempt := if refused then attempt else 0 in
  if negb (maxRetries c =? -1) && (maxRetries c <=? attempt) then ([], Failed, attempt)
  else
    let w := Wait (waitForRetry_delay c attempt) in
    if cancelled then ([w], Canceled, attempt)
    else let '(es, st, a) := connect_loop c true attempt dials in (w :: es, st, a).

(** What becomes of a session of connections made with AutoReconnect on: the
    subscriber connects, the publisher refuses the operational modes (or the
    connection is lost later), the reconnect goroutine runs, and so on.  Each
    element says how the connection ended and what the following dials meet.
    DataSubscriber.go:651-722 (runDisconnectThread calls AutoReconnectCallback). *)
Fixpoint session (c : settings) (attempt : Z) (history : list (bool * list dial))
    : list event * status * Z :=
  match history with
  | [] => ([], Running, attempt)
  | (refused, dials) :: rest =>
      let '(es, st, a) := reconnect c refused false attempt dials in
      match st with
      | Success => let '(es', st', a') := session c a rest in (es ++ es', st', a')
      | _ => (es, st, a)
      end
  end.

(** ** Cancel against the reconnect goroutine *)

(** Control points of the reconnect goroutine (SubscriberConnector.go:95-117 and
    the parts of waitForRetry and connect it runs).  [outer] distinguishes the
    wait of line 106 from the waits of the connect loop at line 225. *)
Inductive wpc : Type :=
| WReset                      (* line 97-99: ResetConnection clears cancel *)
| WMakeTimer (outer : bool)   (* line 180: time.NewTimer *)
| WPublish (outer : bool)     (* lines 182-184: sc.waitTimer = waitTimer *)
| WReceive (outer : bool)     (* line 186: <-waitTimer.C *)
| WCheck (outer : bool)       (* line 108 or 227: cancel.IsSet *)
| WUnset                      (* line 205: connect clears cancel *)
| WDial                       (* line 219: ds.connect *)
| WDone (connected : bool).   (* the goroutine has ended *)

(** Control points of the goroutine calling Cancel (lines 245-263). *)
Inductive xpc : Type :=
| XSet                        (* line 246 *)
| XLoad                       (* lines 248-250 *)
| XStop (loaded : option nat) (* lines 252-254, with the timer it loaded *)
| XJoin                       (* lines 256-262 *)
| XDone.

(** The current retry timer: created but not yet fired, fired with its value
    still in the channel, or stopped (its channel never receives a value;
    time.Timer.Stop does not close the channel). *)
Inductive timer : Type := NoTimer | Armed | Fired | Stopped.

Record cstate : Type := CState {
  cancel : bool;
  tid : nat;                 (* number of the current timer *)
  tmr : timer;               (* its state *)
  waitTimer : option nat;    (* the timer sc.waitTimer points to *)
  w : wpc;
  x : xpc
}.

(** One step: the reconnect goroutine (with the outcome of a dial, if it makes
    one), the cancelling goroutine, or the run-time timer. *)
Inductive act : Type := AW (accepted : bool) | AX | ATimer.

(** None: the goroutine is blocked, has ended, or there is no armed timer.
    RetryInterval is positive; the retry limit is not reached; the Thread's
    running flag is already set when Cancel reaches Join (Join returns at once
    otherwise).  The waits of this model have no duration: the timer may fire at
    any moment after it was armed.  Timer channels are those of go 1.22 (go.mod
    line 3), where Stop leaves an already delivered value in the channel. *)
Definition cstep (refused : bool) (s : cstate) (a : act) : option cstate :=
  let '(CState c n t p w x) := s in
  match a with
  | ATimer => match t with Armed => Some (CState c n Fired p w x) | _ => None end
  | AW accepted =>
      match w with
      | WReset => Some (CState (if refused then c else false) n t p (WMakeTimer true) x)
      | WMakeTimer o => Some (CState c (S n) Armed p (WPublish o) x)
      | WPublish o => Some (CState c n t (Some n) (WReceive o) x)
      | WReceive o => match t with Fired => Some (CState c n NoTimer p (WCheck o) x) | _ => None end
      | WCheck o => Some (CState c n t p (if c then WDone false else if o then WUnset else WDial) x)
      | WUnset => Some (CState false n t p WDial x)
      | WDial => Some (CState c n t p (if accepted then WDone true else WMakeTimer false) x)
      | WDone _ => None
      end
  | AX =>
      match x with
      | XSet => Some (CState true n t p w XLoad)
      | XLoad => Some (CState c n t p w (XStop p))
      | XStop q =>
          (* Stop on an older timer does nothing: its channel was received from already *)
          let t' := match q, t with
                    | Some k, Armed => if Nat.eqb k n then Stopped else Armed
                    | _, _ => t
                    end in
          Some (CState c n t' p w XJoin)
      | XJoin => match w with WDone _ => Some (CState c n t p w XDone) | _ => None end
      | XDone => None
      end
  end.

(** A schedule is a list of attempted steps; one that cannot be taken is skipped. *)
Fixpoint crun (refused : bool) (s : cstate) (sched : list act) : cstate :=
  match sched with
  | [] => s
  | a :: rest => crun refused (match cstep refused s a with Some s' => s' | None => s end) rest
  end.

(** The reconnect goroutine has just been started; Cancel has not been called. *)
Definition cinit : cstate := CState false 0 NoTimer None WReset XSet.
