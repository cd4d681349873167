(** Closing a subscriber: Subscriber.Close (/repo/sttp/Subscriber.go:88-92),
    DataSubscriber.Dispose (/repo/sttp/transport/DataSubscriber.go:206-214, DS) and
    the test of disposing in SubscriberConnector.connect
    (/repo/sttp/transport/SubscriberConnector.go:193-240, SC), on top of the
    goroutines of ShutdownModel, with its simplifications.

    Every call of Close and of Dial is made by a goroutine of its own: a program
    that makes calls one after another has fewer schedules.  The ten milliseconds
    that Dispose waits at its end (DS 212-213) order nothing and are left out.  A
    goroutine in disconnect on behalf of Close is a goroutine of ShutdownModel,
    which takes its steps when the call does. *)
From Coq Require Import Arith.
From Verif Require Import Base ConcModel ShutdownModel.

(** Control points of a call of Close *)
Inductive cpc : Type :=
| CNew                    (* before disposing.Set (DS 207); Cancel (208) does not block *)
| CTest                   (* before the test of disconnecting (DS 610) *)
| CIn                     (* in disconnect, past the test, until the thread is started (627-644) *)
| CSee                    (* disconnecting was set; before the thread is read (615-617) *)
| CSaw (t : option nat)   (* before the test of disconnected (619) *)
| CJoin (t : nat)         (* before the test of running in Join (T 76; DS 620, 647) *)
| CWait (t : nat)         (* before mutex.Lock in Join (T 80) *)
| CBack (waited : bool).  (* Close returned; whether Join waited for the thread *)
(** [self] is the goroutine; [host], for a call made in a callback, the goroutine that
    calls the callback. *)
Record closer : Type := Closer { self : nat; host : option nat; cat : cpc }.
(** Control points of a call of Dial, as far as the tests of disposing (SC 207, 215);
    what follows is connect of ShutdownModel.  The test of cancel (SC 191) is left out:
    it only stops more calls. *)
Inductive kpc : Type := KTest | KIn | KCanceled.
Record dialer : Type := Dialer { caller : nat; kat : kpc }.

Record cst : Type := CState { base : sst; disposing : bool; closers : list closer; dialers : list dialer }.

(** Where callbacks are called: the reader between two reads, the disconnect thread (DS
    698).  A callback that calls Close ends when Close returns. *)
Definition calls_back (s : sst) (h : nat) : bool :=
  match nth_error (sgors s) h with Some (Reader _ RdRead) | Some (Disc _ XNotify) => true | _ => false end.
Definition may_begin (s : sst) (c : closer) : bool := match host c with Some h => calls_back s h | None => true end.
Definition under_way (c : closer) : bool := match cat c with CNew | CBack _ => false | _ => true end.
(** Goroutines that do not step by themselves: they are in a callback, or do what a call
    of Close or Dial above does. *)
Definition held_up (s : cst) (i : nat) : bool :=
  existsb (fun c => Nat.eqb (self c) i || match host c with Some h => Nat.eqb h i && under_way c | None => false end) (closers s) ||
  existsb (fun d => Nat.eqb (caller d) i && match kat d with KIn => false | _ => true end) (dialers s).

(** DS 206-214, 608-649 with joinThread: the next step of call [k] of Close *)
Definition close_step (s : cst) (k : nat) : option cst :=
  if crashed (base s) then None else
  match nth_error (closers s) k with
  | None => None
  | Some c =>
    let u := self c in
    let at_ b p := Some (CState b (disposing s) (set_nth (closers s) k (Closer u (host c) p)) (dialers s)) in
    match cat c with
    | CNew => if may_begin (base s) c then Some (CState (base s) true (set_nth (closers s) k (Closer u (host c) CTest)) (dialers s)) else None
    | CTest => if disconnecting (base s) then at_ (goes (base s) u (User UIdle [])) CSee
               else at_ (goes (base s) u (User (UDisc DSet) [])) CIn
    | CIn => match sstep (base s) u with
             | Some b => at_ b (match nth_error (sgors (base s)) u with Some (User (UDisc DStart) _) => CJoin (length (sgors (base s))) | _ => CIn end)
             | None => None
             end
    | CSee => at_ (base s) (CSaw (dthread (base s)))
    | CSaw t => at_ (base s) (match t with Some t => if disconnected (base s) then CBack false else CJoin t | None => CBack false end)
    | CJoin t => at_ (base s) (if is_running (base s) t then CWait t else CBack false)
    | CWait t => if is_held (base s) t then None else at_ (base s) (CBack true)
    | CBack _ => None
    end
  end.
(** SC 207-221: call [k] of Dial tests disposing *)
Definition dial_step (s : cst) (k : nat) : option cst :=
  if crashed (base s) then None else
  match nth_error (dialers s) k with
  | Some (Dialer u KTest) =>
    if disposing s then Some (CState (base s) true (closers s) (set_nth (dialers s) k (Dialer u KCanceled)))
    else Some (CState (goes (base s) u (User UIdle [OConnect])) false (closers s) (set_nth (dialers s) k (Dialer u KIn)))
  | _ => None
  end.

(** A schedule: a step of a goroutine of ShutdownModel or the publisher closing a
    connection, a step of a call of Close, a step of a call of Dial *)
Inductive cact : Type := CAct (a : sact) | CClose (k : nat) | CDial (k : nat).
Definition cact_step (s : cst) (a : cact) : option cst :=
  match a with
  | CAct a =>
    if match a with Go i => held_up s i | Closes _ => false end then None
    else match sact_step (base s) a with Some b => Some (CState b (disposing s) (closers s) (dialers s)) | None => None end
  | CClose k => close_step s k
  | CDial k => dial_step s k
  end.
Fixpoint crun (s : cst) (sched : list cact) : cst :=
  match sched with [] => s | a :: r => crun (match cact_step s a with Some s' => s' | None => s end) r end.

(** A connected subscriber; a call of Close for each of [hosts], [dials] calls of Dial,
    and goroutines that make [calls].  Goroutine 0 is the reader. *)
Fixpoint closers_from (n : nat) (hosts : list (option nat)) : list closer :=
  match hosts with [] => [] | h :: r => Closer n h CNew :: closers_from (S n) r end.
Definition cinit (hosts : list (option nat)) (dials : nat) (calls : list (list uop)) : cst :=
  CState (sconnected (map (fun _ => [ODisconnect]) hosts ++ repeat [] dials ++ calls)) false
    (closers_from 1 hosts) (map (fun i => Dialer i KTest) (seq (1 + length hosts) dials)).
