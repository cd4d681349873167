(** Metadata documents that are loaded at the same time (C143). *)
From Coq Require Import List Bool ZArith.
From Verif Require Import ConcModel.
Import ListNotations.
Open Scope list_scope.

(** The fields of a MeasurementMetadata that a document sets (Subscriber.go:578-600); texts,
    numbers and times are told apart by numbers here (C88 for what they are). *)
Inductive mfield : Type := FSource | FID | FTag | FReference | FType | FDescription | FUpdated.
Definition mfields : list mfield := [FSource; FID; FTag; FReference; FType; FDescription; FUpdated].
(** A row of MeasurementDetail with a signal ID; a field is None if its column is missing
    or, for the first two, if the ID does not have two parts (Subscriber.go:573-599). *)
Record mrow : Type := MRow { signal : Z; values : mfield -> option Z }.
Definition assignment : Type := (Z * mfield * Z)%type.
(** What a row and a document assign, in order (Subscriber.go:558-602) *)
Definition field_assigns (r : mrow) (f : mfield) : list assignment := match values r f with Some v => [(signal r, f, v)] | None => [] end.
Definition row_assigns (r : mrow) : list assignment := flat_map (field_assigns r) mfields.
Definition assigns (d : list mrow) : list assignment := flat_map row_assigns d.

(** [known]: the fields of the records LookupMetadata gives (one record for each signal:
    C122 for lookups that overlap); [loading]: what the goroutines started for each
    document (DataSubscriber.go:1027) have still to assign; [arrived]: the documents. *)
Record mstate : Type := MState { known : Z -> mfield -> option Z; loading : list (list assignment); arrived : list (list mrow) }.
Definition mfield_eqb (a b : mfield) : bool :=
  match a, b with FSource, FSource | FID, FID | FTag, FTag | FReference, FReference | FType, FType | FDescription, FDescription | FUpdated, FUpdated => true | _, _ => false end.
Definition assign1 (k : Z -> mfield -> option Z) (a : assignment) : Z -> mfield -> option Z :=
  let '(s, f, v) := a in fun s' f' => if Z.eqb s s' && mfield_eqb f f' then Some v else k s' f'.
(** A document arrives, and a goroutine is started for it; or the goroutine of the i-th
    document makes its next assignment.  The assignments are plain: no lock is taken. *)
Inductive mmove : Type := Arrives (d : list mrow) | Assigns (i : nat).
Definition mmstep (s : mstate) (m : mmove) : mstate :=
  match m with
  | Arrives d => MState (known s) (loading s ++ [assigns d]) (arrived s ++ [d])
  | Assigns i => match nth_error (loading s) i with Some (a :: r) => MState (assign1 (known s) a) (set_nth (loading s) i r) (arrived s) | _ => s end
  end.
(** From a new connection, in which nothing is known *)
Definition mnew : mstate := MState (fun _ _ => None) [] [].
Definition mmrun (ms : list mmove) : mstate := fold_left mmstep ms mnew.
