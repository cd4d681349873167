(** The slices in which measurements are delivered, and the pool of slices that the
    application gives back (sttp/transport/DataSubscriber.go:165 and 1224-1263,
    sttp/Subscriber.go:103-106), with any number of goroutines decoding packets (the
    command channel's and the data channel's reader).

    A slice is a pointer to a header, which names an array and a length; pointers and
    arrays are numbered in the order of their allocation.  Simplifications: what a
    packet contains is given with the action that fetches its slice; a write of one
    measurement is one step; the two statements of PutMeasurementSlice are one step. *)
From Verif Require Import Base CompactModel.
Open Scope Z_scope.

Fixpoint set_at {A} (l : list A) (n : nat) (x : A) : list A :=
  match l, n with
  | [], _ => []
  | _ :: r, O => x :: r
  | a :: r, S m => a :: set_at r m x
  end.
Fixpoint drop_at {A} (l : list A) (n : nat) : list A :=
  match l, n with
  | [], _ => []
  | _ :: r, O => r
  | a :: r, S m => a :: drop_at r m
  end.

(** A decoding goroutine: between packets, or with the slice [p], whose array is
    [array], of which [written] elements are written and [todo] remain to be. *)
Inductive worker := WIdle | WFill (p array written : nat) (todo : list measurement).
Record pstate := PState {
  p_arrays : list (list measurement);    (* all elements, up to the capacity *)
  p_slices : list (nat * nat);           (* header: array and length *)
  p_pool : list nat;                     (* DataSubscriber.go:165: a sync.Pool of pointers *)
  p_workers : nat -> worker }.
Definition pstart : pstate := PState [] [] [] (fun _ => WIdle).
Definition array_of (s : pstate) (a : nat) : list measurement := nth a (p_arrays s) [].
(** What one sees through a pointer. *)
Definition view (s : pstate) (p : nat) : list measurement :=
  match nth_error (p_slices s) p with Some (a, n) => firstn n (array_of s a) | None => [] end.
Definition set_worker (s : pstate) (t : nat) (w : worker) : nat -> worker := fun u => if (u =? t)%nat then w else p_workers s u.

Inductive paction :=
| PGet (t : nat) (got : option nat) (count : nat) (ms : list measurement)  (* goroutine t: which element of the pool Get returns *)
| PWrite (t : nat)
| PCall (t : nat)                               (* it calls the application's callback *)
| PPut (p : nat)                                (* the application calls PutMeasurementSlice *)
| PNew (l : list measurement)                   (* the application makes a slice of its own *)
| PStore (p i : nat) (m : measurement)          (* the application writes an element *)
| PDrop (i : nat).                              (* the garbage collector empties part of the pool *)
Inductive pevent := PDelivered (t p : nat) (l : list measurement).

(** [None] when the action is not possible. *)
Definition pstep (s : pstate) (a : paction) : option (pstate * list pevent) :=
  match a with
  (* DataSubscriber.go:1225-1236 and 1247-1251, with the measurements [ms] that the
     packet contains, at most [count] (the loops stop at the end of the slice) *)
  | PGet t got count ms =>
    match p_workers s t, (length ms <=? count)%nat with
    | WIdle, true =>
      match got with
      | None =>
        let a := length (p_arrays s) in
        let p := length (p_slices s) in
        Some (PState (p_arrays s ++ [repeat zeroMeas count]) (p_slices s ++ [(a, count)]) (p_pool s) (set_worker s t (WFill p a 0 ms)), [])
      | Some i =>
        match nth_error (p_pool s) i with
        | None => None
        | Some p =>
          match nth_error (p_slices s) p with
          | None => None
          | Some (a, _) =>
            if (length (array_of s a) <? count)%nat
            then let a' := length (p_arrays s) in
                 Some (PState (p_arrays s ++ [repeat zeroMeas count]) (set_at (p_slices s) p (a', count)) (drop_at (p_pool s) i) (set_worker s t (WFill p a' 0 ms)), [])
            else Some (PState (p_arrays s) (set_at (p_slices s) p (a, count)) (drop_at (p_pool s) i) (set_worker s t (WFill p a 0 ms)), [])
          end
        end
      end
    | _, _ => None
    end
  (* DataSubscriber.go:1333-1341 and 1373-1388: one measurement *)
  | PWrite t =>
    match p_workers s t with
    | WFill p a k (m :: todo) =>
      Some (PState (set_at (p_arrays s) a (set_at (array_of s a) k m)) (p_slices s) (p_pool s) (set_worker s t (WFill p a (S k) todo)), [])
    | _ => None
    end
  (* DataSubscriber.go:1253-1261 *)
  | PCall t =>
    match p_workers s t with
    | WFill p a k [] => Some (PState (p_arrays s) (p_slices s) (p_pool s) (set_worker s t WIdle), [PDelivered t p (view s p)])
    | _ => None
    end
  (* Subscriber.go:103-106 *)
  | PPut p =>
    match nth_error (p_slices s) p with
    | Some (a, _) => Some (PState (p_arrays s) (set_at (p_slices s) p (a, 0%nat)) (p_pool s ++ [p]) (p_workers s), [])
    | None => None
    end
  | PNew l => Some (PState (p_arrays s ++ [l]) (p_slices s ++ [(length (p_arrays s), length l)]) (p_pool s) (p_workers s), [])
  | PStore p i m =>
    match nth_error (p_slices s) p with
    | Some (a, n) => if (i <? n)%nat then Some (PState (set_at (p_arrays s) a (set_at (array_of s a) i m)) (p_slices s) (p_pool s) (p_workers s), []) else None
    | None => None
    end
  | PDrop i => Some (PState (p_arrays s) (p_slices s) (drop_at (p_pool s) i) (p_workers s), [])
  end.
