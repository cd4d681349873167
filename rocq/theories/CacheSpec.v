(** Specification of the signal index cache: a list of records, the last one for
    a key wins; and the publisher's wire format. *)
From stdpp Require Import gmap.
From Verif Require Import Base GuidModel CacheModel.
Open Scope Z_scope.

Record crec : Type := mkRec { r_index : Z; r_guid : guid; r_source : bytes; r_id : Z }.
Definition rec_ok (r : crec) : Prop :=
  is_i32 (r_index r) /\ length (r_guid r) = 16%nat /\ bytes_ok (r_source r) /\ is_u64 (r_id r).

(** The most recently added record satisfying [p]. *)
Definition latest (p : crec -> bool) (rs : list crec) : option crec := List.find p (rev rs).
Definition by_index (i : Z) (r : crec) : bool := r_index r =? i.
Definition by_guid (g : guid) (r : crec) : bool := bytes_eqb (r_guid r) g.

Definition add_all (st : registry * sic) (rs : list crec) : registry * sic :=
  fold_left (fun st r => addRecord st (r_index r) (r_guid r) (r_source r) (r_id r)) rs st.

(** Wire format of one record and of the whole message, with [extra] trailing
    bytes (the unauthorized signal list the Go API skips). *)
Definition rec_wire (swap : bool) (r : crec) : bytes :=
  be_put 4 (u32 (r_index r)) ++ ToBytes (r_guid r) swap ++
  be_put 4 (len (r_source r)) ++ r_source r ++ be_put 8 (r_id r).
Definition cache_wire (swap : bool) (declared : Z) (sub : guid) (rs : list crec) (extra : bytes) : bytes :=
  be_put 4 declared ++ ToBytes sub swap ++ be_put 4 (len rs) ++
  concat (map (rec_wire swap) rs) ++ extra.

(** What the registry holds for a signal after the records [rs], [old] before them: an
    entry with a source stays; otherwise the first record that names a source counts,
    or the last one when none does. *)
Definition registered (old : option (bytes * Z)) (rs : list crec) (g : guid) : option (bytes * Z) :=
  let of_g := List.filter (by_guid g) rs in
  match old with
  | Some (_ :: _, _) => old
  | _ => match List.find (fun r => negb (len (r_source r) =? 0)) of_g with
         | Some r => Some (r_source r, r_id r)
         | None => match List.rev of_g with
                   | r :: _ => Some (r_source r, r_id r)
                   | [] => old
                   end
         end
  end.

(** The size of a cache's records in a message of a publisher. *)
Definition records_size (rs : list crec) : Z := fold_right (fun r n => 32 + len (r_source r) + n) 0 rs.
