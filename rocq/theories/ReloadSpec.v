(** Loading a document into a data set that has tables already (C137). *)
From Coq Require Import String.
From Verif Require Import Base StrModel ExprModel TableModel TableSpec XmlModel.
Open Scope list_scope.
Open Scope Z_scope.

(** The fields of the rows, without the rows' identities *)
Definition contents (t : dtable) : list (option (list (option slot))) := map (option_map row_values) (dt_rows t).
(** The same name and columns *)
Definition same_columns (t t' : dtable) : Prop := dt_name t' = dt_name t /\ dt_indexes t' = dt_indexes t /\ dt_columns t' = dt_columns t.
(** The same name, columns and fields *)
Definition same_table (t t' : dtable) : Prop := same_columns t t' /\ contents t' = contents t.
(** Data sets whose tables were made by the API, whatever rows they have *)
Definition built (L : lib) (ds : dset) : Prop := Forall (fun e => exists cs, same_columns (columns_history L (dt_name (snd e)) cs) (snd e)) ds.
(** The root element has a child element of this name, letter for letter *)
Definition has_records (root : xelem) (name : bytes) : Prop := exists e, In e (x_children root) /\ x_local e = name.
