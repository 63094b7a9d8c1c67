(** Which tables are maps *)
From Verif Require Export SpecRefuse Schema.

(** The first two columns are [pos INT] and [data BLOB]; [pos] is the first column of
    the primary key and [data] is not part of it. *)
Definition map_table (cols : list column) : Prop :=
  exists rest, cols = Column (bstr "pos") (bstr "INT") 1 :: Column (bstr "data") (bstr "BLOB") 0 :: rest.
(** There is no table, or it is a map table cut short after [pos]. *)
Definition table_missing (cols : list column) : Prop :=
  cols = [] \/ cols = [Column (bstr "pos") (bstr "INT") 1].
(** [pos] alone is the primary key. *)
Definition pos_is_key (cols : list column) : Prop := Forall (fun c => col_pk c = 0) (tail cols).

(** Contents of a table: one list of values per row.  SQLite allows no two rows with
    the same values in all columns of the primary key. *)
Definition key_of {V} (cols : list column) (row : list V) : list V :=
  snd <$> filter (fun cv => col_pk cv.1 <> 0) (zip cols row).
Definition contents_ok {V} (cols : list column) (rows : list (list V)) : Prop :=
  Forall (fun r => length r = length cols) rows /\ NoDup (key_of cols <$> rows).
(** No two blocks at one position. *)
Definition positions_unique {V} (rows : list (list V)) : Prop := NoDup (head <$> rows).

(** The path leads to a file with a map table. *)
Definition leads_to_map (W : world) (tables : bytes -> list column) (p : bytes) : Prop :=
  exists f, is_file W f = true /\ (f = p \/ is_file W p = false /\ f = path_join p (bstr "map.sqlite")) /\
    can_open W f = true /\ map_table (tables f).
