(** Model of the table check of src/map_database.rs *)
From Verif Require Export Instance.

(** A row of the result of [PRAGMA table_info(blocks)], which has one row per column of
    the table, in order: fields 1 (name), 2 (declared type) and 5 (0, or the number of
    the column in the primary key). *)
Record column := Column { col_name : bytes; col_type : bytes; col_pk : Z }.

(** [stmt.read(i)?] in the current row.  Assumed of the sqlite crate: past the last row
    (also if there is no such table) the text is null and reading it is an error. *)
Definition field {A} (row : option column) (f : column -> A) : dres A :=
  match row with Some c => DOk (f c) | None => DErr DatabaseError end.
(** map_database.rs:18-23 *)
Definition my_assert (b : bool) : dres unit := if b then DOk tt else DErr InvalidDatabase.
Definition bindD {A B} (r : dres A) (f : A -> dres B) : dres B :=
  match r with DOk a => f a | DErr e => DErr e end.

(** map_database.rs:28-30 and 32-34 *)
Definition check_column (row : option column) (name type : bytes) (pk : Z) : dres unit :=
  bindD (field row col_name) $ fun n => bindD (my_assert (bool_decide (n = name))) $ fun _ =>
  bindD (field row col_type) $ fun t => bindD (my_assert (bool_decide (t = type))) $ fun _ =>
  bindD (field row col_pk) $ fun k => my_assert (k =? pk).
(** map_database.rs:17-37; the second [next] is only reached from a row *)
Definition verify_database (cols : list column) : dres unit :=
  bindD (check_column (head cols) (bstr "pos") (bstr "INT") 1) $ fun _ =>
  check_column (head (tail cols)) (bstr "data") (bstr "BLOB") 0.

(** The world in which the files have the given tables *)
Definition with_tables (tables : bytes -> list column) (W : world) : world :=
  World (faults W) (rows W) (answer W) (is_file W) (can_open W)
    (fun f => match verify_database (tables f) with DOk _ => true | DErr _ => false end).
