(** The running program: database connections, status, faults.

    [M A] is the type of program actions.  An action reads the [world] (what the
    program does not control: which database statements fail, the order of table
    rows, the answer of the user, which files exist) and updates the [sys] (what
    the program changes: databases, status, messages). *)
From Verif Require Export BlockUtils.

(** * SQLite

    Assumed behaviour of the SQLite library (external; not modelled further):
    a connection sees the file plus its open transaction; BEGIN, COMMIT, reads,
    writes and VACUUM behave as [st_*] below; COMMIT is atomic; when the process
    dies, the file keeps what was committed.  A table [blocks] with unique keys
    [pos] (i64) and BLOB [data] is a finite map. *)
Notation mapdata := (gmap Z bytes).
Record conn := Conn { disk : mapdata; work : option mapdata }.
(** What statements on this connection see. *)
Definition view (c : conn) : mapdata := default (disk c) (work c).

Definition st_begin (c : conn) : option (unit * conn) :=
  match work c with Some _ => None | None => Some (tt, Conn (disk c) (Some (disk c))) end.
Definition st_commit (c : conn) : option (unit * conn) :=
  match work c with Some m => Some (tt, Conn m None) | None => None end.
(** Outside a transaction every statement commits by itself. *)
Definition st_write (g : mapdata -> mapdata) (c : conn) : option (unit * conn) :=
  Some (tt, match work c with
            | Some m => Conn (disk c) (Some (g m))
            | None => Conn (g (disk c)) None
            end).
Definition st_read {A} (h : mapdata -> A) (c : conn) : option (A * conn) := Some (h (view c), c).
Definition st_vacuum (c : conn) : option (unit * conn) :=
  match work c with Some _ => None | None => Some (tt, c) end.

(** src/map_database.rs:62-68: connection and [in_transaction] flag *)
Record mapdb := MDB { cn : conn; in_tr : bool }.

(** * Status (src/instance.rs:59-111) *)

(** instance.rs:61-65 *)
Inductive inst_state := Ignore | Querying | Editing.
(** instance.rs:69-75 *)
Record status_t := Status {
  show_progress : bool; blocks_total : Z; blocks_done : Z; blocks_failed : Z;
  state : inst_state }.
(** instance.rs:78-86 *)
Definition status_new : status_t := Status true 0 0 0 Ignore.

(** instance.rs:90-94 *)
Inductive log_type := LInfo | LWarning | LError.

(** Why arguments are rejected (messages of [verify_args] functions). *)
Inductive arg_error :=
  | InvertNoArea | CornerOutside (p : vec3) | OffsetTooLarge
  | BadNodeName (n : bytes) | BadObjectName (n : bytes) | BadItemName (n : bytes)
  | SameNode | NeedAreaOrNode | ObjAndItems | ValueRequired | ValueForbidden | ValueEmpty
  | NewItemRequired | NewItemForbidden | SameItem | InvertedOffset | DestOutside.
Inductive inst_error :=
  | EArg (e : arg_error) | EOpenMain | EBadMain | EOpenInput | EBadInput | ECommit.

(** Log messages, with numbers not yet formatted (see Fmt.v). *)
Inductive msg :=
  | MFilled (n : Z) | MReplaced (n : Z) | MParam2 (n : Z) | MMeta (n : Z) | MTimers (n : Z)
  | MObjects (n : Z) | MVars (n : Z) | MStacks (items nodes : Z)
  | MVacStart | MVacDone | MVacFailed
  | MSkipped (n : Z) | MCommitting | MDone
  | MDanger | MAllMeta
  | MErr (e : inst_error).

(** What other threads can observe, in order: events sent to the client
    (instance.rs:107-111) and values of the shared status. *)
Inductive tev :=
  | TLog (lt : log_type) (m : msg)
  | TState (st : inst_state)
  | TConfirm
  | TStatus (s : status_t).

(** * System and world *)

Record sys := Sys {
  db : mapdb;            (* main map *)
  idb : mapdb;           (* input map *)
  has_idb : bool;        (* [InstBundle.idb] is [Some] *)
  ticks : nat;           (* number of database statements so far *)
  status : status_t;
  trace : list tev }.

(** Outcome of a database statement, chosen by the environment:
    it works; it fails, possibly with the automatic rollback that some SQLite
    errors cause; the process is killed before or after it takes effect. *)
Inductive fault := FOk | FFail (rollback : bool) | FKill (after : bool).

Record world := World {
  faults : nat -> fault;
  rows : nat -> mapdata -> list (Z * bytes);   (* order of table rows *)
  answer : bool;                               (* reply to the confirmation prompt *)
  is_file : bytes -> bool;                     (* path names a file *)
  can_open : bytes -> bool;                    (* SQLite can open the file *)
  valid_map : bytes -> bool }.                 (* its [blocks] table is as expected *)

Definition world_ok (W : world) : Prop := forall t m, rows W t m ≡ₚ map_to_list m.
Definition no_faults (W : world) : Prop := forall t, faults W t = FOk.
(** The same world without faults. *)
Definition calm (W : world) : world :=
  World (fun _ => FOk) (rows W) (answer W) (is_file W) (can_open W) (valid_map W).

(** * Actions *)

Inductive run (A : Type) := Done (a : A) | Panicked | Killed.
Global Arguments Done {A} a.
Global Arguments Panicked {A}.
Global Arguments Killed {A}.

Definition M (A : Type) : Type := world -> sys -> run A * sys.
Global Instance M_ret : MRet M := fun A a W s => (Done a, s).
Global Instance M_bind : MBind M := fun A B f m W s =>
  match m W s with
  | (Done a, s') => f a W s'
  | (Panicked, s') => (Panicked, s')
  | (Killed, s') => (Killed, s')
  end.
Definition panic {A} : M A := fun W s => (Panicked, s).
Definition ask {A} (f : world -> A) : M A := fun W s => (Done (f W), s).
Definition gets {A} (f : sys -> A) : M A := fun W s => (Done (f s), s).
Definition modify (f : sys -> sys) : M unit := fun W s => (Done tt, f s).
(** Pure code that may panic. *)
Definition lift {A} (o : out A) : M A := match o with Ret a => mret a | Panic => panic end.
Definition unwrapM {A} (o : option A) : M A := lift (unwrap o).

(** Loops *)
Fixpoint foldM {A B} (f : A -> B -> M A) (l : list B) (a : A) : M A :=
  match l with
  | [] => mret a
  | x :: t => a' ← f a x; foldM f t a'
  end.

(** ** Databases *)
Inductive which := Main | Input.
Definition get_db (w : which) (s : sys) : mapdb := match w with Main => db s | Input => idb s end.
Definition put_db (w : which) (d : mapdb) (s : sys) : sys :=
  match w with
  | Main => Sys d (idb s) (has_idb s) (ticks s) (status s) (trace s)
  | Input => Sys (db s) d (has_idb s) (ticks s) (status s) (trace s)
  end.
Definition put_conn (w : which) (c : conn) (s : sys) : sys :=
  put_db w (MDB c (in_tr (get_db w s))) s.
Definition put_flag (w : which) (b : bool) (s : sys) : sys :=
  put_db w (MDB (cn (get_db w s)) b) s.
Definition tick (s : sys) : sys :=
  Sys (db s) (idb s) (has_idb s) (S (ticks s)) (status s) (trace s).

(** One database statement; [None]: SQLite reports an error. *)
Definition exec {A} (w : which) (f : conn -> option (A * conn)) : M (option A) := fun W s =>
  let c := cn (get_db w s) in
  let s1 := tick s in
  match faults W (ticks s) with
  | FOk =>
    match f c with
    | Some (a, c') => (Done (Some a), put_conn w c' s1)
    | None => (Done None, s1)
    end
  | FFail rb => (Done None, if rb then put_conn w (Conn (disk c) None) s1 else s1)
  | FKill after =>
    (Killed, match f c with
             | Some (_, c') => if after then put_conn w c' s1 else s1
             | None => s1
             end)
  end.

(** Writing statement; the input map is opened read-only (instance.rs:344). *)
Definition exec_write (w : which) (g : mapdata -> mapdata) : M (option unit) :=
  exec w (match w with Main => st_write g | Input => fun _ => None end).

(** ** Status and events *)
Definition put_status (f : status_t -> status_t) : M unit := modify (fun s =>
  let st := f (status s) in
  Sys (db s) (idb s) (has_idb s) (ticks s) st (trace s ++ [TStatus st])).
Definition send (e : tev) : M unit := modify (fun s =>
  Sys (db s) (idb s) (has_idb s) (ticks s) (status s) (trace s ++ [e])).

(** instance.rs:130-133 *)
Definition set_state (st : inst_state) : M unit :=
  put_status (fun x => Status (show_progress x) (blocks_total x) (blocks_done x) (blocks_failed x) st) ;;
  send (TState st).
(** instance.rs:135-137 *)
Definition set_total (n : Z) : M unit :=
  put_status (fun x => Status (show_progress x) n (blocks_done x) (blocks_failed x) (state x)).
(** instance.rs:139-141 ([usize] addition) *)
Definition inc_done : M unit :=
  put_status (fun x => Status (show_progress x) (blocks_total x) (u64 (blocks_done x + 1))
                         (blocks_failed x) (state x)).
(** instance.rs:143-145 *)
Definition inc_failed : M unit :=
  put_status (fun x => Status (show_progress x) (blocks_total x) (blocks_done x)
                         (u64 (blocks_failed x + 1)) (state x)).
(** instance.rs:147-149 *)
Definition set_show_progress (b : bool) : M unit :=
  put_status (fun x => Status b (blocks_total x) (blocks_done x) (blocks_failed x) (state x)).
(** instance.rs:151-157 *)
Definition begin_editing : M unit := set_state Editing.
Definition end_editing : M unit := set_state Ignore.
(** instance.rs:159-167.  A closed channel also counts as "no". *)
Definition get_confirmation : M bool := send TConfirm ;; ask answer.
(** instance.rs:169-184 *)
Definition log (lt : log_type) (m : msg) : M unit := send (TLog lt m).

(** * src/map_database.rs *)

(** map_database.rs:2-9 *)
Inductive db_error := DatabaseError | InvalidDatabase | MissingData.
Inductive dres (A : Type) := DOk (a : A) | DErr (e : db_error).
Global Arguments DOk {A} a.
Global Arguments DErr {A} e.
(** [.unwrap()] and [.ok()] on these results *)
Definition unwrapD {A} (r : dres A) : M A := match r with DOk a => mret a | DErr _ => panic end.
Definition okD {A} (r : dres A) : option A := match r with DOk a => Some a | DErr _ => None end.

(** The [?] operator on a statement. *)
Definition stmt {A} (m : M (option A)) : M (dres A) :=
  r ← m; mret (match r with Some a => DOk a | None => DErr DatabaseError end).

(** map_database.rs:71-81.  [valid] is the outcome of the checks of lines 28-35;
    the other statements (PRAGMA, three preparations) are one statement here. *)
Definition db_new (w : which) (valid : bool) : M (dres unit) :=
  r ← exec w st_begin;
  match r with
  | None => mret (DErr DatabaseError)
  | Some _ =>
    r2 ← exec w (st_read (fun _ => valid));
    match r2 with
    | None => mret (DErr DatabaseError)
    | Some false => mret (DErr InvalidDatabase)
    | Some true => modify (put_flag w true) ;; mret (DOk tt)
    end
  end.

(** map_database.rs:83-85 *)
Definition is_in_transaction (w : which) : M bool := gets (fun s => in_tr (get_db w s)).

(** map_database.rs:88-93.  The flag is not set. *)
Definition begin_if_needed (w : which) : M (dres unit) :=
  f ← is_in_transaction w;
  if negb f then stmt (exec w st_begin) else mret (DOk tt).

(** map_database.rs:95-101 *)
Definition commit_if_needed (w : which) : M (dres unit) :=
  f ← is_in_transaction w;
  if f : bool then
    r ← stmt (exec w st_commit);
    match r with
    | DOk _ => modify (put_flag w false) ;; mret (DOk tt)
    | DErr e => mret (DErr e)
    end
  else mret (DOk tt).

(** The order in which SQLite returns the rows. *)
Definition row_order (m : mapdata) : M (list (Z * bytes)) := fun W s => (Done (rows W (ticks s) m), s).
(** map_database.rs:103-107 and 48-58: start reading rows *)
Definition iter_rows (w : which) : M (list (Z * bytes)) :=
  r ← begin_if_needed w;
  unwrapD r ;;
  r2 ← stmt (exec w (st_read id));
  m ← unwrapD r2;
  row_order m.
(** map_database.rs:48-58: fetch the next row, or the end *)
Definition next_row (w : which) : M unit :=
  r ← stmt (exec w (st_read (fun _ => tt)));
  unwrapD r.

(** map_database.rs:109-120 *)
Definition get_block (w : which) (key : Z) : M (dres bytes) :=
  r ← begin_if_needed w;
  match r with
  | DErr e => mret (DErr e)
  | DOk _ =>
    r2 ← stmt (exec w (st_read (fun m => m !! key)));
    match r2 with
    | DErr e => mret (DErr e)
    | DOk None => mret (DErr MissingData)
    | DOk (Some d) => mret (DOk d)
    end
  end.

(** map_database.rs:122-131 *)
Definition set_block (w : which) (key : Z) (data : bytes) : M (dres unit) :=
  r ← begin_if_needed w;
  match r with
  | DErr e => mret (DErr e)
  | DOk _ => stmt (exec_write w (<[key := data]>))
  end.

(** map_database.rs:133-139 *)
Definition delete_block (w : which) (key : Z) : M (dres unit) :=
  r ← begin_if_needed w;
  match r with
  | DErr e => mret (DErr e)
  | DOk _ => stmt (exec_write w (delete key))
  end.

(** map_database.rs:141-145 *)
Definition db_vacuum (w : which) : M (dres unit) :=
  r ← commit_if_needed w;
  match r with
  | DErr e => mret (DErr e)
  | DOk _ => stmt (exec w st_vacuum)
  end.
