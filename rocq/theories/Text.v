(** Model of what is written to the terminal: wording of messages, [print_log] and
    [print_editing_status] of src/cmd_line.rs *)
From Verif Require Export Ui Fmt.

(** * Lines *)

(** [str::split('\n')] *)
Fixpoint split_nl (s : bytes) : list bytes :=
  match s with
  | [] => [[]]
  | c :: s =>
    let r := split_nl s in
    if bool_decide (c = x0a) then [] :: r
    else match r with l :: r => (c :: l) :: r | [] => [[c]] end
  end.
(** A carriage return at the end is dropped. *)
Definition strip_cr (l : bytes) : bytes :=
  match last l with
  | Some c => if bool_decide (c = x0d) then take (length l - 1) l else l
  | None => l
  end.
(** [str::lines]: an empty last line does not count; "\r\n" ends a line too.  Whether
    a "\r" at the very end, without "\n", is dropped depends on the version of the
    standard library ([cr]). *)
Fixpoint tidy_lines (cr : bool) (l : list bytes) : list bytes :=
  match l with
  | [] => []
  | [x] => match x with [] => [] | _ => [if cr then strip_cr x else x] end
  | x :: l => strip_cr x :: tidy_lines cr l
  end.
Definition str_lines (cr : bool) (s : bytes) : list bytes := tidy_lines cr (split_nl s).
(** [slice::join] *)
Fixpoint join_lines (sep : bytes) (l : list bytes) : bytes :=
  match l with
  | [] => []
  | [x] => x
  | x :: l => x ++ sep ++ join_lines sep l
  end.

(** * Messages *)

(** instance.rs:96-104 *)
Definition log_name (lt : log_type) : bytes :=
  match lt with LInfo => bstr "info" | LWarning => bstr "warning" | LError => bstr "error" end.

(** cmd_line.rs:242-247 *)
Definition print_log (cr : bool) (lt : log_type) (msg : bytes) : bytes :=
  let prefix := log_name lt ++ bstr ": " in
  prefix ++ join_lines ([x0a] ++ replicate (length prefix) x20) (str_lines cr msg) ++ [x0a].

(** [{}] of an [i32] *)
Definition show_int (n : Z) : bytes := if n <? 0 then bstr "-" ++ show (- n) else show n.
(** spatial/vec3.rs:143-147 *)
Definition show_vec (v : vec3) : bytes :=
  bstr "(" ++ show_int (vx v) ++ bstr ", " ++ show_int (vy v) ++ bstr ", " ++ show_int (vz v) ++ bstr ")".

(** instance.rs:240, 245, 252, 285-297; clone.rs:20, overlay.rs:16, 28,
    delete_objects.rs:25, replace_in_inv.rs:131, 134, 136, replace_nodes.rs:130,
    set_meta_var.rs:13, 16, 18, set_param2.rs:109 *)
Definition arg_error_text (e : arg_error) : bytes :=
  match e with
  | InvertNoArea => bstr "Cannot invert without a specified area."
  | CornerOutside p => bstr "Area corner is outside map bounds: " ++ show_vec p ++ bstr "."
  | OffsetTooLarge =>
    bstr "Offset cannot be larger than " ++ show (MAP_LIMIT * 2) ++ bstr " nodes in any direction."
  | BadNodeName n => bstr "Invalid node name: " ++ n
  | BadObjectName n => bstr "Invalid object name: " ++ n
  | BadItemName n => bstr "Invalid item name: " ++ n
  | SameNode => bstr "node and new_node must be different."
  | NeedAreaOrNode => bstr "An area and/or node is required."
  | ObjAndItems => bstr "Cannot use both --obj and --items."
  | ValueRequired => bstr "value is required unless deleting the variable."
  | ValueForbidden => bstr "value cannot be used when deleting the variable."
  | ValueEmpty => bstr "Metadata value cannot be empty."
  | NewItemRequired => bstr "new_item is required unless --delete or --deletemeta is used."
  | NewItemForbidden => bstr "Cannot delete items if new_item is specified."
  | SameItem => bstr "item and new_item cannot be the same."
  | InvertedOffset => bstr "Inverted selections cannot be offset."
  | DestOutside => bstr "Destination area is outside map bounds."
  end.

(** What is not determined by the program: how ties are rounded, and the texts of
    SQLite errors. *)
Record wording := Wording { w_tie : Z -> bool; w_commit : bytes; w_vacuum : bytes }.

(** instance.rs:338-349, 383: of an error with context, only the context is shown *)
Definition error_text (w : wording) (e : inst_error) : bytes :=
  match e with
  | EArg e => arg_error_text e
  | EOpenMain => bstr "Failed to open main world/map."
  | EBadMain => bstr "Main world or map database is invalid."
  | EOpenInput => bstr "Failed to open input world/map."
  | EBadInput => bstr "Input world or map database is invalid."
  | ECommit => w_commit w
  end.

(** fill.rs:70, replace_nodes.rs:124, set_param2.rs:102, delete_meta.rs:13, 71,
    delete_timers.rs:61, delete_objects.rs:142, set_meta_var.rs:84,
    replace_in_inv.rs:123, vacuum.rs:7, 16, 18, instance.rs:357-358, 372-383 *)
Definition text (w : wording) (m : msg) : bytes :=
  let num := fmt_big_num (w_tie w) in
  match m with
  | MFilled n => num n ++ bstr " nodes filled."
  | MReplaced n => num n ++ bstr " nodes replaced."
  | MParam2 n => bstr "Set param2 of " ++ num n ++ bstr " nodes."
  | MMeta n => bstr "Deleted metadata from " ++ num n ++ bstr " nodes."
  | MTimers n => bstr "Deleted " ++ num n ++ bstr " node timers."
  | MObjects n => bstr "Deleted " ++ num n ++ bstr " objects."
  | MVars n => bstr "Set metadata variable of " ++ num n ++ bstr " nodes."
  | MStacks i n => bstr "Replaced " ++ num i ++ bstr " itemstacks in " ++ num n ++ bstr " nodes."
  | MVacStart => bstr "Starting vacuum."
  | MVacDone => bstr "Completed vacuum."
  | MVacFailed => bstr "Vacuum failed: " ++ w_vacuum w ++ bstr "."
  | MSkipped n => bstr "Skipped " ++ num n ++ bstr " invalid/unsupported mapblocks."
  | MCommitting => bstr "Committing..."
  | MDone => bstr "Done."
  | MDanger =>
    bstr "This tool can permanently damage your Minetest world." ++ [x0a] ++
    bstr "Always EXIT Minetest and BACK UP the map database before use."
  | MAllMeta => bstr "No area or node specified. ALL metadata will be deleted!"
  | MErr e => error_text w e
  end.

(** * Progress *)

(** Rounding to [f32] of a number that is 0 or at least 2^-100: scaling by a power
    of two does not matter. *)
Definition SCALE : positive := 1267650600228229401496703205376.
Definition rnd (x : Q) : Q := round24 (x * (Zpos SCALE # 1)) / (Zpos SCALE # 1).

(** [Duration::as_secs_f32]: seconds and nanoseconds are converted separately. *)
Definition as_secs_f32 (secs nanos : Z) : Q :=
  rnd (f32_of secs + rnd (f32_of nanos / 1000000000)).

(** cmd_line.rs:203-206 *)
Definition progress (done total : Z) : Q :=
  if total =? 0 then 0 else rnd (f32_of done / f32_of total).

(** cmd_line.rs:208-214.  [from_secs_f32] panics on a negative number.  It rounds to
    nanoseconds; since [f32] has no numbers closer than that to a whole number
    from below, the whole seconds are not affected. *)
Definition remaining (secs nanos : Z) (p : Q) : out (option Z) :=
  if Qle_bool (rnd (1 # 10)) p then
    let r := rnd (rnd (as_secs_f32 secs nanos / p) * (if Qle_bool p 1 then rnd (1 - p) else - rnd (p - 1))) in
    if Qle_bool 0 r then Ret (Some (Qfloor r)) else Panic
  else Ret None.

(** cmd_line.rs:216-218 *)
Definition num_bars (p : Q) : Z := Qfloor (rnd (p * 25)).
(** [{bars:<25}] *)
Definition bar (n : Z) : bytes :=
  replicate (Z.to_nat n) x3d ++ replicate (25 - Z.to_nat n) x20.
(** [{:.1}] *)
Definition percent (tie : Z -> bool) (p : Q) : bytes := show_dec 1 (round_dec tie 1 (rnd (p * 100))).

(** cmd_line.rs:196-239; [elapsed]: whole seconds since the start of the query,
    [secs], [nanos]: time since the start of editing *)
Definition editing_status (tie : Z -> bool) (done total elapsed secs nanos : Z) (show_progress : bool) : out bytes :=
  if show_progress then
    let p := progress done total in
    let* r := remaining secs nanos p in
    Ret (bstr "[" ++ bar (num_bars p) ++ bstr "] " ++ percent tie p ++ bstr "% | " ++
         fmt_duration elapsed ++ bstr " elapsed | " ++
         match r with Some s => fmt_duration s | None => bstr "--:--" end ++ bstr " remaining")
  else Ret (bstr "Processing... " ++ fmt_duration elapsed ++ bstr " elapsed").

(** cmd_line.rs:334 *)
Definition querying_status (total : Z) : bytes := bstr "Querying mapblocks... " ++ show total ++ bstr " found.".
