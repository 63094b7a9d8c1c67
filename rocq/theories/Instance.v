(** Model of src/instance.rs: argument checks and the compute thread *)
From Verif Require Export Commands.

(** instance.rs:258-275.  All accepted characters are ASCII, so bytes will do. *)
Definition is_lower (b : byte) : bool := (97 <=? b2z b) && (b2z b <=? 122).
Definition is_upper (b : byte) : bool := (65 <=? b2z b) && (b2z b <=? 90).
Definition is_digit (b : byte) : bool := (48 <=? b2z b) && (b2z b <=? 57).
Definition is_valid_name (n : bytes) : bool :=
  if bool_decide (n = bstr "air") || bool_decide (n = bstr "ignore") then true else
  match find_sub [x3a] n with
  | None => false
  | Some d =>
    forallb (fun c => is_lower c || is_digit c || bool_decide (c = x5f)) (take d n) &&
    forallb (fun c => is_lower c || is_upper c || is_digit c || bool_decide (c = x5f)) (drop (S d) n)
  end.

Definition first_bad (l : list bytes) : option bytes :=
  head (filter (fun n => is_valid_name n = false) l).
Definition o2l {A} (o : option A) : list A := match o with Some x => [x] | None => [] end.
Definition huge (n : Z) : bool := (n <? - MAP_LIMIT * 2) || (MAP_LIMIT * 2 <? n).

(** [check ... ;;; rest]: stop at the first failing check *)
Definition chk (fail : option arg_error) (rest : option arg_error) : option arg_error :=
  match fail with Some e => Some e | None => rest end.

(** instance.rs:238-301; [None]: arguments are fine *)
Definition verify_args (g : args) : option arg_error :=
  chk (if is_none (aarea g) && invert g then Some InvertNoArea else None) $
  chk (match aarea g with
       | Some a => if negb (is_valid_node_pos (amin a)) then Some (CornerOutside (amin a))
                   else if negb (is_valid_node_pos (amax a)) then Some (CornerOutside (amax a))
                   else None
       | None => None
       end) $
  chk (match offset g with
       | Some o => if huge (vx o) || huge (vy o) || huge (vz o) then Some OffsetTooLarge else None
       | None => None
       end) $
  chk (BadNodeName <$> first_bad (o2l (anode g))) $
  chk (BadNodeName <$> first_bad (anodes g)) $
  chk (BadNodeName <$> first_bad (o2l (new_node g))) $
  chk (BadObjectName <$> first_bad (o2l (aobject g))) $
  chk (BadItemName <$> first_bad (o2l (aitem g))) $
  chk (BadItemName <$> first_bad (default [] (aitems g))) $
  BadItemName <$> first_bad (o2l (new_item g)).

(** [PathBuf::join] on Unix *)
Definition path_join (p f : bytes) : bytes :=
  match last p with
  | None => f
  | Some c => if bool_decide (c = x2f) then p ++ f else p ++ [x2f] ++ f
  end.
(** instance.rs:304-319; the file to open *)
Definition find_map (W : world) (p : bytes) : option bytes :=
  if is_file W p then Some p else
  let f := path_join p (bstr "map.sqlite") in
  if is_file W f then Some f else None.
Definition open_map (p : bytes) : M (option bytes) :=
  ask (fun W => keep (can_open W) (find_map W p)).

(** instance.rs:335-350.  Which file is the main map and which is the input map is
    recorded in the [sys]; the two are different files. *)
Definition open_db (w : which) (p : bytes) (e_open e_bad : inst_error) : M (option inst_error) :=
  f ← open_map p;
  match f with
  | None => mret (Some e_open)
  | Some f =>
    v ← ask (fun W => valid_map W f);
    r ← db_new w v;
    mret (match r with DOk _ => None | DErr _ => Some e_bad end)
  end.

(** instance.rs:356-366: warnings and the prompt; [true]: go on *)
Definition consent (g : args) (warning : option msg) : M bool :=
  (if do_confirmation g then log LWarning MDanger else mret tt) ;;
  (match warning with Some w => log LWarning w | None => mret tt end) ;;
  (if do_confirmation g then get_confirmation else mret true).

(** instance.rs:370-383 *)
Definition finish : M (option inst_error) :=
  fails ← gets (fun s => blocks_failed (status s));
  (if 0 <? fails then log LInfo (MSkipped fails) else mret tt) ;;
  f ← is_in_transaction Main;
  e ← (if f : bool then
         log LInfo MCommitting ;;
         r ← commit_if_needed Main;
         mret (match r with DOk _ => None | DErr _ => Some ECommit end)
       else mret None);
  match e with
  | Some e => mret (Some e)
  | None => log LInfo MDone ;; mret None
  end.

(** instance.rs:352-383 *)
Definition run_command (E : ext) (g : args) (warning : option msg) : M (option inst_error) :=
  ok ← consent g warning;
  if ok : bool then cmd_func E g ;; finish else mret None.

(** instance.rs:342-350 *)
Definition open_input (g : args) : M (option inst_error) :=
  match input_map_path g with
  | None => mret None
  | Some p =>
    r ← open_db Input p EOpenInput EBadInput;
    match r with
    | Some e => mret (Some e)
    | None =>
      modify (fun s => Sys (db s) (idb s) true (ticks s) (status s) (trace s)) ;; mret None
    end
  end.

(** instance.rs:322-384; [None] is [Ok(())] *)
Definition compute_thread (E : ext) (g : args) : M (option inst_error) :=
  match verify_args g with
  | Some e => mret (Some (EArg e))
  | None =>
    v ← lift (cmd_verify g);
    match v with
    | AError e => mret (Some (EArg e))
    | AOk | AWarning _ =>
      e1 ← open_db Main (map_path g) EOpenMain EBadMain;
      match e1 with
      | Some e => mret (Some e)
      | None =>
        e2 ← open_input g;
        match e2 with
        | Some e => mret (Some e)
        | None => run_command E g (match v with AWarning w => Some w | _ => None end)
        end
      end
    end
  end.

(** instance.rs:395-401: errors are logged *)
Definition thread_main (E : ext) (g : args) : M unit :=
  r ← compute_thread E g;
  match r with
  | Some e => log LError (MErr e)
  | None => mret tt
  end.

(** The state of the program before the thread starts: maps on disk, no
    connection yet. *)
Definition start (main input : mapdata) : sys :=
  Sys (MDB (Conn main None) false) (MDB (Conn input None) false) false 0 status_new [].

(** What is on disk after the program has ended, normally or not: open
    transactions are rolled back. *)
Definition final (w : which) (s : sys) : mapdata := disk (cn (get_db w s)).
