(** Model of src/commands/*.rs: the commands *)
From Verif Require Export Cmd.

(** commands/mod.rs:59-70.  In the code a command is looked up by its name. *)
Inductive command :=
  | CClone | CDeleteBlocks | CDeleteMeta | CDeleteObjects | CDeleteTimers | CFill
  | CReplaceNodes | CReplaceInInv | COverlay | CSetMetaVar | CSetParam2 | CVacuum.

(** instance.rs:36-56.  Strings are their UTF-8 bytes. *)
Record args := Args {
  do_confirmation : bool;
  acmd : command;
  map_path : bytes;
  input_map_path : option bytes;
  aarea : option area;
  invert : bool;
  offset : option vec3;
  anode : option bytes;
  anodes : list bytes;
  new_node : option bytes;
  aobject : option bytes;
  aitem : option bytes;
  aitems : option (list bytes);
  new_item : option bytes;
  adelete : bool;
  delete_meta : bool;
  akey : option bytes;
  avalue : option bytes;
  aparam2 : option byte }.

(** ** Commands that edit blocks one by one

    The loop of fill.rs:40-67, replace_nodes.rs:107-121, set_param2.rs:63-99,
    delete_meta.rs:29-67, delete_timers.rs:19-57, delete_objects.rs:115-139,
    set_meta_var.rs:36-80, replace_in_inv.rs:79-120.  [late]: the block is counted
    as done after the edit and not when it failed (replace_nodes.rs:111,120). *)
Definition edit_block (late : bool) (body : Z -> bytes -> out (edit * counts))
    (c : counts) (key : Z) : M counts :=
  (if late then mret tt else inc_done) ;;
  r ← get_block Main key;
  data ← unwrapD r;
  ec ← lift (body key data);
  match ec.1 with
  | EFail => inc_failed
  | ESkip => if late then inc_done else mret tt
  | EWrite d =>
    r2 ← set_block Main key d;
    unwrapD r2 ;;
    if late then inc_done else mret tt
  end ;;
  mret (u64 (c.1 + ec.2.1), u64 (c.2 + ec.2.2)).

Definition edit_blocks (late : bool) (search : list bytes) (a : option area) (inv partial : bool)
    (body : Z -> bytes -> out (edit * counts)) : M counts :=
  keys ← query_keys Main search a inv partial;
  begin_editing ;;
  c ← foldM (edit_block late body) keys (0, 0);
  end_editing ;;
  mret c.

(** fill.rs:30-71 *)
Definition fill (E : ext) (g : args) : M unit :=
  a ← unwrapM (aarea g);
  node ← unwrapM (new_node g);
  c ← edit_blocks false [] (Some a) (invert g) true (fill_body E a (invert g) node);
  log LInfo (MFilled c.1).

(** replace_nodes.rs:97-125 *)
Definition replace_nodes (E : ext) (g : args) : M unit :=
  old ← unwrapM (anode g);
  new ← unwrapM (new_node g);
  c ← edit_blocks true [old] (aarea g) (invert g) true
        (replace_body E old new (aarea g) (invert g));
  log LInfo (MReplaced c.1).

(** set_param2.rs:53-104 *)
Definition set_param2 (E : ext) (g : args) : M unit :=
  val ← unwrapM (aparam2 g);
  c ← edit_blocks false (to_slice (anode g)) (aarea g) (invert g) true
        (param2_body E (anode g) val (aarea g) (invert g));
  log LInfo (MParam2 c.1).

(** delete_meta.rs:20-72 *)
Definition delete_metadata (E : ext) (g : args) : M unit :=
  c ← edit_blocks false (to_slice (anode g)) (aarea g) (invert g) true
        (delmeta_body E (anode g) (aarea g) (invert g));
  log LInfo (MMeta c.1).

(** delete_timers.rs:10-62 *)
Definition delete_timers (E : ext) (g : args) : M unit :=
  c ← edit_blocks false (to_slice (anode g)) (aarea g) (invert g) true
        (deltimers_body E (anode g) (aarea g) (invert g));
  log LInfo (MTimers c.1).

(** delete_objects.rs:100-108 *)
Definition obj_name (g : args) : option bytes :=
  match aitems g with Some _ => Some ITEM_ENT_NAME | None => aobject g end.
Definition item_names (g : args) : list bytes := default [] (aitems g).
(** delete_objects.rs:100-143 *)
Definition delete_objects (E : ext) (g : args) : M unit :=
  c ← edit_blocks false (to_slice (obj_name g)) (aarea g) (invert g) true
        (delobj_body E (obj_name g) (item_names g) (aarea g) (invert g));
  log LInfo (MObjects c.1).

(** set_meta_var.rs:24-85 *)
Definition set_meta_var (E : ext) (g : args) : M unit :=
  key ← unwrapM (akey g);
  c ← edit_blocks false (anodes g) (aarea g) (invert g) true
        (setvar_body E key (default [] (avalue g)) (adelete g) (anodes g) (aarea g) (invert g));
  log LInfo (MVars c.1).

(** replace_in_inv.rs:66-125 *)
Definition replace_in_inv (E : ext) (g : args) : M unit :=
  item ← unwrapM (aitem g);
  let new := default (if adelete g then [] else item) (new_item g) in
  c ← edit_blocks false (anodes g) (aarea g) (invert g) true
        (replinv_body E item new (delete_meta g) (anodes g) (aarea g) (invert g));
  log LInfo (MStacks c.1 c.2).

(** ** delete_blocks.rs:7-18 *)
Definition delete_step (_ : unit) (key : Z) : M unit :=
  inc_done ;;
  r ← delete_block Main key;
  unwrapD r.
Definition delete_blocks (g : args) : M unit :=
  keys ← query_keys Main [] (aarea g) (invert g) false;
  begin_editing ;;
  foldM delete_step keys tt ;;
  end_editing.

(** ** vacuum.rs:6-20 *)
Definition vacuum : M unit :=
  log LInfo MVacStart ;;
  set_show_progress false ;;
  begin_editing ;;
  r ← db_vacuum Main;
  end_editing ;;
  match r with
  | DOk _ => log LInfo MVacDone
  | DErr _ => log LError MVacFailed
  end.

(** ** clone.rs *)

(** commands/mod.rs:19 *)
Definition BLOCK_CACHE_SIZE : Z := 1024.

(** [opt.filter(f)] *)
Definition keep {A} (f : A -> bool) (o : option A) : option A :=
  match o with Some x => if f x then Some x else None | None => None end.

(** The block cache of clone (clone.rs:28): [None] is a missing or not generated
    block.  The cache of overlay (overlay.rs:114-129) holds the same blocks, with
    errors turned into [None]; it is modelled by the same cache, see [src_cached]. *)
Notation blk_res := (option (res block)).
(** [get_cached]: clone.rs:30-45, overlay.rs:114-129 *)
Definition load_res (E : ext) (d : option bytes) : blk_res :=
  deserialize E <$> keep (is_valid_generated E) d.
Definition get_cached (E : ext) (w : which) (c : cache_map blk_res) (key : Z)
  : M (blk_res * cache_map blk_res) :=
  match cache_get c key with
  | Some r => mret (r, c)
  | None =>
    d ← get_block w key;
    let r := load_res E (okD d) in
    mret (r, cache_insert c key r)
  end.

(** clone.rs:57-63.  [sort_unstable_by_key]; all keys in the table that are valid
    have different sort keys, so the order is unique. *)
Definition sort_dir (offset : vec3) : vec3 := vmap (fun v => if 0 <? v then -1 else 1) offset.
Definition sort_off (offset : vec3) : vec3 :=
  vmap (fun v => if v =? -1 then -1 else 0) (sort_dir offset).
Definition sort_key (offset : vec3) (k : Z) : out Z :=
  to_block_key (vadd (vmul (from_block_key k) (sort_dir offset)) (sort_off offset)).
Definition sort_keys (offset : vec3) (keys : list Z) : out (list Z) :=
  let* l := mapO (fun k => let* s := sort_key offset k in Ret (s, k)) keys in
  Ret (merge_sort key_le l).*2.

(** clone.rs:96-105, overlay.rs:178-187: copy from one source block.
    [src_part]: the whole source part, in absolute coordinates *)
Definition copy_frag (src dst : block) (src_part : area) (offset src_pos dst_pos : vec3) : out block :=
  let* abs := unwrap (abs_block_overlap src_part src_pos) in
  let src_rel := area_sub abs (vmuls src_pos 16) in
  let* dst_rel := unwrap (rel_block_overlap (area_add abs offset) dst_pos) in
  let* b := merge_blocks src dst src_rel dst_rel in
  let* md := merge_metadata (metadata src) (metadata b) src_rel dst_rel in
  Ret (set_metadata b md).

(** clone.rs:84-106, overlay.rs:168-188: loop over the source blocks *)
Definition copy_step (E : ext) (w : which) (src_part : area) (offset dst_pos : vec3)
    (st : block * cache_map blk_res) (src_pos : vec3) : M (block * cache_map blk_res) :=
  if negb (is_valid_block_pos src_pos) then mret st else
  src_key ← lift (to_block_key src_pos);
  rc ← get_cached E w st.2 src_key;
  match rc.1 with
  | Some (Ok src) =>
    b ← lift (copy_frag src st.1 src_part offset src_pos dst_pos);
    mret (b, rc.2)
  | _ => mret (st.1, rc.2)
  end.
Definition copy_from (E : ext) (w : which) (dst_part : area) (offset dst_pos : vec3)
    (dst : block) (c : cache_map blk_res) : M (block * cache_map blk_res) :=
  let src_part := area_sub dst_part offset in
  ps ← unwrapM (area_positions (to_touching_block_area src_part));
  foldM (copy_step E w src_part offset dst_pos) ps (dst, c).

(** clean the name map and write: clone.rs:108-109, overlay.rs:190-191 *)
Definition clean_write (E : ext) (key : Z) (b : block) : M unit :=
  d ← lift (let* b' := clean_name_id_map b in serialize E b');
  r ← set_block Main key d;
  unwrapD r.

(** clone.rs:68-110, loop body *)
Definition clone_step (E : ext) (dst_area : area) (offset : vec3)
    (c : cache_map blk_res) (dst_key : Z) : M (cache_map blk_res) :=
  inc_done ;;
  rc ← get_cached E Main c dst_key;
  match rc.1 with
  | None => mret rc.2
  | Some (Err _) => inc_failed ;; mret rc.2
  | Some (Ok dst) =>
    let dst_pos := from_block_key dst_key in
    part ← unwrapM (abs_block_overlap dst_area dst_pos);
    bc ← copy_from E Main part offset dst_pos dst rc.2;
    clean_write E dst_key bc.1 ;;
    mret bc.2
  end.

(** clone.rs:48-113 *)
Definition clone (E : ext) (g : args) : M unit :=
  src_area ← unwrapM (aarea g);
  ofs ← unwrapM (offset g);
  let dst_area := area_add src_area ofs in
  keys ← query_keys Main [] (Some dst_area) false true;
  sorted ← lift (sort_keys ofs keys);
  begin_editing ;;
  foldM (clone_step E dst_area ofs) sorted (cache_new BLOCK_CACHE_SIZE) ;;
  end_editing.

(** ** overlay.rs *)

(** overlay.rs:61-64, 103-106 *)
Definition copy_whole (E : ext) (key : Z) : M unit :=
  r ← get_block Input key;
  data ← unwrapD r;
  if is_valid_generated E data then
    r2 ← set_block Main key data;
    unwrapD r2
  else mret tt.

(** overlay.rs:76-93: [under] with a box replaced by that of [over] *)
Definition overlay_box (over under : block) (part : area) : out block :=
  let* b := merge_blocks over under part part in
  let* md := merge_metadata (metadata over) (metadata b) part part in
  Ret (set_metadata b md).

(** overlay.rs:66-99 *)
Definition overlay_part (E : ext) (a : area) (inv : bool) (key : Z) : M unit :=
  let pos := from_block_key key in
  r ← get_block Main key;
  match keep (is_valid_generated E) (okD r) with
  | None => mret tt
  | Some dst_data =>
    r2 ← get_block Input key;
    src_data ← unwrapD r2;
    match deserialize E src_data, deserialize E dst_data with
    | Ok src, Ok dst =>
      b ← lift (let* part := unwrap (rel_block_overlap a pos) in
                if inv then overlay_box dst src part else overlay_box src dst part);
      clean_write E key b
    | _, _ => inc_failed
    end
  end.

(** overlay.rs:52-108, loop body *)
Definition overlay_step (E : ext) (a : option area) (inv : bool) (_ : unit) (key : Z) : M unit :=
  inc_done ;;
  match a with
  | Some a =>
    let pos := from_block_key key in
    if (negb inv && contains_block a pos) || (inv && negb (touches_block a pos))
    then copy_whole E key
    else overlay_part E a inv key
  | None => copy_whole E key
  end.

(** overlay.rs:42-111 *)
Definition overlay_no_offset (E : ext) (g : args) : M unit :=
  has ← gets has_idb;
  (if has : bool then mret tt else panic) ;;
  keys ← query_keys Input [] (aarea g) (invert g) true;
  begin_editing ;;
  foldM (overlay_step E (aarea g) (invert g)) keys tt ;;
  end_editing.

(** overlay.rs:147-192, loop body *)
Definition offset_step (E : ext) (dst_area : option area) (ofs : vec3)
    (c : cache_map blk_res) (dst_key : Z) : M (cache_map blk_res) :=
  inc_done ;;
  let dst_pos := from_block_key dst_key in
  r ← get_block Main dst_key;
  match keep (is_valid_generated E) (okD r) with
  | None => mret c
  | Some dst_data =>
    match deserialize E dst_data with
    | Err _ => inc_failed ;; mret c
    | Ok dst =>
      part ← lift (let* whole := area_new (vmuls dst_pos 16) (vadds (vmuls dst_pos 16) 15) in
                   match dst_area with
                   | None => Ret whole
                   | Some a => unwrap (abs_block_overlap a dst_pos)
                   end);
      bc ← copy_from E Input part ofs dst_pos dst c;
      clean_write E dst_key bc.1 ;;
      mret bc.2
    end
  end.

(** overlay.rs:134-195 *)
Definition overlay_with_offset (E : ext) (g : args) : M unit :=
  ofs ← unwrapM (offset g);
  let dst_area := (fun a => area_add a ofs) <$> aarea g in
  has ← gets has_idb;
  (if has : bool then mret tt else panic) ;;
  keys ← query_keys Main [] dst_area (invert g) true;
  begin_editing ;;
  foldM (offset_step E dst_area ofs) keys (cache_new BLOCK_CACHE_SIZE) ;;
  end_editing.

(** overlay.rs:198-205 *)
Definition overlay (E : ext) (g : args) : M unit :=
  let ofs := default (V3 0 0 0) (offset g) in
  if bool_decide (ofs = V3 0 0 0) then overlay_no_offset E g else overlay_with_offset E g.

(** ** The function of each command *)
Definition cmd_func (E : ext) (g : args) : M unit :=
  match acmd g with
  | CClone => clone E g
  | CDeleteBlocks => delete_blocks g
  | CDeleteMeta => delete_metadata E g
  | CDeleteObjects => delete_objects E g
  | CDeleteTimers => delete_timers E g
  | CFill => fill E g
  | CReplaceNodes => replace_nodes E g
  | CReplaceInInv => replace_in_inv E g
  | COverlay => overlay E g
  | CSetMetaVar => set_meta_var E g
  | CSetParam2 => set_param2 E g
  | CVacuum => vacuum
  end.

(** ** Argument checks of the commands *)
(** commands/mod.rs:22-26 *)
Inductive arg_result := AOk | AWarning (m : msg) | AError (e : arg_error).

(** clone.rs:13-16 *)
Definition map_area : area :=
  Area (V3 (-MAP_LIMIT) (-MAP_LIMIT) (-MAP_LIMIT)) (V3 MAP_LIMIT MAP_LIMIT MAP_LIMIT).

Definition is_none {A} (o : option A) : bool := match o with None => true | Some _ => false end.

Definition cmd_verify (g : args) : out arg_result :=
  match acmd g with
  | CClone => (* clone.rs:12-25 *)
    let* a := unwrap (aarea g) in
    let* o := unwrap (offset g) in
    Ret (if is_none (intersection map_area (area_add a o)) then AError DestOutside else AOk)
  | CDeleteMeta => (* delete_meta.rs:10-17 *)
    Ret (if is_none (aarea g) && is_none (anode g) then AWarning MAllMeta else AOk)
  | CDeleteObjects => (* delete_objects.rs:23-28 *)
    Ret (if negb (is_none (aobject g)) && negb (is_none (aitems g)) then AError ObjAndItems else AOk)
  | CReplaceNodes => (* replace_nodes.rs:128-134 *)
    Ret (if bool_decide (anode g = new_node g) then AError SameNode else AOk)
  | CReplaceInInv => (* replace_in_inv.rs:128-139 *)
    Ret (if is_none (new_item g) && negb (adelete g) && negb (delete_meta g) then AError NewItemRequired
         else if negb (is_none (new_item g)) && adelete g then AError NewItemForbidden
         else if bool_decide (aitem g = new_item g) && negb (delete_meta g) then AError SameItem
         else AOk)
  | COverlay => (* overlay.rs:12-32 *)
    Ret (if invert g && negb (is_none (keep (fun o => negb (bool_decide (o = V3 0 0 0))) (offset g)))
         then AError InvertedOffset
         else let o := default (V3 0 0 0) (offset g) in
              if is_none (intersection map_area (area_add (default map_area (aarea g)) o))
              then AError DestOutside else AOk)
  | CSetMetaVar => (* set_meta_var.rs:10-21 *)
    Ret (if is_none (avalue g) && negb (adelete g) then AError ValueRequired
         else if negb (is_none (avalue g)) && adelete g then AError ValueForbidden
         else if bool_decide (avalue g = Some []) then AError ValueEmpty
         else AOk)
  | CSetParam2 => (* set_param2.rs:107-113 *)
    Ret (if is_none (aarea g) && is_none (anode g) then AError NeedAreaOrNode else AOk)
  | CDeleteBlocks | CDeleteTimers | CFill | CVacuum => Ret AOk
  end.
