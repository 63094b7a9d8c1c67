(** Model of src/commands/*.rs, the parts that work on one mapblock.

    For each command that edits blocks one by one, [*_body key data] is what the
    loop body does with the data of one block: nothing ([ESkip]), count it as
    failed ([EFail]), or write new data; and how much it adds to the counters. *)
From Verif Require Export Utils.

Inductive edit := EFail | ESkip | EWrite (data : bytes).
(** Counters: the [count] of a command; the second is [node_mods] of replaceininv. *)
Notation counts := (Z * Z)%type.

(** ** Field updates *)
Definition set_nd (b : block) (nd : node_data) : block :=
  Block (version b) (flags b) (lighting b) (content_width b) (params_width b) nd
    (metadata b) (objects b) (timestamp b) (nimap b) (timers b).
Definition set_nodes (b : block) (ns : list Z) : block :=
  set_nd b (ND ns (param1 (ndata b)) (param2 (ndata b))).
Definition set_param2s (b : block) (p : bytes) : block :=
  set_nd b (ND (nodes (ndata b)) (param1 (ndata b)) p).
Definition set_nimap (b : block) (m : nimap_t) : block :=
  Block (version b) (flags b) (lighting b) (content_width b) (params_width b) (ndata b)
    (metadata b) (objects b) (timestamp b) m (timers b).
Definition set_metadata (b : block) (m : metadata_t) : block :=
  Block (version b) (flags b) (lighting b) (content_width b) (params_width b) (ndata b)
    m (objects b) (timestamp b) (nimap b) (timers b).
Definition set_objects (b : block) (l : list static_object) : block :=
  Block (version b) (flags b) (lighting b) (content_width b) (params_width b) (ndata b)
    (metadata b) l (timestamp b) (nimap b) (timers b).
Definition set_timers (b : block) (l : list node_timer) : block :=
  Block (version b) (flags b) (lighting b) (content_width b) (params_width b) (ndata b)
    (metadata b) (objects b) (timestamp b) (nimap b) l.

(** [block.serialize()] after an edit *)
Definition write_block (E : ext) (b : block) (c : counts) : out (edit * counts) :=
  let* d := serialize E b in Ret (EWrite d, c).

(** Part of the block is in the area: [contains_block != touches_block]. *)
Definition partly (a : area) (pos : vec3) : bool :=
  negb (Bool.eqb (contains_block a pos) (touches_block a pos)).

(** ** fill.rs *)

(** fill.rs:11-27 *)
Definition fill_area (ns : list Z) (id : Z) (a : area) (invert : bool) : out (list Z) :=
  let* idxs := (if invert then inv_indices a else Ret (area_idx a)) in
  foldO (fun acc i => vset acc i id) idxs ns.

(** fill.rs:41-67 *)
Definition fill_body (E : ext) (a : area) (invert : bool) (node : bytes) (key : Z) (data : bytes)
  : out (edit * counts) :=
  let pos := from_block_key key in
  match deserialize E data with
  | Err _ => Ret (EFail, (0, 0))
  | Ok b =>
    if partly a pos then
      let* part := unwrap (rel_block_overlap a pos) in
      let* (fill_id, nm) :=
        match get_id (nimap b) node with
        | Some id => Ret (id, nimap b)
        | None =>
          let* mx := unwrap (get_max_id (nimap b)) in
          let next := w16 (mx + 1) in
          Ret (next, <[next := node]> (nimap b))
        end in
      let* ns := fill_area (nodes (ndata b)) fill_id part invert in
      let* b' := clean_name_id_map (set_nimap (set_nodes b ns) nm) in
      write_block E b' (volume part, 0)
    else
      let ns := (fun _ => 0) <$> nodes (ndata b) in
      write_block E (set_nimap (set_nodes b ns) {[0 := node]}) (Z.of_nat (length ns), 0)
  end.

(** ** replace_nodes.rs *)

(** Replace [old_id] by [new_id] at the given indices, counting
    (replace_nodes.rs:36-49). *)
Definition replace_at (old_id new_id : Z) (idxs : list Z) (ns : list Z) : out (list Z * Z) :=
  foldO (fun st i =>
    let* id := vget st.1 i in
    if id =? old_id then let* ns' := vset st.1 i new_id in Ret (ns', u64 (st.2 + 1)) else Ret st)
    idxs (ns, 0).
(** [*id -= ( *id > old_id) as u16] *)
Definition shift_id (old_id id : Z) : Z := if old_id <? id then w16 (id - 1) else id.
Definition count_id (old_id : Z) (ns : list Z) : Z :=
  foldl (fun n id => if id =? old_id then u64 (n + 1) else n) 0 ns.

(** Indices of the positions of an area: replace_nodes.rs:43-44 *)
Definition pos_index (p : vec3) : Z := w32 (vx p + w32 (16 * w32 (vy p + w32 (16 * vz p)))).

(** replace_nodes.rs:10-94; returns nodes, names and count *)
Definition do_replace (nm : nimap_t) (ns : list Z) (key old_id : Z) (new_node : bytes)
    (a : option area) (invert : bool) : out (list Z * nimap_t * Z) :=
  let pos := from_block_key key in
  match (match a with Some a => if partly a pos then Some a else None | None => None end) with
  | Some a =>
    let* part := unwrap (rel_block_overlap a pos) in
    let* (new_id, needed) :=
      match get_id nm new_node with
      | Some id => Ret (id, false)
      | None => let* mx := unwrap (get_max_id nm) in Ret (w16 (mx + 1), true)
      end in
    let* idxs := (if invert then inv_indices part
                  else let* ps := unwrap (area_positions part) in Ret (pos_index <$> ps)) in
    let* (ns1, replaced) := replace_at old_id new_id idxs ns in
    let nm1 := if needed && (0 <? replaced) then <[new_id := new_node]> nm else nm in
    if negb (bool_decide (old_id ∈ ns1)) then
      Ret (shift_id old_id <$> ns1, remove_shift nm1 old_id, replaced)
    else Ret (ns1, nm1, replaced)
  | None =>
    match get_id nm new_node with
    | Some new_id =>
      let nm1 := remove_shift nm old_id in
      let new_id' := shift_id old_id new_id in
      Ret ((fun id => if id =? old_id then new_id' else shift_id old_id id) <$> ns,
           nm1, count_id old_id ns)
    | None => Ret (ns, <[old_id := new_node]> nm, count_id old_id ns)
    end
  end.

(** replace_nodes.rs:108-118 *)
Definition replace_body (E : ext) (old_node new_node : bytes) (a : option area) (invert : bool)
    (key : Z) (data : bytes) : out (edit * counts) :=
  match deserialize E data with
  | Err _ => Ret (EFail, (0, 0))
  | Ok b =>
    match get_id (nimap b) old_node with
    | None => Ret (ESkip, (0, 0))
    | Some old_id =>
      let* (ns, nm, n) := do_replace (nimap b) (nodes (ndata b)) key old_id new_node a invert in
      write_block E (set_nimap (set_nodes b ns) nm) (n, 0)
    end
  end.

(** ** set_param2.rs *)

(** set param2 at the indices whose node is [id] (or all, if [None]) *)
Definition param2_at (ns : list Z) (id : option Z) (val : byte) (idxs : list Z) (p2 : bytes)
  : out (bytes * Z) :=
  foldO (fun st i =>
    let* ok := match id with
               | None => Ret true
               | Some id => let* n := vget ns i in Ret (n =? id)
               end in
    if ok : bool then let* p := vset st.1 i val in Ret (p, u64 (st.2 + 1)) else Ret st)
    idxs (p2, 0).

(** set_param2.rs:10-50 *)
Definition set_param2_partial (ns : list Z) (p2 : bytes) (a : area) (invert : bool)
    (id : option Z) (val : byte) : out (bytes * Z) :=
  if invert then
    let* idxs := inv_indices a in
    let* (p, n) := param2_at ns id val idxs p2 in
    Ret (p, match id with Some _ => n | None => u64 (4096 - volume a) end)
  else param2_at ns id val (area_idx a) p2.

(** [node.and_then(|n| nimap.get_id(n))], and whether the block is skipped because
    a name was given and is not in the block (set_param2.rs:71-75,
    delete_meta.rs:35-38, delete_timers.rs:25-28) *)
Definition node_filter (nm : nimap_t) (node : option bytes) : option (option Z) :=
  match node with
  | None => Some None
  | Some n => match get_id nm n with Some id => Some (Some id) | None => None end
  end.

(** set_param2.rs:66-98 *)
Definition param2_body (E : ext) (node : option bytes) (val : byte) (a : option area) (invert : bool)
    (key : Z) (data : bytes) : out (edit * counts) :=
  let pos := from_block_key key in
  match deserialize E data with
  | Err _ => Ret (EFail, (0, 0))
  | Ok b =>
    match node_filter (nimap b) node with
    | None => Ret (ESkip, (0, 0))
    | Some id =>
      let ns := nodes (ndata b) in
      let p2 := param2 (ndata b) in
      let* (p, n) :=
        match (match a with Some a => if partly a pos then Some a else None | None => None end) with
        | Some a =>
          let* part := unwrap (rel_block_overlap a pos) in
          set_param2_partial ns p2 part invert id val
        | None =>
          match id with
          | Some _ => param2_at ns id val (zrange 0 (Z.of_nat (length p2) - 1)) p2
          | None => Ret ((fun _ => val) <$> p2, Z.of_nat (length p2))
          end
        end in
      write_block E (set_param2s b p) (n, 0)
    end
  end.

(** ** delete_meta.rs, delete_timers.rs *)

(** The position passes the area and node filters
    (delete_meta.rs:44-57, delete_timers.rs:35-48). *)
Definition idx_selected (ns : list Z) (corner : vec3) (a : option area) (invert : bool)
    (id : option Z) (idx : Z) : out bool :=
  let abs := vadd (from_u16_key idx) corner in
  if match a with Some a => Bool.eqb (contains a abs) invert | None => false end then Ret false else
  match id with
  | Some id => let* n := vget ns idx in Ret (n =? id)
  | None => Ret true
  end.

(** delete_meta.rs:31-67 *)
Definition delmeta_body (E : ext) (node : option bytes) (a : option area) (invert : bool)
    (key : Z) (data : bytes) : out (edit * counts) :=
  match deserialize E data with
  | Err _ => Ret (EFail, (0, 0))
  | Ok b =>
    match node_filter (nimap b) node with
    | None => Ret (ESkip, (0, 0))
    | Some id =>
      let corner := vmuls (from_block_key key) 16 in
      let* to_delete := foldO (fun l idx =>
          let* sel := idx_selected (nodes (ndata b)) corner a invert id idx in
          Ret (if sel : bool then l ++ [idx] else l)) (sorted_list (metadata b)).*1 [] in
      if bool_decide (to_delete = []) then Ret (ESkip, (0, 0))
      else write_block E (set_metadata b (foldl (fun m idx => delete idx m) (metadata b) to_delete))
             (Z.of_nat (length to_delete), 0)
    end
  end.

(** [for i in (0..len).rev()] *)
Definition rev_indices {A} (l : list A) : list nat := reverse (seq 0 (length l)).

(** delete_timers.rs:20-58 *)
Definition deltimers_body (E : ext) (node : option bytes) (a : option area) (invert : bool)
    (key : Z) (data : bytes) : out (edit * counts) :=
  match deserialize E data with
  | Err _ => Ret (EFail, (0, 0))
  | Ok b =>
    match node_filter (nimap b) node with
    | None => Ret (ESkip, (0, 0))
    | Some id =>
      let corner := vmuls (from_block_key key) 16 in
      let* (tm, n) := foldO (fun st i =>
          let* t := unwrap (st.1 !! i) in
          let* sel := idx_selected (nodes (ndata b)) corner a invert id (tpos t) in
          Ret (if sel : bool then (list_delete i st.1, st.2 + 1) else st))
        (rev_indices (timers b)) (timers b, 0) in
      if n =? 0 then Ret (ESkip, (0, 0)) else write_block E (set_timers b tm) (n, 0)
    end
  end.

(** ** delete_objects.rs *)

(** delete_objects.rs:11-13 *)
Definition ITEM_ENT_NAME : bytes := bstr "__builtin:item".
Definition ITEM_NAME_PAT_OLD : bytes := bstr "[""itemstring""] = """.
Definition ITEM_NAME_PAT_NEW : bytes := bstr "itemstring=""".

(** delete_objects.rs:32-40 *)
Definition get_item_name_start (d : bytes) : option nat :=
  match find_sub ITEM_NAME_PAT_NEW d with
  | Some i => Some (i + length ITEM_NAME_PAT_NEW)%nat
  | None =>
    match find_sub ITEM_NAME_PAT_OLD d with
    | Some i => Some (i + length ITEM_NAME_PAT_OLD)%nat
    | None => None
    end
  end.

(** Bytes up to the first one satisfying [stop]: [split(stop).next()] *)
Fixpoint until (stop : byte -> bool) (s : bytes) : bytes :=
  match s with
  | [] => []
  | b :: t => if stop b then [] else b :: until stop t
  end.

(** delete_objects.rs:44-57 *)
Definition get_item_name (d : bytes) : bytes :=
  if bool_decide (take 6 d = bstr "return") then
    match get_item_name_start d with
    | Some i => until (fun c => bool_decide (c = x20) || bool_decide (c = x22)) (drop i d)
    | None => []
    end
  else d.

(** delete_objects.rs:60-97 *)
Definition can_delete (o : static_object) (a : option area) (invert : bool)
    (obj_name : option bytes) (items : list bytes) : bool :=
  let rounded := vmap (fun v => w32 (v + 5000) / 10000) (f_pos o) in
  if match a with Some a => Bool.eqb (contains a rounded) invert | None => false end then false else
  match obj_name with
  | None => true
  | Some name =>
    match lua_entity o with
    | Err _ => false
    | Ok (n, d) =>
      if negb (bool_decide (n = name)) then false
      else if bool_decide (items = []) then true
      else existsb (fun i => bool_decide (i = get_item_name d)) items
    end
  end.

(** delete_objects.rs:115-139 *)
Definition delobj_body (E : ext) (obj_name : option bytes) (items : list bytes) (a : option area)
    (invert : bool) (key : Z) (data : bytes) : out (edit * counts) :=
  match deserialize E data with
  | Err _ => Ret (EFail, (0, 0))
  | Ok b =>
    let* (os, n) := foldO (fun st i =>
        let* o := unwrap (st.1 !! i) in
        Ret (if can_delete o a invert obj_name items then (list_delete i st.1, st.2 + 1) else st))
      (rev_indices (objects b)) (objects b, 0) in
    if n =? 0 then Ret (ESkip, (0, 0)) else write_block E (set_objects b os) (n, 0)
  end.

(** ** set_meta_var.rs *)

(** [nodes.iter().filter_map(|n| nimap.get_id(n))]; [None]: names were given and
    none is in the block (set_meta_var.rs:42-46, replace_in_inv.rs:85-89) *)
Definition nodes_filter (nm : nimap_t) (nodes : list bytes) : option (list Z) :=
  let ids := omap (get_id nm) nodes in
  if negb (bool_decide (nodes = [])) && bool_decide (ids = []) then None else Some ids.

(** set_meta_var.rs:54-63, replace_in_inv.rs:97-106 *)
Definition idx_selected_any (ns : list Z) (corner : vec3) (a : option area) (invert : bool)
    (ids : list Z) (idx : Z) : out bool :=
  let abs := vadd (from_u16_key idx) corner in
  if match a with Some a => Bool.eqb (contains a abs) invert | None => false end then Ret false else
  if bool_decide (ids = []) then Ret true else
  let* n := vget ns idx in Ret (bool_decide (n ∈ ids)).

(** set_meta_var.rs:65-74 *)
Definition set_var (key value : bytes) (del : bool) (m : node_meta) : option node_meta :=
  match vars m !! key with
  | None => None
  | Some v => Some (NM (if del then delete key (vars m)
                        else <[key := (value, v.2)]> (vars m)) (inv m))
  end.

(** set_meta_var.rs:37-80 *)
Definition setvar_body (E : ext) (var value : bytes) (del : bool) (nodes_ : list bytes)
    (a : option area) (invert : bool) (key : Z) (data : bytes) : out (edit * counts) :=
  match deserialize E data with
  | Err _ => Ret (EFail, (0, 0))
  | Ok b =>
    match nodes_filter (nimap b) nodes_ with
    | None => Ret (ESkip, (0, 0))
    | Some ids =>
      let corner := vmuls (from_block_key key) 16 in
      let* (md, n) := foldO (fun st e =>
          let* sel := idx_selected_any (nodes (ndata b)) corner a invert ids e.1 in
          Ret (if sel : bool then
                 match set_var var value del e.2 with
                 | Some m => (<[e.1 := m]> st.1, st.2 + 1)
                 | None => st
                 end
               else st))
        (sorted_list (metadata b)) (metadata b, 0) in
      if n =? 0 then Ret (ESkip, (0, 0)) else write_block E (set_metadata b md) (n, 0)
    end
  end.

(** ** replace_in_inv.rs *)

(** [slice.split(|x| x == sep)] *)
Fixpoint split_on (sep : byte) (s : bytes) : list bytes :=
  match s with
  | [] => [[]]
  | b :: t =>
    if bool_decide (b = sep) then [] :: split_on sep t
    else match split_on sep t with
         | l :: r => (b :: l) :: r
         | [] => [[b]]
         end
  end.
(** [slice.splitn(n, |x| x == sep)], [n >= 1] *)
Fixpoint splitn (n : nat) (sep : byte) (s : bytes) : list bytes :=
  match n with
  | O => []
  | S O => [s]
  | S n' =>
    match find_sub [sep] s with
    | None => [s]
    | Some i => take i s :: splitn n' sep (drop (S i) s)
    end
  end.

(** replace_in_inv.rs:34-51: the parts after the item name *)
Definition stack_tail (del_meta : bool) (parts : list bytes) : bytes :=
  if del_meta then
    let count := default (bstr "1") (parts !! 0%nat) in
    let wear := default (bstr "0") (parts !! 1%nat) in
    (if negb (bool_decide (count = bstr "1")) || negb (bool_decide (wear = bstr "0"))
     then [x20] ++ count else []) ++
    (if negb (bool_decide (wear = bstr "0")) then [x20] ++ wear else [])
  else concat ((fun p => [x20] ++ p) <$> parts).

(** replace_in_inv.rs:26-55: one line without newline; [None]: not the item *)
Definition replace_line (item new_item : bytes) (del_meta : bool) (line : bytes) : option bytes :=
  match splitn 5 x20 line with
  | w :: i :: parts =>
    if bool_decide (w = bstr "Item") && bool_decide (i = item) then
      Some (if bool_decide (new_item = []) then bstr "Empty"
            else bstr "Item " ++ new_item ++ stack_tail del_meta parts)
    else None
  | _ => None
  end.

(** replace_in_inv.rs:10-63; [None]: no item replaced *)
Definition replace_inv (item new_item : bytes) (del_meta : bool) (inv : bytes) : bytes * Z :=
  foldl (fun st line =>
      if bool_decide (line = []) then st else
      match replace_line item new_item del_meta line with
      | Some l => (st.1 ++ l ++ [x0a], st.2 + 1)
      | None => (st.1 ++ line ++ [x0a], st.2)
      end) ([], 0) (split_on x0a inv).
Definition do_replace_inv (item new_item : bytes) (del_meta : bool) (inv : bytes) : bytes * Z :=
  let (new_inv, mods) := replace_inv item new_item del_meta inv in
  (if 0 <? mods then new_inv else inv, mods).

(** replace_in_inv.rs:79-120 *)
Definition replinv_body (E : ext) (item new_item : bytes) (del_meta : bool) (nodes_ : list bytes)
    (a : option area) (invert : bool) (key : Z) (data : bytes) : out (edit * counts) :=
  match deserialize E data with
  | Err _ => Ret (EFail, (0, 0))
  | Ok b =>
    match nodes_filter (nimap b) nodes_ with
    | None => Ret (ESkip, (0, 0))
    | Some ids =>
      let corner := vmuls (from_block_key key) 16 in
      let* (md, (items, ns)) := foldO (fun (st : metadata_t * counts) e =>
          let* sel := idx_selected_any (nodes (ndata b)) corner a invert ids e.1 in
          Ret (if sel : bool then
                 let (i, mods) := do_replace_inv item new_item del_meta (inv e.2) in
                 (<[e.1 := NM (vars e.2) i]> st.1,
                  (st.2.1 + mods, if 0 <? mods then st.2.2 + 1 else st.2.2))
               else st))
        (sorted_list (metadata b)) (metadata b, (0, 0)) in
      if ns =? 0 then Ret (ESkip, (items, ns)) else write_block E (set_metadata b md) (items, ns)
    end
  end.
