(** Model of src/block_utils.rs and the lookups of
    src/map_block/name_id_map.rs *)
From Verif Require Export Block.

(** * Loops that may panic *)

(** [for x in l { acc = f(acc, x) }] *)
Fixpoint foldO {A B} (f : A -> B -> out A) (l : list B) (a : A) : out A :=
  match l with
  | [] => Ret a
  | x :: t => let* a' := f a x in foldO f t a'
  end.
Fixpoint mapO {A B} (f : A -> out B) (l : list A) : out (list B) :=
  match l with
  | [] => Ret []
  | x :: t => let* y := f x in let* r := mapO f t in Ret (y :: r)
  end.

(** * name_id_map.rs *)

(** name_id_map.rs:41-45: the smallest ID with that name *)
Definition get_id (m : nimap_t) (name : bytes) : option Z :=
  fst <$> head (filter (fun e => e.2 = name) (sorted_list m)).

(** name_id_map.rs:48-50 *)
Definition get_max_id (m : nimap_t) : option Z := max_key m.

(** name_id_map.rs:56-58, loop body *)
Definition shift_down (m : nimap_t) (k : Z) : nimap_t :=
  match m !! k with
  | Some name => <[w16 (k - 1) := name]> (delete k m)
  | None => m
  end.
(** name_id_map.rs:53-60.  [id + 1] is a [u16] sum. *)
Definition remove_shift (m : nimap_t) (id : Z) : nimap_t :=
  let m1 := delete id m in
  foldl shift_down m1 (zrange (w16 (id + 1)) (default 0 (get_max_id m1))).

(** * block_utils.rs *)

(** block_utils.rs:7-13 *)
Definition part_valid (a : area) : bool :=
  (0 <=? vx (amin a)) && (0 <=? vy (amin a)) && (0 <=? vz (amin a))
  && (vx (amax a) <? 16) && (vy (amax a) <? 16) && (vz (amax a) <? 16).
Definition block_parts_valid (a b : area) : bool :=
  part_valid a && part_valid b
  && bool_decide (vsub (amax a) (amin a) = vsub (amax b) (amin b)).

(** Node indices of [for z { for y { for x { x + y * 16 + z * 256 }}}],
    block_utils.rs:39-42.  Values are below 4096, so [i32] does not overflow. *)
Definition area_idx (a : area) : list Z :=
  z ← zrange (vz (amin a)) (vz (amax a));
  y ← zrange (vy (amin a)) (vy (amax a));
  x ← zrange (vx (amin a)) (vx (amax a));
  [x + y * 16 + z * 256].

(** [offset.x + offset.y * 16 + offset.z * 256], block_utils.rs:29-31 *)
Definition idx_diff (src_area dst_area : area) : Z :=
  let o := vsub (amin dst_area) (amin src_area) in
  w32 (w32 (vx o + w32 (vy o * 16)) + w32 (vz o * 256)).

(** [dst[d ..= d + (e - s)].clone_from_slice(&src[s ..= e])] with the bounds
    checks of slicing; block_utils.rs:57-64. *)
Definition copy_row (src : bytes) (s e d : Z) (dst : bytes) : out bytes :=
  let n := e - s + 1 in
  if (s <? 0) || (d <? 0) || (n <? 0)
     || (Z.of_nat (length src) <=? e) || (Z.of_nat (length dst) <? d + n)
  then Panic
  else Ret (take (Z.to_nat d) dst ++ take (Z.to_nat n) (drop (Z.to_nat s) src)
            ++ drop (Z.to_nat (d + n)) dst).

(** Rows [(start, end)] of an area, block_utils.rs:51-55 *)
Definition area_rows (a : area) : list (Z * Z) :=
  z ← zrange (vz (amin a)) (vz (amax a));
  y ← zrange (vy (amin a)) (vy (amax a));
  [(y * 16 + z * 256 + vx (amin a), y * 16 + z * 256 + vx (amax a))].

Definition copy_rows (src : bytes) (rows : list (Z * Z)) (diff : Z) (dst : bytes) : out bytes :=
  foldO (fun d r => copy_row src r.1 r.2 (r.1 + diff) d) rows dst.

(** block_utils.rs:19-67.  Returns the new destination block.  Simplification:
    [param1] and [param2] rows are copied one array after the other. *)
Definition merge_blocks (src dst : block) (src_area dst_area : area) : out block :=
  if negb (block_parts_valid src_area dst_area) then Panic else
  let diff := idx_diff src_area dst_area in
  let* mx := unwrap (get_max_id (nimap dst)) in
  let nd := w16 (mx + 1) in
  let nm := foldl (fun m e => <[w16 (e.1 + nd) := e.2]> m) (nimap dst)
              (sorted_list (nimap src)) in
  let* ns := foldO (fun acc idx =>
      let* id := vget (nodes (ndata src)) idx in vset acc (idx + diff) (w16 (id + nd)))
    (area_idx src_area) (nodes (ndata dst)) in
  let* p1 := copy_rows (param1 (ndata src)) (area_rows src_area) diff (param1 (ndata dst)) in
  let* p2 := copy_rows (param2 (ndata src)) (area_rows src_area) diff (param2 (ndata dst)) in
  Ret (Block (version dst) (flags dst) (lighting dst) (content_width dst) (params_width dst)
    (ND ns p1 p2) (metadata dst) (objects dst) (timestamp dst) nm (timers dst)).

(** block_utils.rs:71-103.  [(idx as i32 + diff) as u16] *)
Definition merge_metadata (src dst : metadata_t) (src_area dst_area : area) : out metadata_t :=
  if negb (block_parts_valid src_area dst_area) then Panic else
  let diff := idx_diff src_area dst_area in
  let to_delete := filter (fun idx => contains dst_area (from_u16_key idx) = true)
                     (sorted_list dst).*1 in
  let dst1 := foldl (fun m idx => delete idx m) dst to_delete in
  Ret (foldl (fun m e =>
      if contains src_area (from_u16_key e.1) then <[w16 (e.1 + diff) := e.2]> m else m)
    dst1 (sorted_list src)).

(** block_utils.rs:116-135, loop body; state: new map and old-to-new table *)
Definition clean_step (used : list bool) (st : nimap_t * list Z) (e : Z * bytes)
  : out (nimap_t * list Z) :=
  let (nm, tbl) := st in
  let* u := vget used e.1 in
  if negb u then Ret (nm, tbl) else
  match get_id nm e.2 with
  | Some first_id => let* t := vset tbl e.1 first_id in Ret (nm, t)
  | None =>
    let nm' := <[w16 (Z.of_nat (size nm)) := e.2]> nm in
    let* t := vset tbl e.1 (w16 (w16 (Z.of_nat (size nm')) - 1)) in
    Ret (nm', t)
  end.

(** block_utils.rs:107-141 *)
Definition clean_name_id_map (b : block) : out block :=
  let* mx := unwrap (get_max_id (nimap b)) in
  let id_count := Z.to_nat (w16 (mx + 1)) in
  let* used := foldO (fun u id => vset u id true) (nodes (ndata b)) (replicate id_count false) in
  let* st := foldO (clean_step used) (sorted_list (nimap b)) (∅, replicate id_count 0) in
  let* ns := mapO (vget st.2) (nodes (ndata b)) in
  Ret (Block (version b) (flags b) (lighting b) (content_width b) (params_width b)
    (ND ns (param1 (ndata b)) (param2 (ndata b))) (metadata b) (objects b) (timestamp b)
    st.1 (timers b)).
