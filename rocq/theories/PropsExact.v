(** C42: the coordinate computations of the commands are exact for every accepted
    area and offset and every block of the map.  On the left the computations of the
    program, in 32-bit arithmetic; on the right the same on unbounded integers. *)
From Verif Require Import Spatial BlockUtils Commands SpecExact Spec.
From Verif Require ExactProofs.

(** The area that is searched, and its ranges of blocks. *)
Theorem C42_search : forall a o, accepted_area a -> accepted_offset o ->
  area_add a o = moved a o /\
  to_touching_block_area (area_add a o) = touched_blocks (moved a o) /\
  to_contained_block_area (area_add a o) = if_any (contained_blocks (moved a o)).
Proof. exact ExactProofs.query_exact. Qed.
Print Assumptions C42_search.

(** A block and the area. *)
Theorem C42_block : forall a o bp, accepted_area a -> accepted_offset o -> key_range bp ->
  vmuls bp 16 = block_corner bp /\ vadds (vmuls bp 16) 15 = amax (cube bp) /\
  abs_block_overlap (moved a o) bp = if_any (meet (moved a o) (cube bp)) /\
  rel_block_overlap (moved a o) bp =
    if_any (meet (moved_back (moved a o) (block_corner bp)) (Area (V3 0 0 0) (V3 15 15 15))) /\
  (contains_block (moved a o) bp = true <-> forall q, node_in_block bp q -> inside (moved a o) q) /\
  (touches_block (moved a o) bp = true <-> exists q, node_in_block bp q /\ inside (moved a o) q).
Proof. exact ExactProofs.block_exact. Qed.
Print Assumptions C42_block.

(** Positions and indices of nodes, sizes of parts of blocks. *)
Theorem C42_node : forall bp i, key_range bp -> 0 <= i < 4096 ->
  vadd (from_u16_key i) (vmuls bp 16) = abs_pos bp i.
Proof. exact ExactProofs.node_exact. Qed.
Print Assumptions C42_node.
Theorem C42_index : forall p, inside (Area (V3 0 0 0) (V3 15 15 15)) p -> pos_index p = pos_idx p.
Proof. exact ExactProofs.index_exact. Qed.
Print Assumptions C42_index.
Theorem C42_size : forall a, nonempty a -> inside (Area (V3 0 0 0) (V3 15 15 15)) (amin a) ->
  inside (Area (V3 0 0 0) (V3 15 15 15)) (amax a) -> volume a = extent a.
Proof. exact ExactProofs.volume_part. Qed.
Print Assumptions C42_size.

(** Copying with an offset: [part] is the part of the destination block [bp] that is
    written, [sp] a source block, [f] what is copied from it. *)
Theorem C42_copy : forall o bp part, accepted_offset o -> key_range bp -> nonempty part ->
  (forall p, inside part p -> node_in_block bp p) ->
  area_sub part o = moved_back part o /\
  to_touching_block_area (moved_back part o) = touched_blocks (moved_back part o) /\
  forall sp f, inside (touched_blocks (moved_back part o)) sp ->
    meet (moved_back part o) (cube sp) = f -> nonempty f ->
    abs_block_overlap (moved_back part o) sp = Some f /\
    area_sub f (vmuls sp 16) = moved_back f (block_corner sp) /\
    area_add f o = moved f o /\
    rel_block_overlap (moved f o) bp = Some (moved_back (moved f o) (block_corner bp)) /\
    idx_diff (moved_back f (block_corner sp)) (moved_back (moved f o) (block_corner bp)) =
      pos_idx (minus (plus (amin f) o) (block_corner bp)) - pos_idx (minus (amin f) (block_corner sp)).
Proof. exact ExactProofs.copy_exact. Qed.
Print Assumptions C42_copy.

(** The order in which clone visits blocks. *)
Theorem C42_order : forall o k bp, key_range bp -> k = vx bp + 4096 * vy bp + 16777216 * vz bp ->
  sort_key o k = Ret (let m := mirror o bp in vx m + 4096 * vy m + 16777216 * vz m).
Proof. exact ExactProofs.order_exact. Qed.
Print Assumptions C42_order.

(** The extreme corner and offset; one more than the limit of [i32] would wrap. *)
Definition ex_corner : area := Area (V3 30990 (-31000) 0) (V3 31000 (-30990) 5).
Definition ex_far : vec3 := V3 62000 (-62000) 62000.
Example C42_example : accepted_area ex_corner /\ accepted_offset ex_far /\ key_range (V3 2047 (-2048) 0) /\
  area_add ex_corner ex_far = Area (V3 92990 (-93000) 62000) (V3 93000 (-92990) 62005) /\
  area_add ex_corner (V3 2147483647 0 0) <> moved ex_corner (V3 2147483647 0 0).
Proof.
  unfold accepted_area, accepted_offset, nonempty, area_within, within, key_range, ex_corner, ex_far. cbn.
  repeat split; try lia; by vm_compute.
Qed.
Example C42_example_copy :
  let part := Area (V3 32752 0 0) (V3 32760 3 3) in
  let f := Area (V3 (-29248) 62000 (-1)) (V3 (-29240) 62003 (-1)) in
  nonempty part /\ (forall p, inside part p -> node_in_block (V3 2047 0 0) p) /\
  inside (touched_blocks (moved_back part (V3 62000 (-62000) 1))) (V3 (-1828) 3875 (-1)) /\
  meet (moved_back part (V3 62000 (-62000) 1)) (cube (V3 (-1828) 3875 (-1))) = f /\ nonempty f /\
  idx_diff (moved_back f (block_corner (V3 (-1828) 3875 (-1))))
    (moved_back (moved f (V3 62000 (-62000) 1)) (block_corner (V3 2047 0 0))) = -3840.
Proof.
  cbv zeta. split; [by unfold nonempty; cbn; lia|]. split.
  { intros [x y z]. unfold inside, node_in_block. cbn. lia. }
  split; [by unfold inside; cbn; lia|]. split; [by vm_compute|]. split; [by unfold nonempty; cbn; lia|by vm_compute].
Qed.
