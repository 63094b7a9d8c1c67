(** C01-C06, C08: positions, keys and areas. *)
From Verif Require Import Spatial Spec SpatialProofs.

(** ** C01 *)

(** Key and position are inverse on the whole range, out-of-range panics. *)
Theorem C01_key_roundtrip : forall p, key_range p ->
  exists k, to_block_key p = Ret k /\ from_block_key k = p.
Proof. exact SpatialProofs.key_roundtrip. Qed.
Print Assumptions C01_key_roundtrip.

Theorem C01_key_injective : forall p q k,
  to_block_key p = Ret k -> to_block_key q = Ret k -> p = q.
Proof. exact SpatialProofs.key_injective. Qed.
Print Assumptions C01_key_injective.

(** Every key between the least and the greatest encoding is the key of the
    position it decodes to. *)
Theorem C01_key_surjective : forall k,
  -2048 * (1 + 4096 + 16777216) <= k <= 2047 * (1 + 4096 + 16777216) ->
  key_range (from_block_key k) /\ to_block_key (from_block_key k) = Ret k.
Proof. exact SpatialProofs.key_surjective. Qed.
Print Assumptions C01_key_surjective.

Theorem C01_key_out_of_range_panics : forall p,
  ~ key_range p -> to_block_key p = Panic.
Proof. exact SpatialProofs.to_block_key_panic. Qed.
Print Assumptions C01_key_out_of_range_panics.

(** The key itself is x + 4096*y + 4096^2*z. *)
Theorem C01_key_formula : forall x y z, key_range (V3 x y z) ->
  to_block_key (V3 x y z) = Ret (x + 4096 * y + 4096 * 4096 * z).
Proof. exact SpatialProofs.key_formula. Qed.
Print Assumptions C01_key_formula.

Example C01_example : key_range (V3 (-2048) 2047 (-3)) /\
  to_block_key (V3 (-2048) 2047 (-3)) = Ret (-41949184) /\
  from_block_key (-41949184) = V3 (-2048) 2047 (-3) /\
  to_block_key (V3 0 2048 0) = Panic.
Proof. unfold key_range; simpl. split; [lia|]. by vm_compute. Qed.

(** ** C02 *)

Theorem C02_index_roundtrip : forall i, 0 <= i < 4096 ->
  let p := from_u16_key i in
  (0 <= vx p < 16 /\ 0 <= vy p < 16 /\ 0 <= vz p < 16) /\
  vx p + 16 * vy p + 256 * vz p = i.
Proof. exact SpatialProofs.index_roundtrip. Qed.
Print Assumptions C02_index_roundtrip.

Theorem C02_position_unique_index : forall x y z,
  0 <= x < 16 -> 0 <= y < 16 -> 0 <= z < 16 ->
  forall i, 0 <= i < 4096 -> from_u16_key i = V3 x y z <-> i = x + 16 * y + 256 * z.
Proof. exact SpatialProofs.position_unique_index. Qed.
Print Assumptions C02_position_unique_index.

Theorem C02_index_alias : forall i, 0 <= i < 65536 ->
  from_u16_key i = from_u16_key (i mod 4096).
Proof. exact SpatialProofs.index_alias. Qed.
Print Assumptions C02_index_alias.

Example C02_example : from_u16_key 0xABC = V3 12 11 10 /\ from_u16_key 0x5ABC = V3 12 11 10.
Proof. by vm_compute. Qed.

(** ** C03 *)

Theorem C03_area_iteration : forall a, nonempty a -> area_within 2147483646 a ->
  exists l, area_positions a = Some l /\
    (forall p, p ∈ l <-> inside a p) /\ NoDup l /\ StronglySorted zyx_lt l.
Proof. exact SpatialProofs.area_iteration. Qed.
Print Assumptions C03_area_iteration.

Example C03_example :
  let a := Area (V3 (-1) 5 7) (V3 0 6 7) in
  nonempty a /\ area_within 2147483646 a /\
  area_positions a = Some [V3 (-1) 5 7; V3 0 5 7; V3 (-1) 6 7; V3 0 6 7].
Proof. unfold nonempty, area_within, within; simpl. repeat split; try lia. Qed.

(** ** C04 *)

Theorem C04_inverse_iteration : forall a, nonempty a ->
  (forall p, inside a p -> 0 <= vx p < 16 /\ 0 <= vy p < 16 /\ 0 <= vz p < 16) ->
  exists l, inv_indices a = Ret l /\
    (forall i, i ∈ l <-> 0 <= i < 4096 /\ ~ inside a (idx_pos i)) /\
    NoDup l /\ StronglySorted Z.lt l.
Proof. exact SpatialProofs.inverse_iteration. Qed.
Print Assumptions C04_inverse_iteration.

(** Areas reaching out of the block are rejected. *)
Theorem C04_inverse_rejects : forall a, nonempty a ->
  ~ (forall p, inside a p -> 0 <= vx p < 16 /\ 0 <= vy p < 16 /\ 0 <= vz p < 16) ->
  inv_indices a = Panic.
Proof. exact SpatialProofs.inverse_rejects. Qed.
Print Assumptions C04_inverse_rejects.

Example C04_example :
  let a := Area (V3 0 0 0) (V3 15 15 14) in
  nonempty a /\ inside a (V3 3 3 3) /\
  inv_indices (Area (V3 0 0 0) (V3 15 15 14)) = Ret (seqZ 3840 256).
Proof. unfold nonempty, inside; simpl. repeat split; try lia. Qed.

(** ** C05 *)

(** Block positions up to 10^8 and areas up to 10^9 in absolute value; the
    program only uses positions below 10^5. *)
Theorem C05_contained_range : forall a, area_within 1000000000 a ->
  match to_contained_block_area a with
  | Some b => nonempty b /\
      forall bp, inside b bp <-> forall q, node_in_block bp q -> inside a q
  | None => forall bp, exists q, node_in_block bp q /\ ~ inside a q
  end.
Proof. exact SpatialProofs.contained_range. Qed.
Print Assumptions C05_contained_range.

Theorem C05_touching_range : forall a, nonempty a ->
  nonempty (to_touching_block_area a) /\
  forall bp, inside (to_touching_block_area a) bp <->
    exists q, node_in_block bp q /\ inside a q.
Proof. exact SpatialProofs.touching_range. Qed.
Print Assumptions C05_touching_range.

Theorem C05_contains_block : forall a bp, within 100000000 bp ->
  contains_block a bp = true <-> forall q, node_in_block bp q -> inside a q.
Proof. exact SpatialProofs.contains_block_iff. Qed.
Print Assumptions C05_contains_block.

Theorem C05_touches_block : forall a bp, within 100000000 bp -> nonempty a ->
  touches_block a bp = true <-> exists q, node_in_block bp q /\ inside a q.
Proof. exact SpatialProofs.touches_block_iff. Qed.
Print Assumptions C05_touches_block.

Example C05_example :
  let a := Area (V3 (-17) 0 (-16)) (V3 31 15 31) in
  nonempty a /\ area_within 1000000000 a /\
  to_contained_block_area a = Some (Area (V3 (-1) 0 (-1)) (V3 1 0 1)) /\
  to_touching_block_area a = Area (V3 (-2) 0 (-1)) (V3 1 0 1) /\
  to_contained_block_area (Area (V3 1 0 0) (V3 30 15 15)) = None /\
  contains_block a (V3 (-2) 0 0) = false /\ touches_block a (V3 (-2) 0 0) = true.
Proof. unfold nonempty, area_within, within; simpl. repeat split; try lia. Qed.

(** ** C06 *)

Theorem C06_absolute_overlap : forall a bp, within 100000000 bp ->
  match abs_block_overlap a bp with
  | Some c => nonempty c /\ forall p, inside c p <-> inside a p /\ node_in_block bp p
  | None => forall p, ~ (inside a p /\ node_in_block bp p)
  end.
Proof. exact SpatialProofs.absolute_overlap. Qed.
Print Assumptions C06_absolute_overlap.

Theorem C06_relative_overlap : forall a bp, within 50000000 bp ->
  area_within 1000000000 a ->
  match rel_block_overlap a bp with
  | Some c => nonempty c /\
      (forall p, inside c p -> 0 <= vx p < 16 /\ 0 <= vy p < 16 /\ 0 <= vz p < 16) /\
      forall p, inside c p <->
        inside a (plus (block_corner bp) p) /\ node_in_block bp (plus (block_corner bp) p)
  | None => forall p, ~ (inside a p /\ node_in_block bp p)
  end.
Proof. exact SpatialProofs.relative_overlap. Qed.
Print Assumptions C06_relative_overlap.

Theorem C06_intersection : forall a b,
  match intersection a b with
  | Some c => nonempty c /\ forall p, inside c p <-> inside a p /\ inside b p
  | None => forall p, ~ (inside a p /\ inside b p)
  end.
Proof. exact SpatialProofs.intersection_exact. Qed.
Print Assumptions C06_intersection.

Example C06_example :
  let a := Area (V3 (-20) 3 0) (V3 5 5 100) in
  area_within 1000000000 a /\
  abs_block_overlap a (V3 (-2) 0 1) = Some (Area (V3 (-20) 3 16) (V3 (-17) 5 31)) /\
  rel_block_overlap a (V3 (-2) 0 1) = Some (Area (V3 12 3 0) (V3 15 5 15)) /\
  rel_block_overlap a (V3 1 0 1) = None.
Proof. unfold area_within, within; simpl. repeat split; try lia. Qed.

(** ** C08 *)

Theorem C08_corner_order : forall a b,
  from_unsorted a b = from_unsorted b a /\
  (forall x1 y1 z1 x2 y2 z2,
     from_unsorted (V3 x1 y1 z1) (V3 x2 y2 z2) = from_unsorted (V3 x2 y1 z1) (V3 x1 y2 z2) /\
     from_unsorted (V3 x1 y1 z1) (V3 x2 y2 z2) = from_unsorted (V3 x1 y2 z1) (V3 x2 y1 z2) /\
     from_unsorted (V3 x1 y1 z1) (V3 x2 y2 z2) = from_unsorted (V3 x1 y1 z2) (V3 x2 y2 z1)).
Proof. exact SpatialProofs.corner_order. Qed.
Print Assumptions C08_corner_order.

Theorem C08_corner_box : forall a b,
  nonempty (from_unsorted a b) /\ area_valid (from_unsorted a b) = true /\
  forall p, contains (from_unsorted a b) p = true <->
    (vx a <= vx p <= vx b \/ vx b <= vx p <= vx a) /\
    (vy a <= vy p <= vy b \/ vy b <= vy p <= vy a) /\
    (vz a <= vz p <= vz b \/ vz b <= vz p <= vz a).
Proof. exact SpatialProofs.corner_box. Qed.
Print Assumptions C08_corner_box.

Example C08_example :
  from_unsorted (V3 5 (-2) 9) (V3 1 7 3) = Area (V3 1 (-2) 3) (V3 5 7 9) /\
  contains (from_unsorted (V3 5 (-2) 9) (V3 1 7 3)) (V3 1 7 4) = true.
Proof. by vm_compute. Qed.
