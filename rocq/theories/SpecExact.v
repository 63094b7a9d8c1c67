(** Coordinate computations of the commands on unbounded integers *)
From Verif Require Import Spatial Spec.

(** Areas and offsets that are accepted; see C41. *)
Definition accepted_area (a : area) : Prop := nonempty a /\ area_within 31000 a.
Definition accepted_offset (o : vec3) : Prop := within 62000 o.

(** Boxes: moved by an offset, of a block, common part, blocks contained and touched. *)
Definition moved (a : area) (o : vec3) : area := Area (plus (amin a) o) (plus (amax a) o).
Definition moved_back (a : area) (o : vec3) : area := Area (minus (amin a) o) (minus (amax a) o).
Definition cube (bp : vec3) : area :=
  Area (block_corner bp) (V3 (16 * vx bp + 15) (16 * vy bp + 15) (16 * vz bp + 15)).
Definition meet (a b : area) : area :=
  Area (V3 (Z.max (vx (amin a)) (vx (amin b))) (Z.max (vy (amin a)) (vy (amin b)))
           (Z.max (vz (amin a)) (vz (amin b))))
       (V3 (Z.min (vx (amax a)) (vx (amax b))) (Z.min (vy (amax a)) (vy (amax b)))
           (Z.min (vz (amax a)) (vz (amax b)))).
Definition touched_blocks (a : area) : area :=
  Area (V3 (vx (amin a) / 16) (vy (amin a) / 16) (vz (amin a) / 16))
       (V3 (vx (amax a) / 16) (vy (amax a) / 16) (vz (amax a) / 16)).
Definition contained_blocks (a : area) : area :=
  Area (V3 ((vx (amin a) + 15) / 16) ((vy (amin a) + 15) / 16) ((vz (amin a) + 15) / 16))
       (V3 ((vx (amax a) - 15) / 16) ((vy (amax a) - 15) / 16) ((vz (amax a) - 15) / 16)).
Global Instance nonempty_dec a : Decision (nonempty a).
Proof. unfold nonempty. apply _. Defined.
Definition if_any (a : area) : option area := if decide (nonempty a) then Some a else None.

(** Number of nodes of a box. *)
Definition extent (a : area) : Z :=
  (vx (amax a) - vx (amin a) + 1) * (vy (amax a) - vy (amin a) + 1) * (vz (amax a) - vz (amin a) + 1).

(** Block positions mirrored in the directions in which the offset is positive. *)
Definition mirror (o bp : vec3) : vec3 :=
  let f d z := if 0 <? d then - z - 1 else z in
  V3 (f (vx o) (vx bp)) (f (vy o) (vy bp)) (f (vz o) (vz bp)).
