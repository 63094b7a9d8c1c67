(** Specification vocabulary.

    Everything here is stated without reference to how the program works: boxes
    of positions, the cube of a mapblock, enumeration orders. *)
From Verif Require Import Spatial.

(** [p] lies in the closed box spanned by the corners of [a]. *)
Definition inside (a : area) (p : vec3) : Prop :=
  vx (amin a) <= vx p <= vx (amax a) /\
  vy (amin a) <= vy p <= vy (amax a) /\
  vz (amin a) <= vz p <= vz (amax a).

Global Instance inside_dec a p : Decision (inside a p).
Proof. unfold inside. apply _. Defined.

(** The box is not empty. *)
Definition nonempty (a : area) : Prop :=
  vx (amin a) <= vx (amax a) /\ vy (amin a) <= vy (amax a) /\ vz (amin a) <= vz (amax a).

(** Node position [q] belongs to the mapblock at block position [bp]. *)
Definition node_in_block (bp q : vec3) : Prop :=
  16 * vx bp <= vx q < 16 * vx bp + 16 /\
  16 * vy bp <= vy q < 16 * vy bp + 16 /\
  16 * vz bp <= vz q < 16 * vz bp + 16.

(** All coordinates between [-k] and [k]. *)
Definition within (k : Z) (p : vec3) : Prop :=
  - k <= vx p <= k /\ - k <= vy p <= k /\ - k <= vz p <= k.

(** Block positions that have a database key. *)
Definition key_range (p : vec3) : Prop :=
  -2048 <= vx p < 2048 /\ -2048 <= vy p < 2048 /\ -2048 <= vz p < 2048.

(** Area corners are far from the limits of 32-bit integers (accepted areas and
    shifted areas are within 93000). *)
Definition area_within (k : Z) (a : area) : Prop := within k (amin a) /\ within k (amax a).

(** In-block position of a node index, and back. *)
Definition idx_pos (i : Z) : vec3 := V3 (i mod 16) (i / 16 mod 16) (i / 256).
Definition pos_idx (p : vec3) : Z := vx p + 16 * vy p + 256 * vz p.

(** Lexicographic order by z, then y, then x. *)
Definition zyx_lt (p q : vec3) : Prop :=
  vz p < vz q \/ (vz p = vz q /\ (vy p < vy q \/ (vy p = vy q /\ vx p < vx q))).

(** Component-wise sum and difference, and the absolute position of a node. *)
Definition plus (p q : vec3) : vec3 := V3 (vx p + vx q) (vy p + vy q) (vz p + vz q).
Definition minus (p q : vec3) : vec3 := V3 (vx p - vx q) (vy p - vy q) (vz p - vz q).
Definition block_corner (bp : vec3) : vec3 := V3 (16 * vx bp) (16 * vy bp) (16 * vz bp).
Definition abs_pos (bp : vec3) (i : Z) : vec3 := plus (block_corner bp) (idx_pos i).
