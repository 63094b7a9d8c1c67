(** Specification vocabulary for node contents: which node is where. *)
From Verif Require Export SpecBlock.
From Verif Require Import Spec.

(** Name of the node at index [i]: the name registered for its ID. *)
Definition node_name (b : block) (i : Z) : option bytes :=
  nodes (ndata b) !! Z.to_nat i ≫= fun id => nimap b !! id.
Definition node_param1 (b : block) (i : Z) : option byte := param1 (ndata b) !! Z.to_nat i.
Definition node_param2 (b : block) (i : Z) : option byte := param2 (ndata b) !! Z.to_nat i.

(** The three arrays have one entry per node. *)
Definition node_lens (b : block) : Prop :=
  Z.of_nat (length (nodes (ndata b))) = 4096 /\ Z.of_nat (length (param1 (ndata b))) = 4096 /\
  Z.of_nat (length (param2 (ndata b))) = 4096.

(** All node IDs of the block are named. *)
Definition named (b : block) : Prop := forall id, id ∈ nodes (ndata b) -> is_Some (nimap b !! id).

(** All IDs are at most [k]. *)
Definition ids_upto (k : Z) (m : nimap_t) : Prop := map_Forall (fun id _ => 0 <= id <= k) m.

(** The block with other nodes, params and names, and the same version, flags,
    lighting, metadata, objects, timestamp and timers. *)
Definition with_nodes (b : block) (nd : node_data) (nm : nimap_t) : block :=
  Block (version b) (flags b) (lighting b) (content_width b) (params_width b) nd
    (metadata b) (objects b) (timestamp b) nm (timers b).

(** A name table without gaps, duplicates and unused IDs. *)
Definition tidy (b : block) : Prop :=
  (forall id, is_Some (nimap b !! id) <-> 0 <= id < Z.of_nat (size (nimap b))) /\
  (forall id, is_Some (nimap b !! id) -> id ∈ nodes (ndata b)) /\
  (forall i j n, nimap b !! i = Some n -> nimap b !! j = Some n -> i = j).

(** A box inside the 16x16x16 cube. *)
Definition box_ok (a : area) : Prop := nonempty a /\ forall p, inside a p ->
  0 <= vx p < 16 /\ 0 <= vy p < 16 /\ 0 <= vz p < 16.
(** Boxes of the same size. *)
Definition same_size (a b : area) : Prop := minus (amax a) (amin a) = minus (amax b) (amin b).
(** Index of the position in box [sa] that corresponds to position [p] of [da]. *)
Definition matching (sa da : area) (p : vec3) : Z :=
  pos_idx (plus (amin sa) (minus p (amin da))).
