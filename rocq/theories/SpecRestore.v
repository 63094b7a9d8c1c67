(** Specification of restoring from a backup with overlay. *)
From Verif Require Export SpecLocal.
From Verif Require Import Spec.

(** Runs that add no blocks. *)
Definition restorable (g : args) : Prop := acmd g = COverlay -> default (V3 0 0 0) (offset g) <> V3 0 0 0.

(** The node at [p] is one that the run may change. *)
Definition affects (g : args) (p : vec3) : Prop :=
  match acmd g with
  | CClone | COverlay => selected (aarea g) false (minus p (default (V3 0 0 0) (offset g)))
  | CVacuum => False
  | _ => selected (aarea g) (invert g) p
  end.

(** The run [g2] selects all that the run [g] may change.  Timers and objects belong to
    their block, so it must select all nodes of each block with nodes selected by [g]. *)
Definition covers (g g2 : args) : Prop :=
  match acmd g with
  | CDeleteTimers | CDeleteObjects =>
    forall bp, visit (aarea g) (invert g) true bp -> whole (aarea g2) (invert g2) bp
  | _ => forall p, affects g p -> selected (aarea g2) (invert g2) p
  end.

(** A run on the map [main], then an overlay without offset of a backup made before. *)
Definition restored (E : ext) (W1 W2 : world) (g g2 : args) (main input m1 m2 : mapdata) : Prop :=
  exists l1 l2, run_ok E g W1 main input m1 l1 /\ run_ok E g2 W2 m1 main m2 l2.

(** All blocks of the map say that they are generated. *)
Definition all_generated (E : ext) (m : mapdata) : Prop := forall k x, m !! k = Some x -> claims_generated E x.
