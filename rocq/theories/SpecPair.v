(** Specification of laws about several copies. *)
From Verif Require Export SpecLaws.
From Verif Require Import Spec.

(** The run copies nodes of the map itself, and among them the one at [p]. *)
Definition reads_from (c : args) (p : vec3) : Prop := acmd c = CClone /\ selected (aarea c) false p.

(** Neither of two copies may change what the other copies or may change. *)
Definition separate (c1 c2 : args) : Prop :=
  forall p, (affects c1 p -> ~ affects c2 p /\ ~ reads_from c2 p) /\ (affects c2 p -> ~ reads_from c1 p).

(** Overlays without offset on areas, inside which no node is in both. *)
Definition separate_overlays (c1 c2 : args) : Prop :=
  acmd c1 = COverlay /\ acmd c2 = COverlay /\
  default (V3 0 0 0) (offset c1) = V3 0 0 0 /\ default (V3 0 0 0) (offset c2) = V3 0 0 0 /\
  invert c1 = false /\ invert c2 = false /\ disjoint_areas c1 c2.

(** The map that nodes are copied from. *)
Definition copied_map (c : args) (main input : mapdata) : mapdata :=
  match acmd c with CClone => main | _ => input end.

(** Every node that [g] may change is overwritten by [c], and is none that [c] copies. *)
Definition overwritten (E : ext) (g c : args) (main input : mapdata) : Prop :=
  forall p, affects g p -> ~ reads_from c p /\ affects c p /\
    exists sb j, found E (copied_map c main input) (minus p (default (V3 0 0 0) (offset c))) sb j.

(** Runs which change nothing but nodes and their metadata. *)
Definition only_nodes (g : args) : Prop :=
  copying g \/ in_place (acmd g) = true /\ acmd g <> CDeleteTimers /\ acmd g <> CDeleteObjects.

(** The run [c] copies at once to where a clone [c2] copies what [c1] has copied. *)
Definition in_one_go (c1 c2 c : args) : Prop :=
  exists o1 o2, offset c1 = Some o1 /\ offset c2 = Some o2 /\ offset c = Some (plus o1 o2) /\
    acmd c = acmd c1 /\ aarea c = aarea c1 /\
    forall p, selected (aarea c1) false p -> selected (aarea c2) false (plus p o1).
