(** Specification of laws about clone and overlay. *)
From Verif Require Export SpecRestore SpecCong.
From Verif Require Import Spec.

(** Runs that copy nodes into blocks of the map: clone, and overlay with an offset. *)
Definition copying (c : args) : Prop :=
  acmd c = CClone \/ acmd c = COverlay /\ default (V3 0 0 0) (offset c) <> V3 0 0 0.

(** The run [g] applies to no node that [c] copies (if from the same map) or overwrites. *)
Definition apart_from (g c : args) : Prop :=
  forall p, selected (aarea g) (invert g) p ->
    ~ selected (aarea c) false (minus p (default (V3 0 0 0) (offset c))) /\
    (acmd c = CClone -> ~ selected (aarea c) false p).

(** Two runs, one after the other. *)
Definition after (E : ext) (W1 W2 : world) (g1 g2 : args) (main input1 input2 m12 : mapdata) : Prop :=
  exists m1 l1 l12, run_ok E g1 W1 main input1 m1 l1 /\ run_ok E g2 W2 m1 input2 m12 l12.

(** The overlay [c] (without offset) overwrites no node that [g] applies to. *)
Definition apart_overlay (g c : args) : Prop :=
  acmd c = COverlay /\ default (V3 0 0 0) (offset c) = V3 0 0 0 /\ disjoint_areas g c /\
  acmd g <> CDeleteTimers /\ acmd g <> CDeleteObjects.
