(** Sequences of runs on maps with the same contents; deleting blocks before or after a copy *)
From Verif Require Export SpecCong SpecAgain.
From Verif Require Import Spec.

(** Corresponding runs, like [same_job], with maps that need not be [storable]. *)
Definition loose_job (E1 E2 : ext) (n : Z) (r1 r2 : world * args * mapdata) : Prop :=
  let '(W1, g1, input1) := r1 in let '(W2, g2, input2) := r2 in
  g1 = g2 /\ fair E1 W1 g1 input1 /\ fair E2 W2 g2 input2 /\
  (acmd g1 = COverlay -> blocks E1 input1 (healthy n) /\ blocks E1 input1 no_early_private /\
     blocks E2 input2 (healthy n) /\ blocks E2 input2 no_early_private /\ same_contents E1 input1 input2).
(** A run that copies nodes from one block to another. *)
Definition copy_job (r : world * args * mapdata) : Prop :=
  acmd r.1.2 = CClone \/ acmd r.1.2 = COverlay.

(** The deleteblocks run [gd] deletes no block with nodes that the clone [c] copies. *)
Definition spares_source (gd c : args) : Prop := acmd c = CClone ->
  forall bp q, visit (aarea gd) (invert gd) false bp -> node_in_block bp q -> ~ selected (aarea c) false q.
(** The deleteblocks run [gd] deletes no block with nodes to which [c] applies. *)
Definition spares_place (gd c : args) : Prop := forall bp q,
  visit (aarea gd) (invert gd) false bp -> node_in_block bp q -> ~ selected (aarea c) (invert c) q.
