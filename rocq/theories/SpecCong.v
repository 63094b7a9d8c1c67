(** Specification of runs on maps with the same contents. *)
From Verif Require Export SpecKeep SpecOrder.
From Verif Require Import Spec.

(** Storing the block loses nothing: there are no empty metadata entries, and no
    variables marked private in versions that cannot express it. *)
Definition storable (b : block) : Prop := norm b = b.

(** Like [session], with the messages of each run. *)
Fixpoint diary (E : ext) (runs : list (world * args * mapdata)) (main main' : mapdata)
    (ls : list (list (log_type * msg))) : Prop :=
  match runs, ls with
  | [], [] => main' = main
  | (W, g, input) :: rest, l :: ls =>
    exists m, run_ok E g W main input m l /\ diary E rest m main' ls
  | _, _ => False
  end.

(** Corresponding runs: the same arguments, and input maps with the same contents,
    without contradictions and with IDs up to [n]. *)
Definition same_job (E1 E2 : ext) (n : Z) (r1 r2 : world * args * mapdata) : Prop :=
  let '(W1, g1, input1) := r1 in let '(W2, g2, input2) := r2 in
  g1 = g2 /\ fair E1 W1 g1 input1 /\ fair E2 W2 g2 input2 /\
  (acmd g1 = COverlay -> blocks E1 input1 (healthy n) /\ blocks E1 input1 storable /\
     blocks E2 input2 (healthy n) /\ blocks E2 input2 storable /\ same_contents E1 input1 input2).
