(** What is left after deleteobjects, seen from the objects *)
From Verif Require Import SpecGone GoneProofs Toy ToyRun CmdFacts.
From Verif Require Import Spec.

(** ** C62 *)

(** If every object is stored in the block in which it is, exactly the objects that are
    not wanted remain, on the whole map.  What is missing: objects that are stored in
    another block.  Without an area nothing is missing. *)
Theorem C62_objects_gone_partial : forall E W g main input pos, setting E W g main pos ->
  acmd g = CDeleteObjects ->
  (is_Some (aarea g) -> all_objects E main (fun bp o => in_reach o /\ home bp o)) ->
  exists main' logs, run_ok E g W main input main' logs /\ objects_gone E g main main'.
Proof. exact GoneProofs.objects_gone_run. Qed.
Print Assumptions C62_objects_gone_partial.

(** The full statement is false: an object in the area, but stored in a block that
    the area does not touch, stays. *)
Theorem C62_objects_gone_refuted : exists E W g main input pos, setting E W g main pos /\
  acmd g = CDeleteObjects /\ all_objects E main (fun _ o => in_reach o) /\
  exists main' logs, run_ok E g W main input main' logs /\ ~ objects_gone E g main main'.
Proof. exact GoneProofs.stray_stays. Qed.
Print Assumptions C62_objects_gone_refuted.

Definition ex_objects : list static_object :=
  [toy_entity (bstr "mobs:rat") (bstr "") (V3 10000 0 0); toy_entity (bstr "mobs:rat") (bstr "") (V3 30000 0 (-5000));
   toy_entity (bstr "mobs:cat") (bstr "") (V3 10000 0 0); toy_entity (bstr "mobs:rat") (bstr "") (V3 154999 0 0)].
Definition ex_block : block := mk_block 29 0 (list_to_map [(0, bstr "air")]) ∅ ex_objects [].
Definition ex_main : mapdata := {[ key_a := ser ex_block ]}.
Definition ex_gone : args :=
  with_objs (Some (bstr "mobs:rat")) None (with_area (Area (V3 0 0 0) (V3 4 15 15)) false (toy_args CDeleteObjects)).
Example C62_example_hyps : setting toy_full toy_world ex_gone ex_main (fun _ => V3 0 0 0) /\
  all_objects toy_full ex_main (fun bp o => in_reach o /\ home bp o).
Proof.
  split; [apply key_a_setting; [toy_supplied|by vm_compute]|]. intros k bp x b Hk Hx Hd.
  assert (k = key_a) as -> by (unfold ex_main in Hx; by apply lookup_singleton_Some in Hx as [<- _]).
  assert (bp = V3 0 0 0) as -> by (destruct bp, Hk as [Hr Hk]; unfold key_range in Hr; cbn in *; unfold key_a in Hk; f_equal; lia).
  refine (one_block _ ex_block (fun b => Forall (fun o => in_reach o /\ home (V3 0 0 0) o) (objects b)) _ _ key_a x b Hx Hd).
  - apply (bool_decide_unpack _). by vm_compute.
  - repeat constructor.
    + exists (V3 1 0 0). unfold nearest, node_in_block; cbn; lia.
    + exists (V3 3 0 0). unfold nearest, node_in_block; cbn; lia.
    + exists (V3 1 0 0). unfold nearest, node_in_block; cbn; lia.
    + exists (V3 15 0 0). unfold nearest, node_in_block; cbn; lia.
Qed.
Example C62_example :
  sees (run_with toy_full toy_world ex_main ∅ ex_gone) [(LInfo, MObjects 2); (LInfo, MCommitting); (LInfo, MDone)]
    (fun m => block_is m key_a objects (drop 2 ex_objects)) = true.
Proof. by vm_compute. Qed.
