(** Deleting blocks before or after a copy *)
From Verif Require Import Toy ToyRun CmdFacts CopyFacts.
From Verif Require CutProofs CutFacts UndoFacts PairFacts LawFacts AgainFacts RestoreFacts.
From Verif Require Import SpecSeq SpecLaws Spec.

(** ** C85 *)

(** deleteblocks can be exchanged with clone and with overlay with an offset, unless it
    deletes what is cloned. *)
Theorem C85_copies : forall E W1 W2 W3 W4 c gd main input inputd n,
  fair E W1 c input -> fair E W2 gd inputd -> fair E W3 gd inputd -> fair E W4 c input ->
  keys_ok main -> 4095 <= n <= 7280 -> blocks E main (healthy n) ->
  copying c -> (acmd c = COverlay -> blocks E input (healthy n)) -> acmd gd = CDeleteBlocks -> spares_source gd c ->
  exists m12 m21, after E W1 W2 c gd main input inputd m12 /\ after E W3 W4 gd c main inputd input m21 /\
    same_contents E m12 m21.
Proof. exact CutProofs.cut. Qed.
Print Assumptions C85_copies.

(** The condition is needed. *)
Theorem C85_source_needed : exists E W c gd main input n,
  fair E W c input /\ fair E W gd input /\ keys_ok main /\ 4095 <= n <= 7280 /\ blocks E main (healthy n) /\
  acmd c = CClone /\ acmd gd = CDeleteBlocks /\
  exists m12 m21, after E W W c gd main input input m12 /\ after E W W gd c main input input m21 /\ ~ same_contents E m12 m21.
Proof. exact CutFacts.source_lost. Qed.
Print Assumptions C85_source_needed.

(** A clone into two blocks, of which one is deleted *)
Example C85_copies_hyps : fair toy_full toy_world CutFacts.over_border ∅ /\ fair toy_full toy_world_rev UndoFacts.drop_there ∅ /\
  fair toy_full toy_world UndoFacts.drop_there ∅ /\ fair toy_full toy_world_rev CutFacts.over_border ∅ /\
  keys_ok PairFacts.main_way /\ 4095 <= 4095 <= 7280 /\ blocks toy_full PairFacts.main_way (healthy 4095) /\
  copying CutFacts.over_border /\ acmd UndoFacts.drop_there = CDeleteBlocks /\
  spares_source UndoFacts.drop_there CutFacts.over_border.
Proof.
  split; [apply CutFacts.border_fair; by left|]. split; [apply UndoFacts.drop_fair; [by left|by right]|].
  split; [apply UndoFacts.drop_fair; by left|]. split; [apply CutFacts.border_fair; by right|].
  split; [exact UndoFacts.way_keys|]. split; [lia|]. split; [exact UndoFacts.way_healthy|]. split; [by left|]. split; [done|].
  exact CutFacts.border_spared.
Qed.
(** The chest at 0 with its metadata lands at 14. *)
Example C85_copies_example :
  let ld := warnings UndoFacts.drop_there ++ closing 0 in
  let lc := warnings CutFacts.over_border ++ closing 0 in
  let check m := bool_decide (m !! 1 = None) &&
    block_is m key_a (fun b => metadata (norm b) !! 14) (Some (LawFacts.secret true)) in
  ran toy_world PairFacts.main_way ∅ CutFacts.over_border lc (fun m => ran toy_world_rev m ∅ UndoFacts.drop_there ld check) &&
  ran toy_world PairFacts.main_way ∅ UndoFacts.drop_there ld (fun m => ran toy_world_rev m ∅ CutFacts.over_border lc check) = true.
Proof. by vm_compute. Qed.

(** The same for overlay without offset, if it has nothing to do in the deleted blocks. *)
Theorem C85_overlay : forall E W1 W2 W3 W4 c gd main input inputd n,
  fair E W1 c input -> fair E W2 gd inputd -> fair E W3 gd inputd -> fair E W4 c input ->
  keys_ok main -> 4095 <= n <= 7280 -> blocks E main (healthy n) ->
  acmd c = COverlay -> default (V3 0 0 0) (offset c) = V3 0 0 0 -> blocks E input (healthy n) ->
  acmd gd = CDeleteBlocks -> spares_place gd c ->
  exists m12 m21, after E W1 W2 c gd main input inputd m12 /\ after E W3 W4 gd c main inputd input m21 /\
    same_contents E m12 m21.
Proof. exact CutProofs.cut_overlay. Qed.
Print Assumptions C85_overlay.

Definition ex_back : args := RestoreFacts.back (Some (Area (V3 1 0 0) (V3 2 0 0))).
Example C85_overlay_hyps : fair toy_full toy_world ex_back main_end /\ fair toy_full toy_world UndoFacts.drop_there ∅ /\
  keys_ok PairFacts.main_way /\ blocks toy_full PairFacts.main_way (healthy 4095) /\ blocks toy_full main_end (healthy 4095) /\
  acmd ex_back = COverlay /\ default (V3 0 0 0) (offset ex_back) = V3 0 0 0 /\ spares_place UndoFacts.drop_there ex_back.
Proof.
  split; [apply LawFacts.plain_fair; [toy_supplied|by vm_compute|by apply LawFacts.fit_none|done|done|done|apply AgainFacts.end_keys|by left]|].
  split; [apply UndoFacts.drop_fair; by left|]. split; [exact UndoFacts.way_keys|]. split; [exact UndoFacts.way_healthy|].
  split; [apply AgainFacts.end_healthy|]. split; [done|]. split; [done|].
  intros bp [qx qy qz] Hv Hq. specialize (Hv _ Hq). unfold selected, inside in *. cbn in *. lia.
Qed.
Example C85_overlay_example :
  let ld := warnings UndoFacts.drop_there ++ closing 0 in
  let lc := warnings ex_back ++ closing 0 in
  let check m := bool_decide (m !! 1 = None) &&
    block_is m key_a (fun b => node_name b <$> [0; 1]) [Some (bstr "default:chest"); node_name block_a 1] in
  ran toy_world PairFacts.main_way main_end ex_back lc (fun m => ran toy_world m ∅ UndoFacts.drop_there ld check) &&
  ran toy_world PairFacts.main_way ∅ UndoFacts.drop_there ld (fun m => ran toy_world m main_end ex_back lc check) = true.
Proof. by vm_compute. Qed.
