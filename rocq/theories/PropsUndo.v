(** Edits that undo or override others *)
From Verif Require Import Toy ToyRun CmdFacts CopyFacts.
From Verif Require UndoProofs FreeProofs DropProofs UndoFacts PairFacts AgainFacts.
From Verif Require Import SpecUndo Spec.

(** ** C80 *)

(** Replacing nodes and then replacing them back restores the contents exactly if no node
    in the area had the new name before; then both runs report the same number. *)
Theorem C80_undo : forall E W1 W2 g1 g2 a inv old new main input n,
  fair E W1 g1 input -> fair E W2 g2 input -> keys_ok main ->
  4095 <= n < 7280 -> blocks E main (healthy n) ->
  replaces g1 a inv old new -> replaces g2 a inv new old ->
  exists m1 c1 m2 c2, told E W1 g1 main input m1 (MReplaced c1) /\ told E W2 g2 m1 input m2 (MReplaced c2) /\
    (absent E main a inv new -> c1 = c2) /\ (same_contents E main m2 <-> absent E main a inv new).
Proof. exact UndoProofs.undo. Qed.
Print Assumptions C80_undo.

(** Chests become gold, and chests again. *)
Example C80_example_hyps : fair toy_full toy_world (UndoFacts.swap (bstr "default:chest") (bstr "mod:gold")) ∅ /\
  fair toy_full toy_world_rev (UndoFacts.swap (bstr "mod:gold") (bstr "default:chest")) ∅ /\ keys_ok main_end /\ 4095 <= 4095 < 7280 /\
  blocks toy_full main_end (healthy 4095) /\
  replaces (UndoFacts.swap (bstr "default:chest") (bstr "mod:gold")) None false (bstr "default:chest") (bstr "mod:gold") /\
  replaces (UndoFacts.swap (bstr "mod:gold") (bstr "default:chest")) None false (bstr "mod:gold") (bstr "default:chest") /\
  absent toy_full main_end None false (bstr "mod:gold").
Proof.
  split; [apply UndoFacts.swap_fair; [by vm_compute..|by left]|]. split; [apply UndoFacts.swap_fair; [by vm_compute..|by right]|].
  split; [exact AgainFacts.end_keys|]. split; [lia|]. split; [exact AgainFacts.end_healthy|]. split; [done|]. split; [done|].
  exact UndoFacts.gold_absent.
Qed.
Example C80_example :
  ran toy_world main_end ∅ (UndoFacts.swap (bstr "default:chest") (bstr "mod:gold")) ([(LInfo, MReplaced 2)] ++ closing 0) (fun m =>
    ran toy_world_rev m ∅ (UndoFacts.swap (bstr "mod:gold") (bstr "default:chest")) ([(LInfo, MReplaced 2)] ++ closing 0) (fun m2 =>
      block_is m2 key_a (fun b => node_name b <$> [0; 1; 2; 5]) (node_name block_a <$> [0; 1; 2; 5]))) = true.
Proof. by vm_compute. Qed.

(** ** C81 *)

(** Some edits leave nothing of an earlier one on the same nodes: the contents are the same
    as if the first had not been run. *)
Theorem C81_override : forall E W1 W2 W g1 g2 main input1 input2 n,
  fair E W1 g1 input1 -> fair E W2 g2 input2 -> fair E W g2 input2 ->
  keys_ok main -> 4095 <= n -> n + growth g1 <= 7280 -> blocks E main (healthy n) -> overrides g2 g1 ->
  exists m1 l1 m12 l12 m2 l2, run_ok E g1 W1 main input1 m1 l1 /\ run_ok E g2 W2 m1 input2 m12 l12 /\
    run_ok E g2 W main input2 m2 l2 /\ same_contents E m12 m2.
Proof. exact UndoProofs.override. Qed.
Print Assumptions C81_override.

(** Filling over what replacenodes did *)
Example C81_example_hyps : fair toy_full toy_world UndoFacts.covered ∅ /\ fair toy_full toy_world_rev UndoFacts.cover ∅ /\
  fair toy_full toy_world UndoFacts.cover ∅ /\ keys_ok main_end /\ 4095 <= 4095 /\ 4095 + growth UndoFacts.covered <= 7280 /\
  blocks toy_full main_end (healthy 4095) /\ overrides UndoFacts.cover UndoFacts.covered.
Proof.
  split; [apply UndoFacts.covered_fair; by left|]. split; [apply UndoFacts.cover_fair; by right|].
  split; [apply UndoFacts.cover_fair; by left|]. split; [exact AgainFacts.end_keys|]. split; [lia|]. split; [by vm_compute|].
  split; [exact AgainFacts.end_healthy|]. split; [|split; [by left|done]]. intros [x y z]. unfold selected, inside; cbn. lia.
Qed.
Example C81_example :
  ran toy_world main_end ∅ UndoFacts.covered (warnings UndoFacts.covered ++ [(LInfo, MReplaced 1)] ++ closing 0) (fun m =>
    ran toy_world_rev m ∅ UndoFacts.cover (warnings UndoFacts.cover ++ [(LInfo, MFilled 3)] ++ closing 0) (fun m2 =>
      block_is m2 key_a (fun b => node_name b <$> [0; 1; 2; 3; 5])
        [Some (bstr "default:dirt"); Some (bstr "default:dirt"); Some (bstr "default:dirt"); Some (bstr "air"); Some (bstr "default:chest")])) = true.
Proof. by vm_compute. Qed.

(** ** C82 *)

(** Replacing A by B and then B by C gives the same as replacing B by C and then A by C. *)
Theorem C82_in_a_row : forall E W1 W2 W3 W4 ga gb gc a inv A B C main input n,
  fair E W1 ga input -> fair E W2 gb input -> fair E W3 gb input -> fair E W4 gc input ->
  keys_ok main -> 4095 <= n < 7280 -> blocks E main (healthy n) ->
  replaces ga a inv A B -> replaces gb a inv B C -> replaces gc a inv A C ->
  exists m1 l1 m12 l12 m2 l2 m21 l21,
    (run_ok E ga W1 main input m1 l1 /\ run_ok E gb W2 m1 input m12 l12) /\
    (run_ok E gb W3 main input m2 l2 /\ run_ok E gc W4 m2 input m21 l21) /\ same_contents E m12 m21.
Proof. exact UndoProofs.in_a_row. Qed.
Print Assumptions C82_in_a_row.

(** Chests become stone, and stone becomes gold: the counts differ, the nodes do not. *)
Example C82_example_hyps : let s := UndoFacts.swap in
  fair toy_full toy_world (s (bstr "default:chest") (bstr "default:stone")) ∅ /\ fair toy_full toy_world_rev (s (bstr "default:stone") (bstr "mod:gold")) ∅ /\
  fair toy_full toy_world (s (bstr "default:stone") (bstr "mod:gold")) ∅ /\ fair toy_full toy_world_rev (s (bstr "default:chest") (bstr "mod:gold")) ∅ /\
  keys_ok main_end /\ 4095 <= 4095 < 7280 /\ blocks toy_full main_end (healthy 4095) /\
  replaces (s (bstr "default:chest") (bstr "default:stone")) None false (bstr "default:chest") (bstr "default:stone") /\
  replaces (s (bstr "default:stone") (bstr "mod:gold")) None false (bstr "default:stone") (bstr "mod:gold") /\
  replaces (s (bstr "default:chest") (bstr "mod:gold")) None false (bstr "default:chest") (bstr "mod:gold").
Proof.
  split; [apply UndoFacts.swap_fair; [by vm_compute..|by left]|]. split; [apply UndoFacts.swap_fair; [by vm_compute..|by right]|].
  split; [apply UndoFacts.swap_fair; [by vm_compute..|by left]|]. split; [apply UndoFacts.swap_fair; [by vm_compute..|by right]|].
  split; [exact AgainFacts.end_keys|]. split; [lia|]. split; [exact AgainFacts.end_healthy|]. done.
Qed.
Example C82_example : let s := UndoFacts.swap in
  let check m := block_is m key_a (fun b => node_name b <$> [0; 1; 2; 5]) [Some (bstr "mod:gold"); Some (bstr "mod:gold"); Some (bstr "air"); Some (bstr "mod:gold")] in
  ran toy_world main_end ∅ (s (bstr "default:chest") (bstr "default:stone")) ([(LInfo, MReplaced 2)] ++ closing 0) (fun m =>
    ran toy_world_rev m ∅ (s (bstr "default:stone") (bstr "mod:gold")) ([(LInfo, MReplaced 3)] ++ closing 0) check) &&
  ran toy_world main_end ∅ (s (bstr "default:stone") (bstr "mod:gold")) ([(LInfo, MReplaced 1)] ++ closing 0) (fun m =>
    ran toy_world_rev m ∅ (s (bstr "default:chest") (bstr "mod:gold")) ([(LInfo, MReplaced 2)] ++ closing 0) check) = true.
Proof. by vm_compute. Qed.

(** ** C83 *)

(** Edits that change different things can be exchanged, whatever their areas, if neither
    changes names for which the other looks. *)
Theorem C83_independent : forall E W1 W2 W3 W4 g1 g2 main input1 input2 n,
  fair E W1 g1 input1 -> fair E W2 g2 input2 -> fair E W3 g2 input2 -> fair E W4 g1 input1 ->
  keys_ok main -> 4095 <= n <= 7280 -> blocks E main (healthy n) ->
  in_place (acmd g1) = true -> in_place (acmd g2) = true -> independent g1 g2 ->
  exists m1 l1 m12 l12 m2 l2 m21 l21,
    (run_ok E g1 W1 main input1 m1 l1 /\ run_ok E g2 W2 m1 input2 m12 l12) /\
    (run_ok E g2 W3 main input2 m2 l2 /\ run_ok E g1 W4 m2 input1 m21 l21) /\ same_contents E m12 m21.
Proof. exact FreeProofs.free. Qed.
Print Assumptions C83_independent.

(** Chests become gold, and stone gets another param2. *)
Example C83_example_hyps : let g := UndoFacts.swap (bstr "default:chest") (bstr "mod:gold") in
  fair toy_full toy_world g ∅ /\ fair toy_full toy_world_rev UndoFacts.paint ∅ /\ fair toy_full toy_world UndoFacts.paint ∅ /\
  fair toy_full toy_world_rev g ∅ /\ keys_ok main_end /\ 4095 <= 4095 <= 7280 /\ blocks toy_full main_end (healthy 4095) /\
  in_place (acmd g) = true /\ in_place (acmd UndoFacts.paint) = true /\ independent g UndoFacts.paint.
Proof.
  split; [apply UndoFacts.swap_fair; [by vm_compute..|by left]|]. split; [apply UndoFacts.paint_fair; by right|].
  split; [apply UndoFacts.paint_fair; by left|]. split; [apply UndoFacts.swap_fair; [by vm_compute..|by right]|].
  split; [exact AgainFacts.end_keys|]. split; [lia|]. split; [exact AgainFacts.end_healthy|]. split; [done|]. split; [done|].
  split; [right; by repeat constructor|done].
Qed.
Example C83_example : let g := UndoFacts.swap (bstr "default:chest") (bstr "mod:gold") in
  let lg := [(LInfo, MReplaced 2)] ++ closing 0 in
  let lp := warnings UndoFacts.paint ++ [(LInfo, MParam2 1)] ++ closing 0 in
  let check m := block_is m key_a (fun b => (fun i => (node_name b i, node_param2 b i)) <$> [0; 1; 2])
    [(Some (bstr "mod:gold"), Some x03); (Some (bstr "default:stone"), Some x07); (Some (bstr "air"), Some x03)] in
  ran toy_world main_end ∅ g lg (fun m => ran toy_world_rev m ∅ UndoFacts.paint lp check) &&
  ran toy_world main_end ∅ UndoFacts.paint lp (fun m => ran toy_world_rev m ∅ g lg check) = true.
Proof. by vm_compute. Qed.

(** ** C84 *)

(** What a command reports is the same after another that does not change what it counts.
    "Partial": without [storable] it is false of deletemeta, see below. *)
Theorem C84_told_partial : forall E W1 W2 W g1 g2 main input1 input2 n,
  fair E W1 g1 input1 -> fair E W2 g2 input2 -> fair E W g2 input2 ->
  keys_ok main -> 4095 <= n <= 7280 -> blocks E main (healthy n) ->
  in_place (acmd g1) = true -> in_place (acmd g2) = true -> unrelated g1 g2 ->
  (acmd g2 = CDeleteMeta -> blocks E main storable) ->
  exists m1 l1 m12 m2 c, run_ok E g1 W1 main input1 m1 l1 /\
    told E W2 g2 m1 input2 m12 c /\ told E W g2 main input2 m2 c.
Proof. exact FreeProofs.told_again. Qed.
Print Assumptions C84_told_partial.

(** Any edit of a block loses metadata without variables and items, which deletemeta
    counts. *)
Theorem C84_blank_refuted : exists E W g1 g2 main input n,
  fair E W g1 input /\ fair E W g2 input /\ keys_ok main /\ 4095 <= n <= 7280 /\ blocks E main (healthy n) /\
  in_place (acmd g1) = true /\ in_place (acmd g2) = true /\ unrelated g1 g2 /\ acmd g2 = CDeleteMeta /\
  exists m1 l1 m12 m2 c c', run_ok E g1 W main input m1 l1 /\
    told E W g2 m1 input m12 c /\ told E W g2 main input m2 c' /\ c <> c'.
Proof. exact UndoFacts.blank_told. Qed.
Print Assumptions C84_blank_refuted.

(** As for C83; the runs there report the same numbers in either order. *)
Example C84_example_hyps : unrelated (UndoFacts.swap (bstr "default:chest") (bstr "mod:gold")) UndoFacts.paint /\
  unrelated UndoFacts.paint (UndoFacts.swap (bstr "default:chest") (bstr "mod:gold")).
Proof. split; [split; [right; by repeat constructor|done]|by split]. Qed.

(** ** C85 *)

(** deleteblocks can be exchanged with any edit; and if it deletes all blocks with nodes to
    which the edit applies, nothing of the edit is left. *)
Theorem C85_deleted_blocks : forall E W1 W2 W3 W4 g gd main input inputd n,
  fair E W1 g input -> fair E W2 gd inputd -> fair E W3 gd inputd -> fair E W4 g input ->
  keys_ok main -> 4095 <= n <= 7280 -> blocks E main (healthy n) ->
  in_place (acmd g) = true -> acmd gd = CDeleteBlocks ->
  exists m1 l1 m12 m2 m21 l21 l,
    (run_ok E g W1 main input m1 l1 /\ run_ok E gd W2 m1 inputd m12 l) /\
    (run_ok E gd W3 main inputd m2 l /\ run_ok E g W4 m2 input m21 l21) /\
    same_contents E m12 m21 /\
    (covers gd g -> acmd g <> CDeleteObjects -> same_contents E m12 m2 /\ same_contents E m21 m2).
Proof. exact DropProofs.drop. Qed.
Print Assumptions C85_deleted_blocks.

(** A fill in two blocks, of which one is deleted *)
Example C85_example_hyps : fair toy_full toy_world UndoFacts.across ∅ /\ fair toy_full toy_world_rev UndoFacts.drop_there ∅ /\
  fair toy_full toy_world UndoFacts.drop_there ∅ /\ fair toy_full toy_world_rev UndoFacts.across ∅ /\
  keys_ok PairFacts.main_way /\ 4095 <= 4095 <= 7280 /\ blocks toy_full PairFacts.main_way (healthy 4095) /\
  in_place (acmd UndoFacts.across) = true /\ acmd UndoFacts.drop_there = CDeleteBlocks /\
  covers UndoFacts.drop_here UndoFacts.cover.
Proof.
  split; [apply UndoFacts.across_fair; by left|]. split; [apply UndoFacts.drop_fair; [by left|by right]|].
  split; [apply UndoFacts.drop_fair; by left|]. split; [apply UndoFacts.across_fair; by right|].
  split; [exact UndoFacts.way_keys|]. split; [lia|]. split; [exact UndoFacts.way_healthy|]. split; [done|]. split; [done|].
  exact UndoFacts.here_covers.
Qed.
Example C85_example :
  let ld := warnings UndoFacts.drop_there ++ closing 0 in
  let lf c := warnings UndoFacts.across ++ [(LInfo, MFilled c)] ++ closing 0 in
  let check m := bool_decide (m !! 1 = None) &&
    block_is m key_a (fun b => node_name b <$> [13; 14; 15]) [Some (bstr "default:chest"); Some (bstr "default:dirt"); Some (bstr "default:dirt")] in
  ran toy_world PairFacts.main_way ∅ UndoFacts.across (lf 4) (fun m => ran toy_world_rev m ∅ UndoFacts.drop_there ld check) &&
  ran toy_world PairFacts.main_way ∅ UndoFacts.drop_there ld (fun m => ran toy_world_rev m ∅ UndoFacts.across (lf 2) check) = true.
Proof. by vm_compute. Qed.
