(** Restoring from a backup, and copies onto the same place *)
From Verif Require Import Toy ToyRun CmdFacts CopyFacts.
From Verif Require RestoreProofs RestoreFacts AgainFacts.
From Verif Require Import SpecRestore Spec.

(** ** C67 *)

(** After any command, an overlay of the map from before, on an area with all nodes that
    the command may have changed, gives the map from before.  "Partial": for deleteobjects
    and deletetimers the area must consist of whole blocks; overlays without offset and
    maps with blocks that are not generated are missing.  See the refutations below. *)
Theorem C67_restore_partial : forall E W1 W2 g g2 main input n, fair E W1 g input -> fair E W2 g2 main ->
  acmd g2 = COverlay -> default (V3 0 0 0) (offset g2) = V3 0 0 0 -> 4095 <= n <= 7280 ->
  blocks E main (healthy n) -> (acmd g = COverlay -> blocks E input (healthy n)) ->
  all_generated E main -> restorable g -> covers g g2 ->
  exists m1 m2, restored E W1 W2 g g2 main input m1 m2 /\ same_contents E main m2.
Proof. exact RestoreProofs.restore. Qed.
Print Assumptions C67_restore_partial.

(** An overlay of all blocks restores all blocks of the backup exactly, whatever has
    become of the map; blocks that the backup does not have stay. *)
Theorem C67_whole : forall E W g main m1, fair E W g main -> acmd g = COverlay ->
  default (V3 0 0 0) (offset g) = V3 0 0 0 -> aarea g = None -> keys_ok m1 -> roomy E g m1 main ->
  all_generated E main ->
  exists m2 l, run_ok E g W m1 main m2 l /\
    forall k, m2 !! k = match main !! k with Some x => Some x | None => m1 !! k end.
Proof. exact RestoreProofs.restore_all. Qed.
Print Assumptions C67_whole.

Theorem C67_timers_refuted : exists E W g g2 main input n, fair E W g input /\ fair E W g2 main /\
  acmd g2 = COverlay /\ default (V3 0 0 0) (offset g2) = V3 0 0 0 /\ 4095 <= n <= 7280 /\
  blocks E main (healthy n) /\ all_generated E main /\ acmd g = CDeleteTimers /\
  (forall p, affects g p -> selected (aarea g2) (invert g2) p) /\
  exists m1 m2, restored E W W g g2 main input m1 m2 /\ ~ same_contents E main m2.
Proof. exact RestoreFacts.lost_timer. Qed.
Print Assumptions C67_timers_refuted.

Theorem C67_objects_refuted : exists E W g g2 main input n, fair E W g input /\ fair E W g2 main /\
  acmd g2 = COverlay /\ default (V3 0 0 0) (offset g2) = V3 0 0 0 /\ 4095 <= n <= 7280 /\
  blocks E main (healthy n) /\ all_generated E main /\ acmd g = CDeleteObjects /\
  (forall p, affects g p -> selected (aarea g2) (invert g2) p) /\
  exists m1 m2, restored E W W g g2 main input m1 m2 /\ ~ same_contents E main m2.
Proof. exact RestoreFacts.lost_object. Qed.
Print Assumptions C67_objects_refuted.

(** Blocks that are not generated *)
Theorem C67_generated_refuted : exists E W g g2 main input n, fair E W g input /\ fair E W g2 main /\
  acmd g2 = COverlay /\ default (V3 0 0 0) (offset g2) = V3 0 0 0 /\ 4095 <= n <= 7280 /\
  blocks E main (healthy n) /\ restorable g /\
  (forall p, affects g p -> selected (aarea g2) (invert g2) p) /\
  exists m1 m2, restored E W W g g2 main input m1 m2 /\ ~ same_contents E main m2.
Proof. exact RestoreFacts.lost_block. Qed.
Print Assumptions C67_generated_refuted.

(** Blocks added by an overlay without offset *)
Theorem C67_added_refuted : exists E W g g2 main input n, fair E W g input /\ fair E W g2 main /\
  acmd g2 = COverlay /\ default (V3 0 0 0) (offset g2) = V3 0 0 0 /\ 4095 <= n <= 7280 /\
  blocks E main (healthy n) /\ blocks E input (healthy n) /\ all_generated E main /\ acmd g = COverlay /\
  (forall p, affects g p -> selected (aarea g2) (invert g2) p) /\
  exists m1 m2, restored E W W g g2 main input m1 m2 /\ ~ same_contents E main m2.
Proof. exact RestoreFacts.added_block. Qed.
Print Assumptions C67_added_refuted.

(** A part of a block is filled with dirt; the chest and the stone come
    back from the backup. *)
Definition ex_fill : args :=
  with_area (Area (V3 0 0 0) (V3 3 0 0)) false (with_names None [] (Some (bstr "default:dirt")) (toy_args CFill)).
Definition ex_back : args :=
  with_input (Some (bstr "backup.sqlite")) (with_area (Area (V3 0 0 0) (V3 4 0 0)) false (toy_args COverlay)).
Definition ex_back_all : args := with_input (Some (bstr "backup.sqlite")) (toy_args COverlay).
Example C67_example_hyps : fair toy_full toy_world ex_fill ∅ /\ fair toy_full toy_world_rev ex_back main_end /\
  blocks toy_full main_end (healthy 4095) /\ all_generated toy_full main_end /\ restorable ex_fill /\
  covers ex_fill ex_back /\
  fair toy_full toy_world ex_back_all main_end /\ keys_ok main_end /\ roomy toy_full ex_back_all main_end main_end.
Proof.
  assert (forall g, aitem g = None -> new_item g = None -> tame g) as Ht by (intros g H1 H2 n [H|H]; congruence).
  split.
  { apply AgainFacts.toy_fair; [toy_supplied|by vm_compute| |by apply Ht|done|apply AgainFacts.keys_none|by left].
    split; [|done]. intros n [= <-]. by vm_compute. }
  split; [apply AgainFacts.toy_fair; [toy_supplied|by vm_compute|done|by apply Ht|done|apply AgainFacts.end_keys|by right]|].
  split; [exact AgainFacts.end_healthy|]. split; [exact RestoreFacts.end_generated|]. split; [done|].
  split; [intros [x y z]; unfold affects, selected, inside; cbn; lia|].
  split; [apply AgainFacts.toy_fair; [split; [done|by eexists]|by vm_compute|done|by apply Ht|done|apply AgainFacts.end_keys|by left]|].
  split; [exact AgainFacts.end_keys|].
  apply CopyProofs.roomy_7280; intros k x b Hx Hd; (apply (sound_mono 4095); [lia|]); by eapply AgainFacts.end_healthy.
Qed.
Definition ex_shows (b : block) : list (option bytes) * list bool :=
  (node_name b <$> [0; 1; 2; 5], (fun i => bool_decide (is_Some (metadata b !! i))) <$> [0; 5]).
Example C67_example :
  match run_with toy_full toy_world main_end ∅ ex_fill with
  | Some (m1, _) =>
      block_is m1 key_a ex_shows (Some <$> [bstr "default:dirt"; bstr "default:dirt"; bstr "default:dirt"; bstr "default:chest"], [true; true]) &&
      sees (run_with toy_full toy_world_rev m1 main_end ex_back) (warnings ex_back ++ closing 0) (fun m2 =>
        block_is m2 key_a ex_shows (Some <$> [bstr "default:chest"; bstr "default:stone"; bstr "air"; bstr "default:chest"], [true; true])) &&
      sees (run_with toy_full toy_world m1 main_end ex_back_all) (warnings ex_back_all ++ closing 0) (fun m2 =>
        raw_is m2 key_a (ser block_a))
  | None => false
  end = true.
Proof. vm_compute. reflexivity. Qed.

(** ** C68 *)

(** An overlay of the map onto itself *)
Theorem C68_overlay : forall E W g main n, fair E W g main -> acmd g = COverlay ->
  default (V3 0 0 0) (offset g) = V3 0 0 0 -> n <= 7280 -> blocks E main (sound n) ->
  exists m l, run_ok E g W main main m l /\ same_contents E main m.
Proof. exact RestoreProofs.overlay_self. Qed.
Print Assumptions C68_overlay.

(** A clone to where it comes from *)
Theorem C68_clone : forall E W g main input pos, setting E W g main pos -> acmd g = CClone ->
  offset g = Some (V3 0 0 0) -> roomy E g main main ->
  exists m l, run_ok E g W main input m l /\ same_contents E main m.
Proof. exact RestoreProofs.clone_self. Qed.
Print Assumptions C68_clone.

Definition ex_stay : args :=
  with_offset (Some (V3 0 0 0)) (with_area (Area (V3 0 0 0) (V3 3 0 0)) false (toy_args CClone)).
Example C68_example_hyps : fair toy_full toy_world_rev ex_back main_end /\
  blocks toy_full main_end (sound 4095) /\ setting toy_full toy_world ex_stay main_end from_block_key /\
  roomy toy_full ex_stay main_end main_end.
Proof.
  assert (forall g, aitem g = None -> new_item g = None -> tame g) as Ht by (intros g H1 H2 n [H|H]; congruence).
  split; [apply C67_example_hyps|]. split; [intros k x b Hx Hd; by eapply AgainFacts.end_healthy|].
  assert (fair toy_full toy_world ex_stay ∅) as HF.
  { apply AgainFacts.toy_fair; [toy_supplied|by vm_compute|done|by apply Ht|done|apply AgainFacts.keys_none|by left]. }
  split; [exact (KeepProofs.fair_setting _ _ _ _ _ HF AgainFacts.end_keys)|].
  apply CopyProofs.roomy_7280; intros k x b Hx Hd; (apply (sound_mono 4095); [lia|]); by eapply AgainFacts.end_healthy.
Qed.
Example C68_example :
  sees (run_with toy_full toy_world_rev main_end main_end ex_back) (warnings ex_back ++ closing 0) (fun m =>
    block_is m key_a ex_shows (ex_shows block_a)) &&
  sees (run_with toy_full toy_world main_end ∅ ex_stay) (warnings ex_stay ++ closing 0) (fun m =>
    block_is m key_a ex_shows (ex_shows block_a)) = true.
Proof. vm_compute. reflexivity. Qed.
