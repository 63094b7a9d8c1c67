(** Properties of clone and overlay *)
From Verif Require Import Toy ToyRun CmdFacts.
From Verif Require CopyRun OverlayRun CopyFacts IdFacts.
From Verif Require Import SpecCopy Spec.

(** ** C32 *)

(** "Partial": source blocks must not be farther from the origin than 1937 in a
    direction, see [found] and the refutation below; and there must be enough IDs, see
    [room] and [C32_ids_refuted]. *)
Theorem C32_clone_partial : forall E W g main input pos, setting E W g main pos ->
  forall a off, acmd g = CClone -> aarea g = Some a -> offset g = Some off ->
  roomy E g main main -> copies E W g main input main (Some a) off.
Proof. exact CopyRun.clone_run. Qed.
Print Assumptions C32_clone_partial.

(** Nodes from -31000 to -30993 are in blocks at -1938. *)
Theorem C32_clone_refuted : exists E W g main input pos a off, setting E W g main pos /\
  acmd g = CClone /\ aarea g = Some a /\ offset g = Some off /\ blocks E main (sound 7280) /\
  missed E W g main input main a off.
Proof. exact CopyFacts.clone_edge. Qed.
Print Assumptions C32_clone_refuted.

(** IDs up to 1 in a destination and 65534 in a source block: the numbers for the IDs of
    the source block wrap, and a name of the destination block is overwritten. *)
Theorem C32_ids_refuted : exists E W g main input pos, setting E W g main pos /\
  acmd g = CClone /\ blocks E main (sound 65534) /\ spoiled E W g main input.
Proof. exact IdFacts.clone_spoils. Qed.
Print Assumptions C32_ids_refuted.

(** Overlapping areas; the shifted area touches an unreadable block. *)
Definition ex_clone : args :=
  with_offset (Some (V3 1 0 0)) (with_area (Area (V3 0 0 0) (V3 17 0 0)) false (toy_args CClone)).
Definition names_at (b : block) : list (option bytes) := node_name b <$> [0; 1; 2; 3; 4; 5; 6].
Definition owner_at (i : Z) (b : block) : option bytes := metadata b !! i ≫= fun m => fst <$> vars m !! bstr "owner".
Example C32_example : setting toy_full toy_world ex_clone toy_main toy_pos /\
  roomy toy_full ex_clone toy_main toy_main /\
  sees (toy_run ex_clone) (closing 1) (fun m =>
    block_is m key_a (fun b => (names_at b, owner_at 1 b, owner_at 5 b, owner_at 6 b))
      ([Some (bstr "default:chest"); Some (bstr "default:chest"); Some (bstr "default:stone");
        Some (bstr "air"); Some (bstr "air"); Some (bstr "air"); Some (bstr "default:chest")],
       Some (bstr "singleplayer"), None, Some (bstr "sfan5")) &&
    raw_is m key_c junk_c) = true.
Proof.
  split; [apply toy_setting; [toy_supplied|by vm_compute]|].
  split; [apply CopyProofs.roomy_7280; apply toy_sound|]. by vm_compute.
Qed.

(** ** C33 *)

(** "Partial": there must be enough IDs, see [room] and [C33_ids_refuted]. *)
Theorem C33_overlay_partial : forall E W g main input pos, setting E W g main pos -> keys_ok input ->
  acmd g = COverlay -> default (V3 0 0 0) (offset g) = V3 0 0 0 ->
  roomy E g main input -> overlays E W g main input.
Proof. exact OverlayRun.overlay_run. Qed.
Print Assumptions C33_overlay_partial.

Theorem C33_ids_refuted : exists E W g main input pos, setting E W g main pos /\ keys_ok input /\
  acmd g = COverlay /\ offset g = None /\ blocks E main (sound 1) /\ blocks E input (sound 65534) /\
  spoiled E W g main input.
Proof. exact IdFacts.overlay_spoils. Qed.
Print Assumptions C33_ids_refuted.

(** Everything but two nodes of block (0,0,0) *)
Definition ex_over : args :=
  with_input (Some (bstr "input.sqlite")) (with_area (Area (V3 0 0 0) (V3 1 0 0)) true (toy_args COverlay)).
Example C33_example : setting toy_full toy_world ex_over toy_main toy_pos /\ keys_ok toy_input /\
  roomy toy_full ex_over toy_main toy_input /\
  sees (toy_run ex_over) (closing 0) (fun m =>
    block_is m key_a (fun b => (names_at b, owner_at 0 b, owner_at 5 b, owner_at 17 b))
      ([Some (bstr "default:chest"); Some (bstr "default:stone"); Some (bstr "default:stone");
        Some (bstr "default:stone"); Some (bstr "default:stone"); Some (bstr "default:stone"); Some (bstr "default:stone")],
       Some (bstr "singleplayer"), None, Some (bstr "celeron55")) &&
    raw_is m key_b (ser block_a) && raw_is m key_d (ser block_d)) = true.
Proof.
  split; [apply toy_setting; [toy_supplied|by vm_compute]|]. split; [apply CopyFacts.toy_input_keys|].
  split; [apply CopyProofs.roomy_7280; [apply toy_sound|apply CopyFacts.toy_input_sound]|]. by vm_compute.
Qed.

(** ** C34 *)

(** "Partial" as in C32. *)
Theorem C34_overlay_partial : forall E W g main input pos, setting E W g main pos ->
  forall off, acmd g = COverlay -> offset g = Some off -> off <> V3 0 0 0 ->
  roomy E g main input -> copies E W g main input input (aarea g) off.
Proof. exact CopyRun.offset_run. Qed.
Print Assumptions C34_overlay_partial.

Theorem C34_overlay_refuted : exists E W g main input pos a off, setting E W g main pos /\
  acmd g = COverlay /\ aarea g = Some a /\ offset g = Some off /\ off <> V3 0 0 0 /\
  blocks E main (sound 7280) /\ blocks E input (sound 7280) /\
  missed E W g main input input a off.
Proof. exact CopyFacts.overlay_edge. Qed.
Print Assumptions C34_overlay_refuted.

Theorem C34_ids_refuted : exists E W g main input pos off, setting E W g main pos /\
  acmd g = COverlay /\ offset g = Some off /\ off <> V3 0 0 0 /\
  blocks E main (sound 1) /\ blocks E input (sound 65534) /\
  spoiled E W g main input.
Proof. exact IdFacts.shift_spoils. Qed.
Print Assumptions C34_ids_refuted.

Definition ex_shift : args :=
  with_input (Some (bstr "input.sqlite")) (with_offset (Some (V3 2 0 0))
    (with_area (Area (V3 0 0 0) (V3 17 1 0)) false (toy_args COverlay))).
Example C34_example : setting toy_full toy_world ex_shift toy_main toy_pos /\
  roomy toy_full ex_shift toy_main toy_input /\
  sees (toy_run ex_shift) (closing 1) (fun m =>
    block_is m key_a (fun b => (names_at b, owner_at 0 b, owner_at 5 b, owner_at 19 b))
      ([Some (bstr "default:chest"); Some (bstr "default:stone"); Some (bstr "default:stone");
        Some (bstr "default:stone"); Some (bstr "default:stone"); Some (bstr "default:stone"); Some (bstr "default:stone")],
       Some (bstr "singleplayer"), None, Some (bstr "celeron55")) &&
    raw_is m key_d (ser block_d)) = true.
Proof.
  split; [apply toy_setting; [toy_supplied|by vm_compute]|].
  split; [apply CopyProofs.roomy_7280; [apply toy_sound|apply CopyFacts.toy_input_sound]|]. by vm_compute.
Qed.

(** ** C21 *)

(** Examples: block (2,0,0) of the map of [C32_example] and [C34_example]. *)
Theorem C21_clone : forall E W g main input pos a off, setting E W g main pos ->
  acmd g = CClone -> aarea g = Some a -> offset g = Some off -> roomy E g main main ->
  exists main' l, run_ok E g W main input main' l /\ spares E main main main' off.
Proof. exact CopyFacts.clone_spares. Qed.
Print Assumptions C21_clone.

Theorem C21_overlay_offset : forall E W g main input pos off, setting E W g main pos ->
  acmd g = COverlay -> offset g = Some off -> off <> V3 0 0 0 -> roomy E g main input ->
  exists main' l, run_ok E g W main input main' l /\ spares E main input main' off.
Proof. exact CopyFacts.offset_spares. Qed.
Print Assumptions C21_overlay_offset.

(** Without offset, nodes are taken from input blocks that are not generated when
    the block is partly selected. *)
Theorem C21_overlay_refuted : exists E W g main input pos, setting E W g main pos /\ keys_ok input /\
  acmd g = COverlay /\ offset g = None /\ blocks E main (sound 7280) /\ blocks E input (sound 7280) /\
  exists main' l k bp x sb y b z b' i, run_ok E g W main input main' l /\
    block_at k bp /\ input !! k = Some x /\ deserialize E x = Ok sb /\ not_generated sb /\
    main !! k = Some y /\ deserialize E y = Ok b /\ main' !! k = Some z /\ deserialize E z = Ok b' /\
    0 <= i < 4096 /\ node_name b' i = node_name sb i /\ node_name b' i <> node_name b i.
Proof. exact CopyFacts.overlay_not_generated. Qed.
Print Assumptions C21_overlay_refuted.

(** ** C38 *)

(** Examples: [C32_example], [C33_example] and [C34_example]. *)
Theorem C38_copies_partial : forall E W g main input pos, setting E W g main pos -> keys_ok input ->
  acmd g = CClone /\ roomy E g main main \/ acmd g = COverlay /\ roomy E g main input ->
  completes E W g main input.
Proof. exact CopyFacts.completes_copy. Qed.
Print Assumptions C38_copies_partial.

(** Without room: one ID more than allowed by [room], and the run panics. *)
Theorem C38_clone_refuted : exists E W g main input pos, setting E W g main pos /\
  acmd g = CClone /\ (forall n, room (default (V3 0 0 0) (offset g)) n n <-> 0 <= n <= 32766) /\
  blocks E main (sound 32767) /\
  exists s, thread_main E g W (start main input) = (Panicked, s).
Proof. exact IdFacts.clone_panics. Qed.
Print Assumptions C38_clone_refuted.

Theorem C38_overlay_refuted : exists E W g main input pos, setting E W g main pos /\ keys_ok input /\
  acmd g = COverlay /\ (forall n, room (default (V3 0 0 0) (offset g)) n n <-> 0 <= n <= 32766) /\
  blocks E main (sound 32767) /\ blocks E input (sound 32767) /\
  exists s, thread_main E g W (start main input) = (Panicked, s).
Proof. exact IdFacts.overlay_panics. Qed.
Print Assumptions C38_overlay_refuted.
