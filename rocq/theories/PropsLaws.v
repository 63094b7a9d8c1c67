(** Laws of clone and overlay *)
From Verif Require Import Toy ToyRun CmdFacts CopyFacts.
From Verif Require LawProofs LawFacts AgainFacts RestoreFacts.
From Verif Require Import SpecLaws SpecAgain Spec.

(** ** C70 *)

(** Clone does the same as overlay, with the same area and offset, of a copy of the map.
    Warnings apart, both log the same. *)
Theorem C70_clone_is_overlay : forall E W1 W2 g1 g2 main input,
  fair E W1 g1 input -> fair E W2 g2 main -> acmd g1 = CClone -> acmd g2 = COverlay ->
  aarea g2 = aarea g1 -> offset g2 = offset g1 -> offset g1 <> Some (V3 0 0 0) -> roomy E g1 main main ->
  exists m1 m2 r, run_ok E g1 W1 main input m1 (warnings g1 ++ r) /\ run_ok E g2 W2 main main m2 (warnings g2 ++ r) /\
    same_contents E m1 m2.
Proof. exact LawProofs.clone_overlay. Qed.
Print Assumptions C70_clone_is_overlay.

(** The chest and the stone at x = 0 and 1, copied to x = 2 and 3 *)
Definition ex_two : area := Area (V3 0 0 0) (V3 1 0 0).
Definition ex_clone : args := with_offset (Some (V3 2 0 0)) (with_area ex_two false (toy_args CClone)).
Definition ex_paste : args := with_offset (Some (V3 2 0 0)) (RestoreFacts.back (Some ex_two)).
Definition ex_names (m : mapdata) : bool :=
  block_is m key_a (fun b => node_name b <$> [0; 1; 2; 3; 4])
    (Some <$> [bstr "default:chest"; bstr "default:stone"; bstr "default:chest"; bstr "default:stone"; bstr "air"]).
Example C70_example_hyps : fair toy_full toy_world ex_clone ∅ /\ fair toy_full toy_world_rev ex_paste main_end /\
  roomy toy_full ex_clone main_end main_end.
Proof.
  split; [apply LawFacts.plain_fair; [toy_supplied|by vm_compute|by apply LawFacts.fit_none|done|done|done|apply AgainFacts.keys_none|by left]|].
  split; [apply LawFacts.plain_fair; [toy_supplied|by vm_compute|by apply LawFacts.fit_none|done|done|done|apply AgainFacts.end_keys|by right]|].
  apply (CongProofs.healthy_roomy _ _ _ _ 4095); [lia|apply AgainFacts.end_healthy|apply AgainFacts.end_healthy].
Qed.
Example C70_example :
  ran toy_world main_end ∅ ex_clone (warnings ex_clone ++ closing 0) ex_names &&
  ran toy_world_rev main_end main_end ex_paste (warnings ex_paste ++ closing 0) ex_names = true.
Proof. by vm_compute. Qed.

(** ** C71 *)

(** The order of an in-place command and a clone, or an overlay with offset, makes no
    difference if the command applies to no node that is copied or overwritten.
    "Partial": [no_early_private]; see the refutation below. *)
Theorem C71_copy_partial : forall E W1 W2 W3 W4 g c main ing inc n,
  fair E W1 g ing -> fair E W2 c inc -> fair E W3 c inc -> fair E W4 g ing ->
  keys_ok main -> 4095 <= n -> n + growth g <= 7280 -> blocks E main (healthy n) -> blocks E main no_early_private ->
  in_place (acmd g) = true -> copying c ->
  (acmd c = COverlay -> blocks E inc (healthy n) /\ blocks E inc no_early_private) -> apart_from g c ->
  exists m12 m21, after E W1 W2 g c main ing inc m12 /\ after E W3 W4 c g main inc ing m21 /\ same_contents E m12 m21.
Proof. exact LawProofs.copy_apart. Qed.
Print Assumptions C71_copy_partial.

(** The same for an overlay without offset, except for deletetimers and deleteobjects:
    whole blocks are replaced with their timers and objects. *)
Theorem C71_overlay_partial : forall E W1 W2 W3 W4 g c main ing inc n,
  fair E W1 g ing -> fair E W2 c inc -> fair E W3 c inc -> fair E W4 g ing ->
  keys_ok main -> 4095 <= n -> n + growth g <= 7280 -> blocks E main (healthy n) -> blocks E main no_early_private ->
  in_place (acmd g) = true -> blocks E inc (healthy n) -> blocks E inc no_early_private -> apart_overlay g c ->
  exists m12 m21, after E W1 W2 g c main ing inc m12 /\ after E W3 W4 c g main inc ing m21 /\ same_contents E m12 m21.
Proof. exact LawProofs.overlay_apart. Qed.
Print Assumptions C71_overlay_partial.

(** Blocks of versions below 28 can be read with private variables, and lose the mark
    when they are stored. *)
Theorem C71_private_refuted : exists E W g c main ing inc n, fair E W g ing /\ fair E W c inc /\ keys_ok main /\
  4095 <= n /\ n + growth g <= 7280 /\ blocks E main (healthy n) /\ in_place (acmd g) = true /\ acmd c = CClone /\
  apart_from g c /\
  exists m12 m21, after E W W g c main ing inc m12 /\ after E W W c g main inc ing m21 /\ ~ same_contents E m12 m21.
Proof. exact LawFacts.clone_private. Qed.
Print Assumptions C71_private_refuted.

(** Param2 changes at x = 4 and 5; clone and overlay work at smaller x. *)
Definition ex_paint : args :=
  with_area (Area (V3 4 0 0) (V3 5 0 0)) false (with_param2 (Some x07) (toy_args CSetParam2)).
Definition ex_back : args := RestoreFacts.back (Some (Area (V3 1 0 0) (V3 2 0 0))).
Example C71_example_hyps : fair toy_full toy_world ex_paint ∅ /\ fair toy_full toy_world ex_clone ∅ /\
  fair toy_full toy_world ex_back main_end /\ copying ex_clone /\ copying ex_paste /\
  blocks toy_full main_end (healthy 4095) /\ blocks toy_full main_end no_early_private /\
  apart_from ex_paint ex_clone /\ apart_from ex_paint ex_paste /\ apart_overlay ex_paint ex_back.
Proof.
  split; [apply LawFacts.plain_fair; [toy_supplied|by vm_compute|by apply LawFacts.fit_none|done|done|by eexists|apply AgainFacts.keys_none|by left]|].
  split; [apply C70_example_hyps|].
  split; [apply LawFacts.plain_fair; [toy_supplied|by vm_compute|by apply LawFacts.fit_none|done|done|done|apply AgainFacts.end_keys|by left]|].
  split; [by left|]. split; [by right|]. split; [apply AgainFacts.end_healthy|]. split; [apply LawFacts.public_end|].
  split; [intros [x y z]; unfold selected, inside; cbn; lia|]. split; [intros [x y z]; unfold selected, inside; cbn; lia|].
  split; [done|]. split; [done|]. split; [intros [x y z]; unfold selected, inside; cbn; lia|]. done.
Qed.
Definition ex_painted (m : mapdata) : bool :=
  ex_names m && block_is m key_a (fun b => node_param2 b <$> [4; 5]) (Some <$> [x07; x07]).
Example C71_example :
  ran toy_world main_end ∅ ex_paint (warnings ex_paint ++ [(LInfo, MParam2 2)] ++ closing 0) (fun m =>
    ran toy_world m ∅ ex_clone (warnings ex_clone ++ closing 0) ex_painted) &&
  ran toy_world main_end ∅ ex_clone (warnings ex_clone ++ closing 0) (fun m =>
    ran toy_world m ∅ ex_paint (warnings ex_paint ++ [(LInfo, MParam2 2)] ++ closing 0) ex_painted) = true.
Proof. by vm_compute. Qed.

(** ** C72 *)

(** A clone, or an overlay with offset, on two areas one after the other does the same
    as on both at once.  A clone must not copy from the second area what it has written
    there.  "Partial": [no_early_private]. *)
Theorem C72_split_partial : forall E W W1 W2 c a1 a2 main input n,
  let c1 := on_area a1 false c in let c2 := on_area a2 false c in
  fair E W c input -> fair E W1 c1 input -> fair E W2 c2 input -> keys_ok main -> 4095 <= n <= 7280 ->
  blocks E main (healthy n) -> blocks E main no_early_private -> copying c ->
  (acmd c = COverlay -> blocks E input (healthy n) /\ blocks E input no_early_private) ->
  (forall p, selected (aarea c) false p <-> selected a1 false p \/ selected a2 false p) ->
  (acmd c = CClone -> forall p, selected a2 false p -> ~ selected a1 false (minus p (default (V3 0 0 0) (offset c)))) ->
  exists m l m12, run_ok E c W main input m l /\ after E W1 W2 c1 c2 main input input m12 /\ same_contents E m m12.
Proof. exact LawProofs.copy_split. Qed.
Print Assumptions C72_split_partial.

(** An overlay without offset can be split between blocks. *)
Theorem C72_overlay_partial : forall E W W1 W2 c a1 a2 main input n,
  let c1 := on_area a1 (invert c) c in let c2 := on_area a2 (invert c) c in
  fair E W c input -> fair E W1 c1 input -> fair E W2 c2 input -> keys_ok main -> 4095 <= n <= 7280 ->
  blocks E main (healthy n) -> blocks E input (healthy n) -> acmd c = COverlay ->
  default (V3 0 0 0) (offset c) = V3 0 0 0 ->
  (forall p, selected (aarea c) (invert c) p <-> selected a1 (invert c) p \/ selected a2 (invert c) p) ->
  (forall bp, key_range bp -> none a1 (invert c) bp \/ none a2 (invert c) bp) ->
  exists m l m12, run_ok E c W main input m l /\ after E W1 W2 c1 c2 main input input m12 /\ same_contents E m m12.
Proof. exact LawProofs.overlay_split. Qed.
Print Assumptions C72_overlay_partial.

(** Within a block it cannot: two halves of a block do not bring the block. *)
Theorem C72_halves_refuted : exists E W c a1 a2 main input n,
  let c1 := on_area (Some a1) false c in let c2 := on_area (Some a2) false c in
  fair E W c input /\ fair E W c1 input /\ fair E W c2 input /\ keys_ok main /\ 4095 <= n <= 7280 /\
  blocks E main (healthy n) /\ blocks E input (healthy n) /\ blocks E main no_early_private /\
  blocks E input no_early_private /\ acmd c = COverlay /\ offset c = None /\ invert c = false /\
  (forall p, selected (aarea c) false p <-> selected (Some a1) false p \/ selected (Some a2) false p) /\
  exists m l m12, run_ok E c W main input m l /\ after E W W c1 c2 main input input m12 /\ ~ same_contents E m m12.
Proof. exact LawFacts.overlay_halves. Qed.
Print Assumptions C72_halves_refuted.

(** The clone above in two steps, and an overlay of two blocks, one of which exists *)
Definition ex_left : option area := Some (Area (V3 0 0 0) (V3 0 0 0)).
Definition ex_right : option area := Some (Area (V3 1 0 0) (V3 1 0 0)).
Definition ex_near : option area := Some (Area (V3 0 0 0) (V3 15 15 15)).
Definition ex_far : option area := Some (Area (V3 16 0 0) (V3 31 15 15)).
Definition ex_blocks : args := RestoreFacts.back (Some (Area (V3 0 0 0) (V3 31 15 15))).
Example C72_example_hyps :
  fair toy_full toy_world (on_area ex_left false ex_clone) ∅ /\ fair toy_full toy_world (on_area ex_right false ex_clone) ∅ /\
  (forall p, selected (aarea ex_clone) false p <-> selected ex_left false p \/ selected ex_right false p) /\
  (forall p, selected ex_right false p -> ~ selected ex_left false (minus p (V3 2 0 0))) /\
  fair toy_full toy_world ex_blocks main_end /\ fair toy_full toy_world (on_area ex_near false ex_blocks) main_end /\
  fair toy_full toy_world (on_area ex_far false ex_blocks) main_end /\
  (forall p, selected (aarea ex_blocks) false p <-> selected ex_near false p \/ selected ex_far false p) /\
  forall bp, none ex_near false bp \/ none ex_far false bp.
Proof.
  split; [apply LawFacts.plain_fair; [toy_supplied|by vm_compute|by apply LawFacts.fit_none|done|done|done|apply AgainFacts.keys_none|by left]|].
  split; [apply LawFacts.plain_fair; [toy_supplied|by vm_compute|by apply LawFacts.fit_none|done|done|done|apply AgainFacts.keys_none|by left]|].
  split; [intros [x y z]; unfold selected, inside; cbn; lia|]. split; [intros [x y z]; unfold selected, inside; cbn; lia|].
  do 3 (split; [apply LawFacts.plain_fair; [toy_supplied|by vm_compute|by apply LawFacts.fit_none|done|done|done|apply AgainFacts.end_keys|by left]|]).
  split; [intros [x y z]; unfold selected, inside; cbn; lia|].
  intros [bx yb zb]. destruct (decide (bx = 0)) as [->|Hb]; [right|left]; intros [x y z];
    unfold node_in_block, selected, inside, block_corner; cbn; lia.
Qed.
Example C72_example :
  ran toy_world main_end ∅ (on_area ex_left false ex_clone) (warnings ex_clone ++ closing 0) (fun m =>
    ran toy_world m ∅ (on_area ex_right false ex_clone) (warnings ex_clone ++ closing 0) ex_names) = true.
Proof. by vm_compute. Qed.

(** ** C73 *)

(** An in-place command without area can be run before or after a clone.  For an overlay
    with offset, it has to be run on both maps.  Deletetimers must not look for a node,
    because timers are not copied with nodes.  "Partial": [no_early_private]; see the
    refutation below. *)
Theorem C73_copy_partial : forall E W1 W2 W3 W4 W5 g c main ing inc n,
  fair E W1 g ing -> fair E W2 c inc -> fair E W3 c inc -> fair E W4 g ing -> fair E W5 g ing ->
  keys_ok main -> 4095 <= n -> n + growth g <= 7280 -> blocks E main (healthy n) -> blocks E main no_early_private ->
  blocks E inc (healthy n) -> blocks E inc no_early_private ->
  in_place (acmd g) = true -> copying c -> aarea g = None -> (acmd g = CDeleteTimers -> searched g = []) ->
  exists inc1 l m12 m21, run_ok E g W5 inc ing inc1 l /\ after E W1 W2 g c main ing inc1 m12 /\
    after E W3 W4 c g main inc ing m21 /\ same_contents E m12 m21.
Proof. exact LawProofs.copy_everywhere. Qed.
Print Assumptions C73_copy_partial.

(** The same for an overlay without offset. *)
Theorem C73_overlay_partial : forall E W1 W2 W3 W4 W5 g c main ing inc n,
  fair E W1 g ing -> fair E W2 c inc -> fair E W3 c inc -> fair E W4 g ing -> fair E W5 g ing ->
  keys_ok main -> 4095 <= n -> n + growth g <= 7280 -> blocks E main (healthy n) -> blocks E main no_early_private ->
  blocks E inc (healthy n) -> blocks E inc no_early_private ->
  in_place (acmd g) = true -> acmd c = COverlay -> default (V3 0 0 0) (offset c) = V3 0 0 0 ->
  aarea g = None -> (acmd g = CDeleteTimers -> searched g = []) ->
  exists inc1 l m12 m21, run_ok E g W5 inc ing inc1 l /\ after E W1 W2 g c main ing inc1 m12 /\
    after E W3 W4 c g main inc ing m21 /\ same_contents E m12 m21.
Proof. exact LawProofs.overlay_everywhere. Qed.
Print Assumptions C73_overlay_partial.

Theorem C73_private_refuted : exists E W g c main ing inc n, fair E W g ing /\ fair E W c inc /\ keys_ok main /\
  4095 <= n /\ n + growth g <= 7280 /\ blocks E main (healthy n) /\ blocks E inc (healthy n) /\
  in_place (acmd g) = true /\ acmd c = COverlay /\ aarea g = None /\ acmd g <> CDeleteTimers /\
  exists inc1 l m12 m21, run_ok E g W inc ing inc1 l /\ after E W W g c main ing inc1 m12 /\
    after E W W c g main inc ing m21 /\ ~ same_contents E m12 m21.
Proof. exact LawFacts.overlay_private. Qed.
Print Assumptions C73_private_refuted.

(** Chests become dirt, before or after the chest at x = 0 is copied to x = 2. *)
Example C73_example_hyps : fair toy_full toy_world LawFacts.all_dirt ∅ /\ in_place (acmd LawFacts.all_dirt) = true /\
  4095 + growth LawFacts.all_dirt <= 7280 /\ aarea LawFacts.all_dirt = None /\ copying ex_paste.
Proof.
  split; [apply LawFacts.plain_fair; [toy_supplied|by vm_compute|by apply LawFacts.fit_dirt|done|done|done|apply AgainFacts.keys_none|by left]|].
  split; [done|]. split; [by vm_compute|]. split; [done|]. by right.
Qed.
Definition ex_earth (m : mapdata) : bool :=
  block_is m key_a (fun b => node_name b <$> [0; 1; 2; 3; 5])
    (Some <$> [bstr "default:dirt"; bstr "default:stone"; bstr "default:dirt"; bstr "default:stone"; bstr "default:dirt"]).
Definition ex_log (n : Z) : list (log_type * msg) := warnings LawFacts.all_dirt ++ [(LInfo, MReplaced n)] ++ closing 0.
Example C73_example :
  ran toy_world main_end ∅ LawFacts.all_dirt (ex_log 2) (fun m =>
    ran toy_world m m ex_paste (warnings ex_paste ++ closing 0) ex_earth) &&
  ran toy_world main_end main_end ex_paste (warnings ex_paste ++ closing 0) (fun m =>
    ran toy_world m ∅ LawFacts.all_dirt (ex_log 3) ex_earth) = true.
Proof. by vm_compute. Qed.
