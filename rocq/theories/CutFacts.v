(** Example runs for deleting blocks before or after a copy *)
From Verif Require Import Toy ToyRun CmdFacts CopyFacts SpecNodes LawFacts PairFacts AgainFacts UndoFacts SpecSeq SpecLaws SpecAgain Spec.

(** A clone from the first block across the border to the second *)
Definition over_border : args := with_offset (Some (V3 14 0 0)) (with_area (Area (V3 0 0 0) (V3 2 0 0)) false (toy_args CClone)).
Lemma border_fair W : W = toy_world \/ W = toy_world_rev -> fair toy_full W over_border ∅.
Proof. intros HW. apply toy_fair; [toy_supplied|by vm_compute|by split|by intros n [?|?]|done|apply keys_none|done]. Qed.
Lemma border_spared : spares_source drop_there over_border.
Proof.
  intros _ bp [qx qy qz] Hv Hq. specialize (Hv _ Hq). unfold selected, inside in *. cbn in *. lia.
Qed.

(** The source is deleted. *)
Lemma source_lost : exists E W c gd main input n,
  fair E W c input /\ fair E W gd input /\ keys_ok main /\ 4095 <= n <= 7280 /\ blocks E main (healthy n) /\
  acmd c = CClone /\ acmd gd = CDeleteBlocks /\
  exists m12 m21, after E W W c gd main input input m12 /\ after E W W gd c main input input m21 /\ ~ same_contents E m12 m21.
Proof.
  exists toy_full, toy_world, way_there, drop_here, main_way, ∅, 4095.
  split; [plain|]. split; [apply drop_fair; [by right|by left]|]. split; [exact way_keys|]. split; [lia|]. split; [exact way_healthy|].
  split; [done|]. split; [done|].
  set (lc := warnings way_there ++ closing 0). set (ld := warnings drop_here ++ closing 0).
  destruct (ran_ok toy_world main_way ∅ way_there lc (fun m1 => ran toy_world m1 ∅ drop_here ld (fun m =>
    block_is m 1 (fun b => metadata (norm b) !! 0) (Some (secret false))))) as (m1 & Run1 & H1); [by vm_compute|].
  destruct (ran_ok toy_world main_way ∅ drop_here ld (fun m2 => ran toy_world m2 ∅ way_there lc (fun m =>
    block_is m 1 (fun b => metadata (norm b) !! 0) None))) as (m2 & Run2 & H2); [by vm_compute|].
  destruct (ran_ok _ _ _ _ _ _ H1) as (m12 & Run12 & H12). destruct (ran_ok _ _ _ _ _ _ H2) as (m21 & Run21 & H21).
  exists m12, m21. split; [by exists m1, lc, ld|]. split; [by exists m2, ld, lc|]. exact (meta_differs _ _ _ _ _ _ H12 H21 ltac:(done)).
Qed.
