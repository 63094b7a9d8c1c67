(** Laws about several copies *)
From Verif Require Import Toy ToyRun CmdFacts CopyFacts.
From Verif Require PairProofs PairFacts LawFacts AgainFacts RestoreFacts.
From Verif Require Import SpecPair SpecAgain SpecLocal Spec.

(** ** C74 *)

(** The order of two copies makes no difference if neither may change what the other
    copies or may change.  "Partial": [no_early_private]; see the refutation below. *)
Theorem C74_copies_partial : forall E W1 W2 W3 W4 c1 c2 main i1 i2 n,
  fair E W1 c1 i1 -> fair E W2 c2 i2 -> fair E W3 c2 i2 -> fair E W4 c1 i1 ->
  keys_ok main -> 4095 <= n <= 7280 -> blocks E main (healthy n) -> blocks E main no_early_private ->
  copying c1 -> copying c2 ->
  (acmd c1 = COverlay -> blocks E i1 (healthy n) /\ blocks E i1 no_early_private) ->
  (acmd c2 = COverlay -> blocks E i2 (healthy n) /\ blocks E i2 no_early_private) -> separate c1 c2 ->
  exists m12 m21, after E W1 W2 c1 c2 main i1 i2 m12 /\ after E W3 W4 c2 c1 main i2 i1 m21 /\ same_contents E m12 m21.
Proof. exact PairProofs.copies_apart. Qed.
Print Assumptions C74_copies_partial.

(** Two overlays without offset, on areas without a node in common. *)
Theorem C74_overlays : forall E W1 W2 W3 W4 c1 c2 main i1 i2 n,
  fair E W1 c1 i1 -> fair E W2 c2 i2 -> fair E W3 c2 i2 -> fair E W4 c1 i1 ->
  keys_ok main -> 4095 <= n <= 7280 -> blocks E main (healthy n) -> blocks E i1 (healthy n) -> blocks E i2 (healthy n) ->
  separate_overlays c1 c2 ->
  exists m12 m21, after E W1 W2 c1 c2 main i1 i2 m12 /\ after E W3 W4 c2 c1 main i2 i1 m21 /\ same_contents E m12 m21.
Proof. exact PairProofs.overlays_apart. Qed.
Print Assumptions C74_overlays.

(** Blocks of versions below 28 can be read with private variables, and lose the mark
    when they are stored. *)
Theorem C74_private_refuted : exists E W c1 c2 main inp n, fair E W c1 inp /\ fair E W c2 inp /\ keys_ok main /\
  4095 <= n <= 7280 /\ blocks E main (healthy n) /\ acmd c1 = CClone /\ acmd c2 = CClone /\ separate c1 c2 /\
  exists m12 m21, after E W W c1 c2 main inp inp m12 /\ after E W W c2 c1 main inp inp m21 /\ ~ same_contents E m12 m21.
Proof. exact PairFacts.copies_private. Qed.
Print Assumptions C74_private_refuted.

(** The chest at x = 0 to x = 2, the chest at x = 5 to x = 4; then two overlays on
    neighbouring nodes of a block *)
Definition ex_at (x : Z) : area := Area (V3 x 0 0) (V3 x 0 0).
Definition ex_move (x d : Z) : args := with_offset (Some (V3 d 0 0)) (with_area (ex_at x) false (toy_args CClone)).
Definition ex_lay (x : Z) : args := RestoreFacts.back (Some (ex_at x)).
Definition ex_names (m : mapdata) (l : list bytes) : bool :=
  block_is m key_a (fun b => node_name b <$> [0; 1; 2; 3; 4; 5]) (Some <$> l).
Definition chest := bstr "default:chest".
Definition stone := bstr "default:stone".
Definition air := bstr "air".
Example C74_example_hyps : fair toy_full toy_world (ex_move 0 2) ∅ /\ fair toy_full toy_world (ex_move 5 (-1)) ∅ /\
  separate (ex_move 0 2) (ex_move 5 (-1)) /\ fair toy_full toy_world (ex_lay 1) main_end /\
  fair toy_full toy_world (ex_lay 2) main_end /\ separate_overlays (ex_lay 1) (ex_lay 2) /\
  blocks toy_full main_end (healthy 4095) /\ blocks toy_full main_end no_early_private.
Proof.
  split; [PairFacts.plain|]. split; [PairFacts.plain|].
  split; [intros [x y z]; unfold affects, reads_from, selected, inside; cbn; lia|].
  do 2 (split; [apply LawFacts.plain_fair; [toy_supplied|by vm_compute|by apply LawFacts.fit_none|done|done|done|apply AgainFacts.end_keys|by left]|]).
  split; [do 6 (split; [done|]); intros [x y z]; unfold selected, inside; cbn; lia|].
  split; [apply AgainFacts.end_healthy|apply LawFacts.public_end].
Qed.
Example C74_example :
  ran toy_world main_end ∅ (ex_move 0 2) (warnings (ex_move 0 2) ++ closing 0) (fun m =>
    ran toy_world m ∅ (ex_move 5 (-1)) (warnings (ex_move 0 2) ++ closing 0) (fun m =>
      ex_names m [chest; stone; chest; air; chest; chest])) &&
  ran toy_world main_end ∅ (ex_move 5 (-1)) (warnings (ex_move 0 2) ++ closing 0) (fun m =>
    ran toy_world m ∅ (ex_move 0 2) (warnings (ex_move 0 2) ++ closing 0) (fun m =>
      ex_names m [chest; stone; chest; air; chest; chest])) = true.
Proof. by vm_compute. Qed.

(** ** C75 *)

(** A run whose changes are all overwritten by the next run makes no difference: a copy,
    or an in-place command that changes nodes or metadata.  The latter only if the map
    says of all blocks that they are generated (copies leave other blocks alone, fill
    does not).  "Partial": [no_early_private]; see the refutation below. *)
Theorem C75_overwritten_partial : forall E W W1 W2 g c main ing inc n,
  fair E W1 g ing -> fair E W2 c inc -> fair E W c inc ->
  keys_ok main -> 4095 <= n -> n + growth g <= 7280 -> blocks E main (healthy n) -> blocks E main no_early_private ->
  only_nodes g -> copying c -> (acmd g = COverlay -> blocks E ing (healthy n) /\ blocks E ing no_early_private) ->
  (acmd c = COverlay -> blocks E inc (healthy n) /\ blocks E inc no_early_private) ->
  copying g \/ all_generated E main -> overwritten E g c main inc ->
  exists m l m12, run_ok E c W main inc m l /\ after E W1 W2 g c main ing inc m12 /\ same_contents E m12 m.
Proof. exact PairProofs.copy_overwrites. Qed.
Print Assumptions C75_overwritten_partial.

Theorem C75_private_refuted : exists E W g c main inp n, fair E W g inp /\ fair E W c inp /\ keys_ok main /\ 4095 <= n /\
  n + growth g <= 7280 /\ blocks E main (healthy n) /\ only_nodes g /\ acmd c = CClone /\ all_generated E main /\
  overwritten E g c main inp /\
  exists m l m12, run_ok E c W main inp m l /\ after E W W g c main inp inp m12 /\ ~ same_contents E m12 m.
Proof. exact PairFacts.overwritten_private. Qed.
Print Assumptions C75_private_refuted.

(** The chest at x = 0 goes to x = 2, whatever there was. *)
Definition ex_paint : args := with_area (ex_at 2) false (with_param2 (Some x07) (toy_args CSetParam2)).
Example C75_example_hyps : fair toy_full toy_world ex_paint ∅ /\ only_nodes ex_paint /\ copying (ex_move 1 1) /\
  all_generated toy_full main_end /\ overwritten toy_full ex_paint (ex_move 0 2) main_end ∅ /\
  overwritten toy_full (ex_move 1 1) (ex_move 0 2) main_end ∅.
Proof.
  assert (found toy_full main_end (V3 0 0 0) block_a 0) as Hf.
  { apply (PairFacts.found_at _ 0 (V3 0 0 0) (ser block_a)); [apply PairFacts.near_origin; by left|
      apply (PairFacts.near_origin (V3 0 0 0)); by left|done|apply AgainFacts.end_read|by vm_compute|lia|done]. }
  split; [PairFacts.plain|]. split; [by right|]. split; [by left|]. split; [|split].
  - intros k x Hx. unfold main_end in Hx. apply lookup_singleton_Some in Hx as [<- <-]. apply (MixProofs.claims_flags toy_full _ block_a); [apply toy_full_ok|apply AgainFacts.end_read|].
    intros Hg; apply Hg; by vm_compute.
  - intros [x y z]. unfold affects, reads_from, selected, inside. cbn -[found minus]. intros Hin.
    assert (V3 x y z = V3 2 0 0) as -> by (f_equal; lia). split; [intros [_ ?]; lia|]. split; [cbn; lia|]. by exists block_a, 0.
  - intros [x y z]. unfold affects, reads_from, selected, inside. cbn -[found]. intros Hin.
    assert (V3 x y z = V3 2 0 0) as -> by (f_equal; lia). split; [intros [_ ?]; lia|]. split; [cbn; lia|]. by exists block_a, 0.
Qed.
Example C75_example :
  ran toy_world main_end ∅ (ex_move 1 1) (warnings (ex_move 1 1) ++ closing 0) (fun m =>
    ran toy_world m ∅ (ex_move 0 2) (warnings (ex_move 1 1) ++ closing 0) (fun m =>
      ex_names m [chest; stone; chest; air; air; chest])) &&
  ran toy_world main_end ∅ (ex_move 0 2) (warnings (ex_move 1 1) ++ closing 0) (fun m =>
    ex_names m [chest; stone; chest; air; air; chest]) = true.
Proof. by vm_compute. Qed.

(** ** C76 *)

(** Nodes that are copied and then copied again arrive as if they had been copied there
    at once, if there was a node in a generated block in between.  "Partial": maps with
    blocks of version 28 or 29; see the refutation below. *)
Theorem C76_chain_partial : forall E W W1 W2 c1 c2 c main input n,
  fair E W1 c1 input -> fair E W2 c2 input -> fair E W c input ->
  keys_ok main -> 4095 <= n <= 7280 -> blocks E main (healthy n) -> blocks E main (fun b => 28 <= version b) ->
  copying c1 -> acmd c2 = CClone -> copying c ->
  (acmd c1 = COverlay -> blocks E input (healthy n) /\ blocks E input no_early_private) -> in_one_go c1 c2 c ->
  exists m l m12, run_ok E c W main input m l /\ after E W1 W2 c1 c2 main input input m12 /\
    forall p o1 q, selected (aarea c1) false p -> offset c1 = Some o1 -> minus q (default (V3 0 0 0) (offset c)) = p ->
      (exists sb j, found E (copied_map c1 main input) p sb j) -> (exists mb j, found E main (plus p o1) mb j) ->
      forall b i, found E m q b i -> exists b12, found E m12 q b12 i /\ state b12 i = state b i.
Proof. exact PairProofs.copy_chain. Qed.
Print Assumptions C76_chain_partial.

(** A block of version 27 in between drops the marks of private variables. *)
Theorem C76_old_refuted : exists E W c1 c2 c main inp n, fair E W c1 inp /\ fair E W c2 inp /\ fair E W c inp /\ keys_ok main /\
  4095 <= n <= 7280 /\ blocks E main (healthy n) /\ blocks E main no_early_private /\ acmd c1 = CClone /\ acmd c2 = CClone /\
  acmd c = CClone /\ in_one_go c1 c2 c /\
  exists m l m12 p o1 q b b12 i, run_ok E c W main inp m l /\ after E W W c1 c2 main inp inp m12 /\
    selected (aarea c1) false p /\ offset c1 = Some o1 /\ minus q (default (V3 0 0 0) (offset c)) = p /\
    (exists sb j, found E main p sb j) /\ (exists mb j, found E main (plus p o1) mb j) /\
    found E m q b i /\ found E m12 q b12 i /\ st_meta (state b12 i) <> st_meta (state b i).
Proof. exact PairFacts.chain_old. Qed.
Print Assumptions C76_old_refuted.

(** From x = 0 by way of x = 2 to x = 4 *)
Example C76_example_hyps : in_one_go (ex_move 0 2) (ex_move 2 2) (ex_move 0 4) /\ copying (ex_move 0 2) /\
  blocks toy_full main_end (fun b => 28 <= version b) /\ fair toy_full toy_world (ex_move 2 2) ∅ /\
  fair toy_full toy_world (ex_move 0 4) ∅.
Proof.
  split; [exists (V3 2 0 0), (V3 2 0 0); do 5 (split; [done|]); intros [x y z]; unfold selected, inside; cbn; lia|].
  split; [by left|]. split; [apply (one_block (ser block_a) block_a); [apply AgainFacts.end_read|by vm_compute]|].
  split; PairFacts.plain.
Qed.
Example C76_example :
  ran toy_world main_end ∅ (ex_move 0 2) (warnings (ex_move 0 2) ++ closing 0) (fun m =>
    ran toy_world m ∅ (ex_move 2 2) (warnings (ex_move 0 2) ++ closing 0) (fun m =>
      ex_names m [chest; stone; chest; air; chest; chest])) &&
  ran toy_world main_end ∅ (ex_move 0 4) (warnings (ex_move 0 2) ++ closing 0) (fun m =>
    ex_names m [chest; stone; air; air; chest; chest]) = true.
Proof. by vm_compute. Qed.
