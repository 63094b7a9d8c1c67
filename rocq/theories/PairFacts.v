(** Facts about several copies on toy maps *)
From Verif Require Import KeepProofs AgainFacts OrderProofs CmdFacts Toy ToyRun CopyFacts RestoreFacts CongProofs MixProofs LawProofs LawFacts SpecPair SpecAgain SpecLocal Spec.

Ltac plain := apply plain_fair; [toy_supplied|by vm_compute|by apply fit_none|done|done|first [done|by eexists]|apply keys_none|by left].

(** Two blocks *)
Definition two (k : Z) (x1 x2 : bytes) : mapdata := list_to_map [(0, x1); (k, x2)].
Lemma two_keys k bp x1 x2 : block_at k bp -> keys_ok (two k x1 x2).
Proof.
  intros Hb k' [x H]. unfold two in H. apply elem_of_list_to_map_2 in H. rewrite !elem_of_cons, elem_of_nil in H.
  destruct H as [H|[H|[]]]; apply (f_equal fst) in H; cbn [fst] in H; rewrite H; [|by exists bp].
  exists (V3 0 0 0). split; [unfold key_range; simpl; lia|done].
Qed.
Lemma two_blocks k x1 x2 b1 b2 (P : block -> Prop) : deserialize toy_full x1 = Ok b1 -> deserialize toy_full x2 = Ok b2 ->
  P b1 -> P b2 -> blocks toy_full (two k x1 x2) P.
Proof.
  intros D1 D2 H1 H2 k' x b Hx Hd. unfold two in Hx. apply elem_of_list_to_map_2 in Hx. rewrite !elem_of_cons, elem_of_nil in Hx.
  destruct Hx as [H|[H|[]]]; apply (f_equal snd) in H; cbn [snd] in H; rewrite H in Hd; congruence.
Qed.
Lemma near_origin bp : bp = V3 0 0 0 \/ bp = V3 1 0 0 \/ bp = V3 (-1) 0 0 -> within 1937 bp /\ block_at (vx bp) bp.
Proof. by intros [->|[->| ->]]; (split; [unfold within; cbn; lia|split; [unfold key_range; simpl; lia|done]]). Qed.

(** A clone to a node of the block from which the other clone copies *)
Definition near_clone : args :=
  with_offset (Some (V3 (-1) 0 0)) (with_area (Area (V3 2 0 0) (V3 2 0 0)) false (toy_args CClone)).
Lemma copies_private : exists E W c1 c2 main inp n, fair E W c1 inp /\ fair E W c2 inp /\ keys_ok main /\ 4095 <= n <= 7280 /\
  blocks E main (healthy n) /\ acmd c1 = CClone /\ acmd c2 = CClone /\ separate c1 c2 /\
  exists m12 m21, after E W W c1 c2 main inp inp m12 /\ after E W W c2 c1 main inp inp m21 /\ ~ same_contents E m12 m21.
Proof.
  exists toy_full, toy_world, near_clone, side_clone, main_both, ∅, 4095.
  split; [plain|]. split; [plain|]. split; [apply both_keys|]. split; [lia|].
  split; [apply both_blocks; [apply healthy_old|apply healthy_new]|]. split; [done|]. split; [done|].
  split. { intros [x y z]. unfold affects, reads_from, selected, inside; cbn. lia. }
  destruct (ran_ok toy_world main_both ∅ near_clone (warnings near_clone ++ closing 0) (fun m1 =>
    ran toy_world m1 ∅ side_clone (warnings side_clone ++ closing 0) (fun m12 =>
      block_is m12 1 (fun b => metadata (norm b) !! 0) (Some (secret false))))) as (m1 & Run1 & H1); [by vm_compute|].
  destruct (ran_ok _ _ _ _ _ _ H1) as (m12 & Run12 & H12).
  destruct (ran_ok toy_world main_both ∅ side_clone (warnings side_clone ++ closing 0) (fun m2 =>
    ran toy_world m2 ∅ near_clone (warnings near_clone ++ closing 0) (fun m21 =>
      block_is m21 1 (fun b => metadata (norm b) !! 0) (Some (secret true))))) as (m2 & Run2 & H2); [by vm_compute|].
  destruct (ran_ok _ _ _ _ _ _ H2) as (m21 & Run21 & H21).
  exists m12, m21. split; [eexists m1, _, _; split; [exact Run1|exact Run12]|]. split; [eexists m2, _, _; split; [exact Run2|exact Run21]|].
  exact (meta_differs _ _ _ _ _ _ H12 H21 secrets).
Qed.

(** ** Nodes that are there *)
Lemma found_at m k bp x b j p : within 1937 bp -> block_at k bp -> m !! k = Some x -> deserialize toy_full x = Ok b ->
  bool_decide (not_generated b) = false -> 0 <= j < 4096 -> abs_pos bp j = p -> found toy_full m p b j.
Proof.
  intros Hw Hb Hx Hd Hg Hj Hp. exists bp. split; [done|]. split; [|done]. exists k, x. split; [done|]. split; [done|]. split; [done|].
  by apply bool_decide_eq_false in Hg.
Qed.
(** ** Overwriting a node of the block from which the clone copies *)
Definition left_paint : args :=
  with_area (Area (V3 0 1 0) (V3 0 1 0)) false (with_param2 (Some x07) (toy_args CSetParam2)).
Definition left_clone : args :=
  with_offset (Some (V3 (-1) 1 0)) (with_area (Area (V3 0 0 0) (V3 1 0 0)) false (toy_args CClone)).
Definition main_left : mapdata := two (-1) data_old data_new.
Lemma left_zero : main_left !! 0 = Some data_old.
Proof. done. Qed.
(** The clone stores the block from which it copies, which loses the mark. *)
Lemma clone_twice_private : exists E W1 W2 g main input n, fair E W1 g input /\ fair E W2 g input /\ keys_ok main /\
  4095 <= n /\ n + growth g <= 7280 /\ blocks E main (healthy n) /\ blocks E input (healthy n) /\
  acmd g = CClone /\ apart g /\
  exists main1 l1 main2 l2, twice E W1 W2 g main input main1 l1 main2 l2 /\ ~ same_contents E main1 main2.
Proof.
  exists toy_full, toy_world, toy_world, left_clone, main_left, ∅, 4095.
  assert (fair toy_full toy_world left_clone ∅) as HF by plain.
  split; [exact HF|]. split; [exact HF|].
  split; [apply (two_keys _ (V3 (-1) 0 0)), (near_origin (V3 (-1) 0 0)); by right; right|]. split; [lia|]. split; [by vm_compute|].
  split; [apply (two_blocks _ _ _ block_old block_new); [apply old_read|apply new_read|apply healthy_old|apply healthy_new]|].
  split; [apply blocks_none|]. split; [done|].
  split. { intros a off p [= <-] [= <-]. unfold inside; cbn. lia. }
  set (l := warnings left_clone ++ closing 0).
  destruct (ran_ok toy_world main_left ∅ left_clone l (fun m1 =>
    block_is m1 (-1) (fun b => metadata (norm b) !! 31) (Some (secret true)) &&
    ran toy_world m1 ∅ left_clone l (fun m2 =>
      block_is m2 (-1) (fun b => metadata (norm b) !! 31) (Some (secret false))))) as (m1 & Run1 & H1); [by vm_compute|].
  apply andb_true_iff in H1 as [H1 H2]. destruct (ran_ok _ _ _ _ _ _ H2) as (m2 & Run2 & H3).
  exists m1, l, m2, l. split; [by split|]. intros Hs.
  exact (meta_differs _ _ _ _ _ _ H3 H1 secrets (contents_sym _ _ _ Hs)).
Qed.
Lemma overwritten_private : exists E W g c main inp n, fair E W g inp /\ fair E W c inp /\ keys_ok main /\ 4095 <= n /\ n + growth g <= 7280 /\
  blocks E main (healthy n) /\ only_nodes g /\ acmd c = CClone /\ all_generated E main /\ overwritten E g c main inp /\
  exists m l m12, run_ok E c W main inp m l /\ after E W W g c main inp inp m12 /\ ~ same_contents E m12 m.
Proof.
  exists toy_full, toy_world, left_paint, left_clone, main_left, ∅, 4095.
  split; [plain|]. split; [plain|]. split; [apply (two_keys _ (V3 (-1) 0 0)), (near_origin (V3 (-1) 0 0)); by right; right|]. split; [lia|]. split; [by vm_compute|].
  split; [apply (two_blocks _ _ _ block_old block_new); [apply old_read|apply new_read|apply healthy_old|apply healthy_new]|].
  split; [right; done|]. split; [done|]. split.
  { intros k x Hx. unfold main_left, two in Hx. apply elem_of_list_to_map_2 in Hx. rewrite !elem_of_cons, elem_of_nil in Hx.
    destruct Hx as [H|[H|[]]]; apply (f_equal snd) in H; cbn [snd] in H; rewrite H.
    - apply (claims_flags toy_full data_old block_old); [apply toy_full_ok|apply old_read|]. intros Hg; apply Hg; by vm_compute.
    - apply (claims_flags toy_full data_new block_new); [apply toy_full_ok|apply new_read|]. intros Hg; apply Hg; by vm_compute. }
  split.
  { intros [x y z]. unfold affects, reads_from, selected, inside. cbn -[found minus]. intros Hin.
    assert (V3 x y z = V3 0 1 0) as -> by (f_equal; lia). split; [intros [_ ?]; lia|]. split; [cbn; lia|].
    exists block_old, 1. apply (found_at _ 0 (V3 0 0 0) data_old); [apply near_origin; by left|apply (near_origin (V3 0 0 0)); by left|apply left_zero|apply old_read|by vm_compute|lia|done]. }
  destruct (ran_ok toy_world main_left ∅ left_clone (warnings left_clone ++ closing 0) (fun m =>
    block_is m (-1) (fun b => metadata (norm b) !! 31) (Some (secret true)))) as (m & Run & H); [by vm_compute|].
  destruct (ran_ok toy_world main_left ∅ left_paint (warnings left_paint ++ [(LInfo, MParam2 1)] ++ closing 0) (fun m1 =>
    ran toy_world m1 ∅ left_clone (warnings left_clone ++ closing 0) (fun m12 =>
      block_is m12 (-1) (fun b => metadata (norm b) !! 31) (Some (secret false))))) as (m1 & Run1 & H1); [by vm_compute|].
  destruct (ran_ok _ _ _ _ _ _ H1) as (m12 & Run12 & H12).
  eexists m, _, m12. split; [exact Run|]. split; [eexists m1, _, _; split; [exact Run1|exact Run12]|].
  exact (meta_differs _ _ _ _ _ _ H12 H secrets).
Qed.

(** ** A copy by way of an old block *)
Definition block_here : block := mk_block 28 0 {[0 := bstr "default:chest"]} {[0 := secret true]} [] [].
Definition block_there : block := mk_block 27 0 {[0 := bstr "default:chest"]} ∅ [] [].
Lemma here_read : deserialize toy_full (ser block_here) = Ok block_here.
Proof. apply (bool_decide_unpack _). by vm_compute. Qed.
Lemma there_read : deserialize toy_full (ser block_there) = Ok block_there.
Proof. apply (bool_decide_unpack _). by vm_compute. Qed.
Definition main_way : mapdata := two 1 (ser block_here) (ser block_there).
Definition way_there : args := with_offset (Some (V3 16 0 0)) (with_area (Area (V3 0 0 0) (V3 0 0 0)) false (toy_args CClone)).
Definition way_back : args := with_offset (Some (V3 (-15) 0 0)) (with_area (Area (V3 16 0 0) (V3 16 0 0)) false (toy_args CClone)).
Definition way_short : args := with_offset (Some (V3 1 0 0)) (with_area (Area (V3 0 0 0) (V3 0 0 0)) false (toy_args CClone)).
Definition seen (b : block) : bool * option node_meta := (bool_decide (not_generated b), st_meta (state b 1)).
Lemma block_is_in m k (v : bool * option node_meta) : block_is m k seen v = true -> exists x b, m !! k = Some x /\ deserialize toy_full x = Ok b /\ seen b = v.
Proof.
  unfold block_is. destruct (m !! k) as [x|]; [|done]. destruct (deserialize toy_full x) as [b|] eqn:Hd; [|done].
  intros H%bool_decide_eq_true. by exists x, b.
Qed.
Lemma chain_old : exists E W c1 c2 c main inp n, fair E W c1 inp /\ fair E W c2 inp /\ fair E W c inp /\ keys_ok main /\ 4095 <= n <= 7280 /\
  blocks E main (healthy n) /\ blocks E main no_early_private /\ acmd c1 = CClone /\ acmd c2 = CClone /\ acmd c = CClone /\ in_one_go c1 c2 c /\
  exists m l m12 p o1 q b b12 i, run_ok E c W main inp m l /\ after E W W c1 c2 main inp inp m12 /\
    selected (aarea c1) false p /\ offset c1 = Some o1 /\ minus q (default (V3 0 0 0) (offset c)) = p /\
    (exists sb j, found E main p sb j) /\ (exists mb j, found E main (plus p o1) mb j) /\
    found E m q b i /\ found E m12 q b12 i /\ st_meta (state b12 i) <> st_meta (state b i).
Proof.
  exists toy_full, toy_world, way_there, way_back, way_short, main_way, ∅, 4095.
  split; [plain|]. split; [plain|]. split; [plain|].
  split; [apply (two_keys _ (V3 1 0 0)), (near_origin (V3 1 0 0)); by right; left|]. split; [lia|].
  split; [apply (two_blocks _ _ _ block_here block_there); [apply here_read|apply there_read|apply healthyb_ok; by vm_compute|apply healthyb_ok; by vm_compute]|].
  split. { apply (two_blocks _ _ _ block_here block_there); [apply here_read|apply there_read|intros H; vm_compute in H; discriminate|]. intros _. apply map_Forall_empty. }
  split; [done|]. split; [done|]. split; [done|].
  split. { exists (V3 16 0 0), (V3 (-15) 0 0). do 5 (split; [done|]). intros [x y z]. unfold selected, inside; cbn. lia. }
  destruct (ran_ok toy_world main_way ∅ way_short (warnings way_short ++ closing 0) (fun m =>
    block_is m 0 seen (false, Some (secret true)))) as (m & Run & H); [by vm_compute|].
  destruct (ran_ok toy_world main_way ∅ way_there (warnings way_there ++ closing 0) (fun m1 =>
    ran toy_world m1 ∅ way_back (warnings way_back ++ closing 0) (fun m12 =>
      block_is m12 0 seen (false, Some (secret false))))) as (m1 & Run1 & H1); [by vm_compute|].
  destruct (ran_ok _ _ _ _ _ _ H1) as (m12 & Run12 & H12).
  destruct (block_is_in _ _ _ H) as (x & b & Hx & Hd & Hs). destruct (block_is_in _ _ _ H12) as (x12 & b12 & Hx12 & Hd12 & Hs12).
  eexists m, _, m12, (V3 0 0 0), (V3 16 0 0), (V3 1 0 0), b, b12, 1. split; [exact Run|]. split; [eexists m1, _, _; split; [exact Run1|exact Run12]|].
  split; [unfold selected, inside; cbn; lia|]. split; [done|]. split; [done|].
  split. { exists block_here, 0. apply (found_at _ 0 (V3 0 0 0) (ser block_here)); [apply near_origin; by left|apply (near_origin (V3 0 0 0)); by left|done|apply here_read|by vm_compute|lia|done]. }
  split. { exists block_there, 0. apply (found_at _ 1 (V3 1 0 0) (ser block_there)); [apply near_origin; by right; left|apply (near_origin (V3 1 0 0)); by right; left|done|apply there_read|by vm_compute|lia|done]. }
  split. { apply (found_at _ 0 (V3 0 0 0) x); [apply near_origin; by left|apply (near_origin (V3 0 0 0)); by left|done|done|exact (f_equal fst Hs)|lia|done]. }
  split. { apply (found_at _ 0 (V3 0 0 0) x12); [apply near_origin; by left|apply (near_origin (V3 0 0 0)); by left|done|done|exact (f_equal fst Hs12)|lia|done]. }
  rewrite (f_equal snd Hs : st_meta (state b 1) = _), (f_equal snd Hs12 : st_meta (state b12 1) = _). exact secrets.
Qed.
