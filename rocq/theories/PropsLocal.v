(** Commands node by node, and on several areas *)
From Verif Require Import SpecGone Toy ToyRun CmdFacts CopyFacts.
From Verif Require LocalProofs LocalFacts AgainFacts.
From Verif Require Import SpecLocal Spec.

(** ** C65 *)

(** For each of the eight commands that edit blocks in place: every node of every
    readable block becomes what the command makes of that node alone.  Which objects
    are deleted depends on the arguments, the block position and the object. *)
Theorem C65_node_by_node : forall g, exists del : vec3 -> static_object -> bool,
  (forall bp o, wf_object o -> (is_Some (aarea g) -> in_reach o) -> del bp o = true <->
    acmd g = CDeleteObjects /\
    object_chosen (aarea g) (invert g) (wanted_object g) (default [] (aitems g)) bp o) /\
  forall E W main input pos, setting E W g main pos -> in_place (acmd g) = true -> plausible E g main input ->
    exists main' l, run_ok E g W main input main' l /\ each_block E main main' (acted g del).
Proof. exact LocalProofs.node_by_node. Qed.
Print Assumptions C65_node_by_node.

(** Chests become dirt where x is 0 to 3; the node at 1 is stone, and there is a chest at 5. *)
Definition ex_dirt : args :=
  with_area (Area (V3 0 0 0) (V3 3 0 0)) false
    (with_names (Some (bstr "default:chest")) [] (Some (bstr "default:dirt")) (toy_args CReplaceNodes)).
Example C65_example_hyps : setting toy_full toy_world ex_dirt main_end from_block_key /\
  plausible toy_full ex_dirt main_end ∅.
Proof.
  assert (args_fit ex_dirt) as Hfit by (split; [|done]; intros n [= <-]; by vm_compute).
  assert (fair toy_full toy_world ex_dirt ∅) as HF.
  { apply AgainFacts.toy_fair; [toy_supplied|by vm_compute|exact Hfit|by intros n [?|?]|done|apply AgainFacts.keys_none|by left]. }
  split; [exact (KeepProofs.fair_setting _ _ _ _ _ HF AgainFacts.end_keys)|].
  apply (LocalProofs.healthy_plausible toy_full toy_world ex_dirt main_end ∅ 4095); [exact HF|done|lia|exact AgainFacts.end_healthy].
Qed.
Example C65_example :
  hit ex_dirt (V3 0 0 0) (NodeState (Some (bstr "default:chest")) None None None) /\
  ~ hit ex_dirt (V3 1 0 0) (NodeState (Some (bstr "default:stone")) None None None) /\
  ~ hit ex_dirt (V3 5 0 0) (NodeState (Some (bstr "default:chest")) None None None) /\
  sees (run_with toy_full toy_world main_end ∅ ex_dirt) ((LInfo, MReplaced 1) :: closing 0) (fun m =>
    block_is m key_a (fun b => node_name b <$> [0; 1; 2; 5])
      (Some <$> [bstr "default:dirt"; bstr "default:stone"; bstr "air"; bstr "default:chest"])) = true.
Proof.
  split; [by apply (bool_decide_unpack _); vm_compute|]. split; [by apply (bool_decide_unpack _); vm_compute|].
  split; [by apply (bool_decide_unpack _); vm_compute|]. vm_compute. reflexivity.
Qed.

(** ** C66 *)

(** Two commands, the same or different ones, on areas without common nodes: their order
    makes no difference. *)
Theorem C66_order : forall E W1 W2 W3 W4 g1 g2 main input1 input2 n,
  fair E W1 g1 input1 -> fair E W2 g2 input2 -> fair E W3 g2 input2 -> fair E W4 g1 input1 ->
  keys_ok main -> 4095 <= n <= 7280 -> blocks E main (healthy n) ->
  in_place (acmd g1) = true -> in_place (acmd g2) = true -> disjoint_areas g1 g2 ->
  exists m1 l1 m12 l12 m2 l2 m21 l21,
    (run_ok E g1 W1 main input1 m1 l1 /\ run_ok E g2 W2 m1 input2 m12 l12) /\
    (run_ok E g2 W3 main input2 m2 l2 /\ run_ok E g1 W4 m2 input1 m21 l21) /\ same_contents E m12 m21.
Proof. exact LocalProofs.commute. Qed.
Print Assumptions C66_order.

(** One command on two areas, one after the other, does the same as on both at once; they
    may overlap.  "Partial": for deleteobjects only if the objects are stored in the
    blocks they are in, see the refutation below. *)
Theorem C66_split_partial : forall E W W1 W2 g a1 i1 a2 i2 main input n,
  let g1 := on_area a1 i1 g in let g2 := on_area a2 i2 g in
  fair E W g input -> fair E W1 g1 input -> fair E W2 g2 input ->
  keys_ok main -> 4095 <= n <= 7280 -> blocks E main (healthy n) ->
  in_place (acmd g) = true ->
  (acmd g = CDeleteObjects -> all_objects E main (fun bp o => in_reach o /\ home bp o)) ->
  (forall p, selected (aarea g) (invert g) p <-> selected a1 i1 p \/ selected a2 i2 p) ->
  exists m l m1 l1 m12 l12, run_ok E g W main input m l /\
    (run_ok E g1 W1 main input m1 l1 /\ run_ok E g2 W2 m1 input m12 l12) /\ same_contents E m m12.
Proof. exact LocalProofs.split. Qed.
Print Assumptions C66_split_partial.

Theorem C66_objects_refuted : exists E W g a1 a2 main input n,
  let g1 := on_area (Some a1) false g in let g2 := on_area (Some a2) false g in
  fair E W g input /\ fair E W g1 input /\ fair E W g2 input /\ keys_ok main /\ 4095 <= n <= 7280 /\
  blocks E main (healthy n) /\ all_objects E main (fun _ o => in_reach o) /\ acmd g = CDeleteObjects /\
  (forall p, selected (aarea g) (invert g) p <-> selected (Some a1) false p \/ selected (Some a2) false p) /\
  exists m l m1 l1 m12 l12, run_ok E g W main input m l /\
    (run_ok E g1 W main input m1 l1 /\ run_ok E g2 W m1 input m12 l12) /\ ~ same_contents E m m12.
Proof. exact LocalFacts.objects_split. Qed.
Print Assumptions C66_objects_refuted.

(** Chests become dirt at some nodes, and param2 changes at others; and an area
    together with the inverted area is the whole map. *)
Definition ex_paint : args :=
  with_area (Area (V3 4 0 0) (V3 5 0 0)) false (with_param2 (Some x07) (toy_args CSetParam2)).
Definition ex_whole : args :=
  with_names (Some (bstr "default:chest")) [] (Some (bstr "default:dirt")) (toy_args CReplaceNodes).
Definition ex_box : area := Area (V3 0 0 0) (V3 3 0 0).
Example C66_example_hyps : fair toy_full toy_world ex_dirt ∅ /\ fair toy_full toy_world_rev ex_paint ∅ /\
  keys_ok main_end /\ blocks toy_full main_end (healthy 4095) /\ disjoint_areas ex_dirt ex_paint /\
  fair toy_full toy_world ex_whole ∅ /\
  fair toy_full toy_world (on_area (Some ex_box) false ex_whole) ∅ /\
  fair toy_full toy_world (on_area (Some ex_box) true ex_whole) ∅ /\
  forall p, selected (aarea ex_whole) (invert ex_whole) p <->
    selected (Some ex_box) false p \/ selected (Some ex_box) true p.
Proof.
  assert (forall g, new_node g = Some (bstr "default:dirt") -> avalue g = None -> args_fit g) as Hfit.
  { intros g H1 H2. split; [intros n; rewrite H1; intros [= <-]; by vm_compute|intros v; by rewrite H2]. }
  assert (forall g, aitem g = None -> new_item g = None -> tame g) as Ht by (intros g H1 H2 n [H|H]; congruence).
  split; [apply AgainFacts.toy_fair; [toy_supplied|by vm_compute|by apply Hfit|by apply Ht|done|apply AgainFacts.keys_none|by left]|].
  split; [apply AgainFacts.toy_fair; [toy_supplied|by vm_compute|done|by apply Ht|by eexists|apply AgainFacts.keys_none|by right]|].
  split; [exact AgainFacts.end_keys|]. split; [exact AgainFacts.end_healthy|].
  split; [intros [x y z] H1 H2; unfold selected, inside in *; cbn in *; lia|].
  split; [apply AgainFacts.toy_fair; [toy_supplied|by vm_compute|by apply Hfit|by apply Ht|done|apply AgainFacts.keys_none|by left]|].
  split; [apply AgainFacts.toy_fair; [toy_supplied|by vm_compute|by apply Hfit|by apply Ht|done|apply AgainFacts.keys_none|by left]|].
  split; [apply AgainFacts.toy_fair; [toy_supplied|by vm_compute|by apply Hfit|by apply Ht|done|apply AgainFacts.keys_none|by left]|].
  intros [x y z]. unfold selected, inside; cbn. split; [intros _; lia|done].
Qed.
(** Both orders, and what the nodes are then *)
Definition ex_view (m : mapdata) : bool :=
  block_is m key_a (fun b => (node_name b <$> [0; 5], node_param2 b <$> [0; 5]))
    (Some <$> [bstr "default:dirt"; bstr "default:chest"], Some <$> [x03; x07]).
Example C66_example :
  ran toy_world main_end ∅ ex_dirt (warnings ex_dirt ++ [(LInfo, MReplaced 1)] ++ closing 0) (fun m =>
    ran toy_world_rev m ∅ ex_paint (warnings ex_paint ++ [(LInfo, MParam2 2)] ++ closing 0) ex_view) = true /\
  ran toy_world_rev main_end ∅ ex_paint (warnings ex_paint ++ [(LInfo, MParam2 2)] ++ closing 0) (fun m =>
    ran toy_world m ∅ ex_dirt (warnings ex_dirt ++ [(LInfo, MReplaced 1)] ++ closing 0) ex_view) = true.
Proof. split; vm_compute; reflexivity. Qed.
