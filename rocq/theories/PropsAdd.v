(** Counts on parts of an area *)
From Verif Require Import Toy ToyRun CmdFacts CopyFacts.
From Verif Require AddProofs AddFacts AgainFacts.
From Verif Require Import SpecAdd Spec.

(** ** C79 *)

(** If an area is divided into two, the numbers that a command reports for the parts, one
    after the other, add up to the number that it reports for the whole.  "Partial": see
    the refutations below. *)
Theorem C79_add_partial : forall E W W1 W2 g a1 i1 a2 i2 main input n,
  let g1 := on_area a1 i1 g in let g2 := on_area a2 i2 g in
  fair E W g input -> fair E W1 g1 input -> fair E W2 g2 input ->
  keys_ok main -> 4095 <= n <= 7280 -> blocks E main (healthy n) ->
  in_place (acmd g) = true ->
  (acmd g = CDeleteObjects -> all_objects E main (fun bp o => in_reach o /\ home bp o)) ->
  (acmd g = CDeleteMeta -> blocks E main storable) ->
  (acmd g = CFill -> invert g = false /\ i1 = false /\ i2 = false) ->
  (forall p, selected (aarea g) (invert g) p <-> selected a1 i1 p \/ selected a2 i2 p) ->
  disjoint_areas g1 g2 ->
  exists m c m1 c1 m12 c2, told E W g main input m c /\
    told E W1 g1 main input m1 c1 /\ told E W2 g2 m1 input m12 c2 /\ sums c c1 c2.
Proof. exact AddProofs.parts_add. Qed.
Print Assumptions C79_add_partial.

(** Storing a block after the first run loses metadata without variables and items, which
    deletemeta counts. *)
Theorem C79_blank_refuted : exists E W g a1 a2 main input n,
  let g1 := on_area (Some a1) false g in let g2 := on_area (Some a2) false g in
  fair E W g input /\ fair E W g1 input /\ fair E W g2 input /\ keys_ok main /\ 4095 <= n <= 7280 /\
  blocks E main (healthy n) /\ acmd g = CDeleteMeta /\
  (forall p, selected (aarea g) (invert g) p <-> selected (Some a1) false p \/ selected (Some a2) false p) /\ disjoint_areas g1 g2 /\
  exists m c m1 c1 m12 c2, told E W g main input m c /\
    told E W g1 main input m1 c1 /\ told E W g2 m1 input m12 c2 /\ ~ sums c c1 c2.
Proof. exact AddFacts.blank_parts. Qed.
Print Assumptions C79_blank_refuted.

(** An object inside one part, stored in a block of the other, is only deleted as part of
    the whole. *)
Theorem C79_objects_refuted : exists E W g a1 a2 main input n,
  let g1 := on_area (Some a1) false g in let g2 := on_area (Some a2) false g in
  fair E W g input /\ fair E W g1 input /\ fair E W g2 input /\ keys_ok main /\ 4095 <= n <= 7280 /\
  blocks E main (healthy n) /\ all_objects E main (fun _ o => in_reach o) /\ acmd g = CDeleteObjects /\
  (forall p, selected (aarea g) (invert g) p <-> selected (Some a1) false p \/ selected (Some a2) false p) /\ disjoint_areas g1 g2 /\
  exists m c m1 c1 m12 c2, told E W g main input m c /\
    told E W g1 main input m1 c1 /\ told E W g2 m1 input m12 c2 /\ ~ sums c c1 c2.
Proof. exact AddFacts.objects_parts. Qed.
Print Assumptions C79_objects_refuted.

(** fill with --invert counts the wrong nodes of a block partly in the area (C20). *)
Theorem C79_fill_refuted : exists E W g a1 a2 main input n,
  let g1 := on_area (Some a1) false g in let g2 := on_area (Some a2) true g in
  fair E W g input /\ fair E W g1 input /\ fair E W g2 input /\ keys_ok main /\ 4095 <= n <= 7280 /\
  blocks E main (healthy n) /\ acmd g = CFill /\
  (forall p, selected (aarea g) (invert g) p <-> selected (Some a1) false p \/ selected (Some a2) true p) /\ disjoint_areas g1 g2 /\
  exists m c m1 c1 m12 c2, told E W g main input m c /\
    told E W g1 main input m1 c1 /\ told E W g2 m1 input m12 c2 /\ ~ sums c c1 c2.
Proof. exact AddFacts.fill_parts. Qed.
Print Assumptions C79_fill_refuted.

(** Chests become dirt in a part of the map, and then elsewhere. *)
Definition ex_all : args :=
  with_names (Some (bstr "default:chest")) [] (Some (bstr "default:dirt")) (toy_args CReplaceNodes).
Definition ex_part : area := Area (V3 0 0 0) (V3 3 0 0).
Definition ex_in : args := on_area (Some ex_part) false ex_all.
Definition ex_out : args := on_area (Some ex_part) true ex_all.
Example C79_example_hyps : fair toy_full toy_world ex_all ∅ /\ fair toy_full toy_world ex_in ∅ /\
  fair toy_full toy_world_rev ex_out ∅ /\
  keys_ok main_end /\ 4095 <= 4095 <= 7280 /\ blocks toy_full main_end (healthy 4095) /\ in_place (acmd ex_all) = true /\
  (forall p, selected (aarea ex_all) (invert ex_all) p <-> selected (Some ex_part) false p \/ selected (Some ex_part) true p) /\
  disjoint_areas ex_in ex_out.
Proof.
  assert (forall g, new_node g = Some (bstr "default:dirt") -> avalue g = None -> args_fit g) as Hfit.
  { intros g H1 H2. split; [intros n; rewrite H1; intros [= <-]; by vm_compute|intros v; by rewrite H2]. }
  assert (forall g, aitem g = None -> new_item g = None -> tame g) as Ht by (intros g H1 H2 n [H|H]; congruence).
  split; [apply AgainFacts.toy_fair; [toy_supplied|by vm_compute|by apply Hfit|by apply Ht|done|apply AgainFacts.keys_none|by left]|].
  split; [apply AgainFacts.toy_fair; [toy_supplied|by vm_compute|by apply Hfit|by apply Ht|done|apply AgainFacts.keys_none|by left]|].
  split; [apply AgainFacts.toy_fair; [toy_supplied|by vm_compute|by apply Hfit|by apply Ht|done|apply AgainFacts.keys_none|by right]|].
  split; [exact AgainFacts.end_keys|]. split; [lia|]. split; [exact AgainFacts.end_healthy|]. split; [done|].
  split; intros [x y z]; unfold selected, inside; cbn; [|lia]. split; [intros _; lia|done].
Qed.
Example C79_example :
  let l := fun c => warnings ex_all ++ [(LInfo, MReplaced c)] ++ closing 0 in
  ran toy_world main_end ∅ ex_all (l 2) (fun _ => true) &&
  ran toy_world main_end ∅ ex_in (l 1) (fun m => ran toy_world_rev m ∅ ex_out (l 1) (fun _ => true)) = true.
Proof. by vm_compute. Qed.
