(** Properties C07, C19-C31, C36, C37: whole runs of the commands that edit or
    delete blocks of a map

    [setting]: nothing fails and the arguments are accepted; faults are the subject
    of PropsSafe.v.  The examples run the commands on the small map of ToyRun.v. *)
From Verif Require Import SpecSafe CmdFacts NodeProofs MetaProofs ObjProofs InvProofs WholeProofs SafeProofs
  QueryProofs Toy ToyRun.
From Verif Require Import Spec.

(** ** C07 *)

Theorem C07_visited_blocks : forall W s w d m names a inv partial,
  no_faults W -> world_ok W -> area_ok a ->
  db s = MDB (Conn d (Some m)) true -> in_tr (get_db w s) = true ->
  keys_ok (view (cn (get_db w s))) ->
  exists keys s', query_keys w names a inv partial W s = (Done keys, s') /\
    db s' = db s /\ idb s' = idb s /\ NoDup keys /\
    (forall k, k ∈ keys <-> exists bp x, block_at k bp /\ view (cn (get_db w s)) !! k = Some x /\
       visit a inv partial bp /\ mentions names x) /\
    exists t, sublist keys (rows W t (view (cn (get_db w s)))).*1.
Proof. exact WholeProofs.query_exact. Qed.
Print Assumptions C07_visited_blocks.

Definition ex_open (m : mapdata) : sys :=
  Sys (MDB (Conn m (Some m)) true) (MDB (Conn ∅ None) false) false 0 status_new [].
Definition ex_rows : mapdata := list_to_map
  [(key_a, [z2b 28] ++ string16 (bstr "default:stone") ++ string16 (bstr "mobs:rat") ++ string16 (bstr "default:chest"));
   (key_b, [z2b 29; z2b 0]); (key_c, [z2b 27] ++ string16 (bstr "default:stone")); (key_d, [z2b 29])].
Definition ex_query (W : world) (names : list bytes) (a : option area) (inv partial : bool) : list Z :=
  match query_keys Main names a inv partial W (ex_open ex_rows) with (Done keys, _) => keys | _ => [] end.
(** Blocks (0,0,0), (-1,0,2), (1,0,0), (2,0,0) are stored; the area touches the first
    and the third and contains the third. *)
Example C07_example :
  let a := Some (Area (V3 3 (-5) (-5)) (V3 31 20 20)) in
  ex_query toy_world [] None false true ≡ₚ [key_a; key_b; key_c; key_d] /\
  ex_query toy_world_rev [] None false true = reverse (ex_query toy_world [] None false true) /\
  ex_query toy_world [] a false true ≡ₚ [key_a; key_c] /\
  ex_query toy_world [] a false false = [key_c] /\
  ex_query toy_world [] a true true ≡ₚ [key_a; key_b; key_d] /\
  ex_query toy_world [] a true false ≡ₚ [key_b; key_d] /\
  ex_query toy_world [bstr "default:dirt"] None false true ≡ₚ [key_b; key_d] /\
  ex_query toy_world [bstr "default:stone"] a false true ≡ₚ [key_a; key_c].
Proof. vm_compute. repeat split; by apply (bool_decide_unpack _). Qed.

(** ** C19 *)

Theorem C19_fill : forall E W g main input pos a node, setting E W g main pos ->
  acmd g = CFill -> aarea g = Some a -> new_node g = Some node -> fits16 node ->
  blocks E main (sound 65533) ->
  exists n, edits E W g main input [] (MFilled n) (fun bp _ => unselected (Some a) (invert g) bp)
    (fun bp => renamed 0 (fun i => selected (Some a) (invert g) (abs_pos bp i)) node).
Proof. exact CmdFacts.fill_effect. Qed.
Print Assumptions C19_fill.

Definition ex_fill : args :=
  with_names None [] (Some (bstr "default:dirt"))
    (with_area (Area (V3 (-3) 0 0) (V3 1 0 40)) false (toy_args CFill)).
Example C19_example_hyps : setting toy_full toy_world ex_fill toy_main toy_pos /\
  blocks toy_full toy_main (sound 65533) /\ fits16 (bstr "default:dirt").
Proof.
  split; [apply toy_setting; [toy_supplied|by vm_compute]|].
  split; [by apply toy_sound_upto|by vm_compute].
Qed.
(** In block (0,0,0) two of the first three nodes are in the area, in block (-1,0,2)
    (which begins at x = -16, z = 32) the nodes with x = 13, 14, 15. *)
Example C19_example :
  sees (toy_run ex_fill) [(LInfo, MFilled 59); (LInfo, MCommitting); (LInfo, MDone)] (fun m =>
    block_is m key_a (fun b => (node_name b 0, node_name b 1, node_name b 2, node_name b 5))
      (Some (bstr "default:dirt"), Some (bstr "default:dirt"), Some (bstr "air"), Some (bstr "default:chest")) &&
    block_is m key_b (fun b => (node_name b 12, node_name b 13, node_name b (15 + 256 * 8), node_name b (15 + 256 * 9)))
      (Some (bstr "default:stone"), Some (bstr "default:dirt"), Some (bstr "default:dirt"), Some (bstr "default:stone")) &&
    raw_is m key_c junk_c) = true.
Proof. by vm_compute. Qed.

(** ** C20 *)

(** Missing: inverted areas, for which the number is wrong (below). *)
Theorem C20_fill_partial : forall E W g main input pos a node, setting E W g main pos ->
  acmd g = CFill -> aarea g = Some a -> new_node g = Some node -> fits16 node ->
  blocks E main (sound 65533) -> invert g = false ->
  reports E W g main input (MFilled (total E main pos
    (fun bp _ => count_if (fun i => selected (Some a) (invert g) (abs_pos bp i))))).
Proof. exact CmdFacts.fill_reports. Qed.
Print Assumptions C20_fill_partial.

(** In a block partly in the area, the nodes that were not changed are counted. *)
Theorem C20_fill_refuted : exists E W g main input pos a node, setting E W g main pos /\
  acmd g = CFill /\ aarea g = Some a /\ new_node g = Some node /\ fits16 node /\
  blocks E main consistent /\
  exists n main' failed,
    run_ok E g W main input main' (warnings g ++ [(LInfo, MFilled n)] ++ closing failed) /\
    n <> total E main pos (fun bp _ => count_if (fun i => selected (Some a) (invert g) (abs_pos bp i))).
Proof. exact CmdFacts.fill_inverted_count. Qed.
Print Assumptions C20_fill_refuted.

Theorem C20_replacenodes : forall E W g main input pos old new, setting E W g main pos ->
  acmd g = CReplaceNodes -> anode g = Some old -> new_node g = Some new -> fits16 new ->
  blocks E main (sound 65533) -> blocks E main unique_names ->
  reports E W g main input
    (MReplaced (total E main pos (fun bp b => count_if (chosen (aarea g) (invert g) [old] bp b)))).
Proof. exact CmdFacts.replace_reports. Qed.
Print Assumptions C20_replacenodes.

Theorem C20_setparam2 : forall E W g main input pos val, setting E W g main pos ->
  acmd g = CSetParam2 -> aparam2 g = Some val ->
  (is_Some (anode g) -> blocks E main unique_names) ->
  reports E W g main input
    (MParam2 (total E main pos (fun bp b => count_if (chosen (aarea g) (invert g) (o2l (anode g)) bp b)))).
Proof. exact CmdFacts.param2_reports. Qed.
Print Assumptions C20_setparam2.

Theorem C20_deletemeta : forall E W g main input pos, setting E W g main pos ->
  acmd g = CDeleteMeta -> blocks E main meta_in ->
  (is_Some (anode g) -> blocks E main unique_names) ->
  reports E W g main input (MMeta (total E main pos (fun bp b =>
    entries (fun i _ => chosen (aarea g) (invert g) (o2l (anode g)) bp b i) (metadata b)))).
Proof. exact CmdFacts.delmeta_reports. Qed.
Print Assumptions C20_deletemeta.

Theorem C20_deletetimers : forall E W g main input pos, setting E W g main pos ->
  acmd g = CDeleteTimers -> blocks E main timers_in ->
  (is_Some (anode g) -> blocks E main unique_names) ->
  reports E W g main input (MTimers (total E main pos (fun bp b =>
    count_of (fun t => chosen (aarea g) (invert g) (o2l (anode g)) bp b (tpos t)) (timers b)))).
Proof. exact CmdFacts.deltimers_reports. Qed.
Print Assumptions C20_deletetimers.

Theorem C20_deleteobjects : forall E W g main input pos, setting E W g main pos ->
  acmd g = CDeleteObjects ->
  exists del : vec3 -> static_object -> bool,
  (forall bp o, wf_object o -> (is_Some (aarea g) -> in_reach o) -> del bp o = true <->
     object_chosen (aarea g) (invert g) (wanted_object g) (default [] (aitems g)) bp o) /\
  reports E W g main input
    (MObjects (total E main pos (fun bp b => count_of (fun o => del bp o = true) (objects b)))).
Proof. exact CmdFacts.delobj_reports. Qed.
Print Assumptions C20_deleteobjects.

Theorem C20_setmetavar : forall E W g main input pos key, setting E W g main pos ->
  acmd g = CSetMetaVar -> akey g = Some key -> (forall v, avalue g = Some v -> fits32 v) ->
  blocks E main meta_in -> (anodes g <> [] -> blocks E main unique_names) ->
  reports E W g main input (MVars (total E main pos (fun bp b =>
    entries (fun i m => chosen (aarea g) (invert g) (anodes g) bp b i /\ is_Some (vars m !! key)) (metadata b)))).
Proof. exact CmdFacts.setvar_reports. Qed.
Print Assumptions C20_setmetavar.

Theorem C20_replaceininv : forall E W g main input pos item, setting E W g main pos ->
  acmd g = CReplaceInInv -> aitem g = Some item ->
  (adelete g = false -> plain_name (default item (new_item g))) ->
  blocks E main meta_in -> (anodes g <> [] -> blocks E main unique_names) ->
  let P := chosen (aarea g) (invert g) (anodes g) in
  let s := fun bp b => zsum (fun e => if decide (P bp b e.1) then stacks item (inv e.2) else 0)
                         (map_to_list (metadata b)) in
  (forall k bp x b i m, block_at k bp -> main !! k = Some x -> deserialize E x = Ok b ->
     metadata b !! i = Some m -> P bp b i -> plain_inv (inv m)) ->
  reports E W g main input (MStacks (total E main pos s mod 18446744073709551616)
    (total E main pos (fun bp b => entries (fun i m => P bp b i /\ 0 < stacks item (inv m)) (metadata b)))).
Proof. exact CmdFacts.replinv_reports. Qed.
Print Assumptions C20_replaceininv.

(** Numbers for a map of block (0,0,0) alone. *)
Example C20_example :
  total toy_full main_end toy_pos (fun bp b => count_if (chosen None false [bstr "default:chest"] bp b)) = 2 /\
  total toy_full main_end toy_pos (fun bp b => entries (fun i _ => chosen None false [] bp b i) (metadata b)) = 2 /\
  total toy_full main_end toy_pos (fun bp b =>
    count_of (fun t => chosen None false [bstr "default:chest"] bp b (tpos t)) (timers b)) = 1.
Proof. by vm_compute. Qed.

(** ** C21 *)

(** fill changes blocks that are not generated, against the manual; for clone and
    overlay see PropsCopy.v. *)
Theorem C21_fill_refuted : exists E W g main input pos a, setting E W g main pos /\
  acmd g = CFill /\ aarea g = Some a /\ blocks E main consistent /\
  exists main' l k x b, run_ok E g W main input main' l /\
    main !! k = Some x /\ deserialize E x = Ok b /\ not_generated b /\ main' !! k <> Some x.
Proof. exact CmdFacts.fill_not_generated. Qed.
Print Assumptions C21_fill_refuted.

(** ** C22 *)

Theorem C22_replacenodes : forall E W g main input pos old new, setting E W g main pos ->
  acmd g = CReplaceNodes -> anode g = Some old -> new_node g = Some new -> fits16 new ->
  blocks E main (sound 65533) -> blocks E main unique_names ->
  edits E W g main input [old]
    (MReplaced (total E main pos (fun bp b => count_if (chosen (aarea g) (invert g) [old] bp b))))
    (fun bp b => unselected (aarea g) (invert g) bp \/ lacks [old] b)
    (fun bp b => renamed 1 (chosen (aarea g) (invert g) [old] bp b) new b).
Proof. exact NodeProofs.replace_run. Qed.
Print Assumptions C22_replacenodes.

Definition ex_replace : args :=
  with_names (Some (bstr "default:stone")) [] (Some (bstr "default:chest")) (toy_args CReplaceNodes).
Example C22_example_hyps : setting toy_full toy_world ex_replace toy_main toy_pos /\
  blocks toy_full toy_main (sound 65533) /\ blocks toy_full toy_main unique_names /\ fits16 (bstr "default:chest").
Proof.
  split; [apply toy_setting; [split; [done|by split; eexists]|by vm_compute]|].
  split; [by apply toy_sound_upto|]. split; [apply toy_unique|by vm_compute].
Qed.
(** The unreadable block mentions the name, so it counts as skipped; the block that
    is not generated has no such node. *)
Example C22_example :
  sees (toy_run ex_replace) [(LInfo, MReplaced 4097); (LInfo, MSkipped 1); (LInfo, MCommitting); (LInfo, MDone)] (fun m =>
    block_is m key_a (fun b => (node_name b 0, node_name b 1, node_name b 2, bool_decide (metadata b = metadata block_a)))
      (Some (bstr "default:chest"), Some (bstr "default:chest"), Some (bstr "air"), true) &&
    block_is m key_b (fun b => (node_name b 0, node_name b 2048, node_name b 4095))
      (Some (bstr "default:chest"), Some (bstr "default:chest"), Some (bstr "default:chest")) &&
    raw_is m key_c junk_c && raw_is m key_d (ser block_d)) = true.
Proof. by vm_compute. Qed.

(** ** C23 *)

Theorem C23_setparam2 : forall E W g main input pos val, setting E W g main pos ->
  acmd g = CSetParam2 -> aparam2 g = Some val ->
  (is_Some (anode g) -> blocks E main unique_names) ->
  edits E W g main input (o2l (anode g))
    (MParam2 (total E main pos (fun bp b => count_if (chosen (aarea g) (invert g) (o2l (anode g)) bp b))))
    (fun bp b => unselected (aarea g) (invert g) bp \/ lacks (o2l (anode g)) b)
    (fun bp b => repainted (chosen (aarea g) (invert g) (o2l (anode g)) bp b) val b).
Proof. exact NodeProofs.param2_run. Qed.
Print Assumptions C23_setparam2.

Definition ex_param2 : args :=
  with_param2 (Some (z2b 7)) (with_names (Some (bstr "default:chest")) [] None
    (with_area (Area (V3 1 0 0) (V3 10 0 0)) false (toy_args CSetParam2))).
Example C23_example_hyps : setting toy_full toy_world ex_param2 toy_main toy_pos /\
  blocks toy_full toy_main unique_names.
Proof. split; [apply toy_setting; [toy_supplied|by vm_compute]|apply toy_unique]. Qed.
Example C23_example :
  sees (toy_run ex_param2) [(LInfo, MParam2 1); (LInfo, MCommitting); (LInfo, MDone)] (fun m =>
    block_is m key_a (fun b => (node_param2 b 0, node_param2 b 1, node_param2 b 5))
      (Some (z2b 3), Some (z2b 3), Some (z2b 7)) &&
    raw_is m key_b (ser block_b)) = true.
Proof. by vm_compute. Qed.

(** ** C25 *)

Theorem C25_deletemeta : forall E W g main input pos, setting E W g main pos ->
  acmd g = CDeleteMeta -> blocks E main meta_in ->
  (is_Some (anode g) -> blocks E main unique_names) ->
  let P := chosen (aarea g) (invert g) (o2l (anode g)) in
  edits E W g main input (o2l (anode g))
    (MMeta (total E main pos (fun bp b => entries (fun i _ => P bp b i) (metadata b))))
    (fun bp b => forall i, is_Some (metadata b !! i) -> ~ P bp b i)
    (fun bp b => metadata_changed (drop_chosen (P bp b)) b).
Proof. exact MetaProofs.delmeta_run. Qed.
Print Assumptions C25_deletemeta.

Definition ex_delmeta : args := with_area (Area (V3 0 0 0) (V3 4 0 0)) true (toy_args CDeleteMeta).
Example C25_example_hyps : setting toy_full toy_world ex_delmeta toy_main toy_pos /\ blocks toy_full toy_main meta_in.
Proof. split; [apply toy_setting; [toy_supplied|by vm_compute]|apply toy_meta]. Qed.
Example C25_example :
  sees (toy_run ex_delmeta) [(LInfo, MMeta 2); (LInfo, MSkipped 1); (LInfo, MCommitting); (LInfo, MDone)] (fun m =>
    block_is m key_a metadata (delete 5 (metadata block_a)) && block_is m key_b metadata ∅) = true.
Proof. by vm_compute. Qed.

(** ** C26 *)

Theorem C26_deletetimers : forall E W g main input pos, setting E W g main pos ->
  acmd g = CDeleteTimers -> blocks E main timers_in ->
  (is_Some (anode g) -> blocks E main unique_names) ->
  let P := fun bp b t => chosen (aarea g) (invert g) (o2l (anode g)) bp b (tpos t) in
  edits E W g main input (o2l (anode g))
    (MTimers (total E main pos (fun bp b => count_of (P bp b) (timers b))))
    (fun bp b => forall t, t ∈ timers b -> ~ P bp b t)
    (fun bp b b' => norm b' = with_timers (norm b) (filter (fun t => ~ P bp b t) (timers b))).
Proof. exact MetaProofs.deltimers_run. Qed.
Print Assumptions C26_deletetimers.

Definition ex_deltimers : args := with_names (Some (bstr "default:chest")) [] None (toy_args CDeleteTimers).
Example C26_example_hyps : setting toy_full toy_world ex_deltimers toy_main toy_pos /\
  blocks toy_full toy_main timers_in /\ blocks toy_full toy_main unique_names.
Proof.
  split; [apply toy_setting; [by split|by vm_compute]|]. split; [apply toy_timers|apply toy_unique].
Qed.
Example C26_example :
  sees (toy_run ex_deltimers) [(LInfo, MTimers 1); (LInfo, MCommitting); (LInfo, MDone)] (fun m =>
    block_is m key_a timers [NT 300 2000 10] && block_is m key_b timers [NT 17 5 5]) = true.
Proof. by vm_compute. Qed.

(** ** C27 *)

Theorem C27_deleteobjects : forall E W g main input pos, setting E W g main pos ->
  acmd g = CDeleteObjects ->
  exists del : vec3 -> static_object -> bool,
  (forall bp o, wf_object o -> (is_Some (aarea g) -> in_reach o) -> del bp o = true <->
     object_chosen (aarea g) (invert g) (wanted_object g) (default [] (aitems g)) bp o) /\
  edits E W g main input (o2l (wanted_object g))
    (MObjects (total E main pos (fun bp b => count_of (fun o => del bp o = true) (objects b))))
    (fun bp b => forall o, o ∈ objects b -> del bp o = false)
    (fun bp b b' => norm b' = with_objects (norm b) (filter (fun o => del bp o = false) (objects b))).
Proof. exact ObjProofs.delobj_run. Qed.
Print Assumptions C27_deleteobjects.

Definition ex_delrats : args :=
  with_objs (Some (bstr "mobs:rat")) None (with_area (Area (V3 0 0 0) (V3 15 0 0)) false (toy_args CDeleteObjects)).
Definition ex_delitems : args := with_objs None (Some [bstr "default:dirt"]) (toy_args CDeleteObjects).
Example C27_example_hyps : setting toy_full toy_world ex_delrats toy_main toy_pos /\
  blocks toy_full toy_main (fun b => Forall in_reach (objects b)) /\
  setting toy_full toy_world ex_delitems toy_main toy_pos.
Proof.
  split; [apply toy_setting; [toy_supplied|by vm_compute]|]. split.
  - apply (all_blocks_ok _ _ (fun b => forallb (fun o => (vx (f_pos o) <? 2147478648) && (vy (f_pos o) <? 2147478648) &&
      (vz (f_pos o) <? 2147478648)) (objects b))); [by vm_compute|].
    intros b H. rewrite forallb_forall in H. apply Forall_forall. intros o Ho%elem_of_list_In%H.
    rewrite !andb_true_iff, !Z.ltb_lt in Ho. by destruct Ho as [[??]?].
  - apply toy_setting; [by split|by vm_compute].
Qed.
(** The rat at x = 15.5 is nearest to x = 16, outside the area. *)
Example C27_example :
  sees (toy_run ex_delrats) [(LInfo, MObjects 1); (LInfo, MCommitting); (LInfo, MDone)]
    (fun m => block_is m key_a objects (drop 1 (objects block_a))) = true /\
  sees (toy_run ex_delitems) [(LInfo, MObjects 1); (LInfo, MCommitting); (LInfo, MDone)]
    (fun m => block_is m key_a objects (delete 1%nat (objects block_a))) = true.
Proof. by vm_compute. Qed.

(** ** C28 *)

Theorem C28_setmetavar : forall E W g main input pos key, setting E W g main pos ->
  acmd g = CSetMetaVar -> akey g = Some key -> (forall v, avalue g = Some v -> fits32 v) ->
  blocks E main meta_in -> (anodes g <> [] -> blocks E main unique_names) ->
  let P := chosen (aarea g) (invert g) (anodes g) in
  edits E W g main input (anodes g)
    (MVars (total E main pos (fun bp b => entries (fun i m => P bp b i /\ is_Some (vars m !! key)) (metadata b))))
    (fun bp b => forall i m, metadata b !! i = Some m -> P bp b i -> vars m !! key = None)
    (fun bp b => metadata_changed (change_chosen (change_var key (avalue g)) (P bp b)) b).
Proof. exact MetaProofs.setvar_run. Qed.
Print Assumptions C28_setmetavar.

Definition ex_setvar : args :=
  with_var (Some (bstr "owner")) (Some (bstr "me")) false
    (with_names None [bstr "default:stone"; bstr "default:chest"] None
       (with_area (Area (V3 0 0 0) (V3 4 0 0)) false (toy_args CSetMetaVar))).
Definition ex_delvar : args := with_var (Some (bstr "infotext")) None true (toy_args CSetMetaVar).
Example C28_example_hyps : setting toy_full toy_world ex_setvar toy_main toy_pos /\
  setting toy_full toy_world ex_delvar toy_main toy_pos /\
  blocks toy_full toy_main meta_in /\ blocks toy_full toy_main unique_names /\ fits32 (bstr "me").
Proof.
  split; [apply toy_setting; [toy_supplied|by vm_compute]|].
  split; [apply toy_setting; [split; [done|by eexists]|by vm_compute]|].
  split; [apply toy_meta|]. split; [apply toy_unique|by vm_compute].
Qed.
Example C28_example :
  sees (toy_run ex_setvar) [(LInfo, MVars 1); (LInfo, MCommitting); (LInfo, MDone)] (fun m =>
    block_is m key_a metadata (<[0 := NM {[ bstr "owner" := (bstr "me", true) ]} toy_inv]> (metadata block_a))) = true /\
  sees (toy_run ex_delvar) [(LInfo, MVars 1); (LInfo, MSkipped 1); (LInfo, MCommitting); (LInfo, MDone)] (fun m =>
    block_is m key_a (fun b => metadata b !! 5) (Some (NM {[ bstr "owner" := (bstr "sfan5", false) ]} END_STR))) = true.
Proof. by vm_compute. Qed.

(** ** C29 *)

Theorem C29_replaceininv : forall E W g main input pos item, setting E W g main pos ->
  acmd g = CReplaceInInv -> aitem g = Some item ->
  let new := if adelete g then None else Some (default item (new_item g)) in
  (forall n, new = Some n -> plain_name n) ->
  blocks E main meta_in -> (anodes g <> [] -> blocks E main unique_names) ->
  let P := chosen (aarea g) (invert g) (anodes g) in
  let s := fun bp b => zsum (fun e => if decide (P bp b e.1) then stacks item (inv e.2) else 0)
                         (map_to_list (metadata b)) in
  (forall k bp x b i m, block_at k bp -> main !! k = Some x -> deserialize E x = Ok b ->
     metadata b !! i = Some m -> P bp b i -> plain_inv (inv m)) ->
  edits E W g main input (anodes g)
    (MStacks (total E main pos s mod 18446744073709551616)
       (total E main pos (fun bp b => entries (fun i m => P bp b i /\ 0 < stacks item (inv m)) (metadata b))))
    (fun bp b => forall i m, metadata b !! i = Some m -> P bp b i -> stacks item (inv m) = 0)
    (fun bp b => metadata_changed (change_chosen (fun m => NM (vars m)
       (rewrite_inv item new (delete_meta g) (inv m))) (P bp b)) b).
Proof. exact InvProofs.replinv_run. Qed.
Print Assumptions C29_replaceininv.

Definition ex_replinv : args :=
  with_item (Some (bstr "default:stone")) (Some (bstr "default:cobble")) false false
    (with_names None [bstr "default:chest"] None (toy_args CReplaceInInv)).
Example C29_example_hyps : setting toy_full toy_world ex_replinv toy_main toy_pos /\
  blocks toy_full toy_main (fun b => forall i m, metadata b !! i = Some m -> plain_inv (inv m)) /\
  plain_name (bstr "default:cobble").
Proof.
  split; [apply toy_setting; [split; [done|by eexists]|by vm_compute]|]. split.
  - apply (all_blocks_ok _ _ (fun b => forallb (fun e => plainb (inv e.2)) (map_to_list (metadata b))));
      [by vm_compute|]. intros b. apply all_plain.
  - intros [l H]. apply (f_equal last) in H. change (bstr "EndInventory") with (bstr "EndInventor" ++ [x79]) in H.
    by rewrite app_assoc, last_snoc in H.
Qed.
Example C29_example :
  sees (toy_run ex_replinv) [(LInfo, MStacks 2 1); (LInfo, MCommitting); (LInfo, MDone)] (fun m =>
    block_is m key_a (fun b => inv <$> metadata b !! 0) (Some (nl [bstr "List main 4"; bstr "Width 0";
      bstr "Item default:cobble 5"; bstr "Empty"; bstr "Item default:cobble"; bstr "Item default:pick 1 300";
      bstr "EndInventoryList"; bstr "EndInventory"])) &&
    raw_is m key_b (ser block_b)) = true.
Proof. by vm_compute. Qed.
Example C29_example_line :
  rewrite_line (bstr "a:b") (Some (bstr "c:d")) true (bstr "Item a:b 5 0 meta") = bstr "Item c:d 5" /\
  rewrite_line (bstr "a:b") (Some (bstr "c:d")) false (bstr "Item a:b 5 0 meta") = bstr "Item c:d 5 0 meta" /\
  rewrite_line (bstr "a:b") None false (bstr "Item a:b 5 0 meta") = bstr "Empty" /\
  rewrite_line (bstr "a:b") None false (bstr "Item a:bc 5") = bstr "Item a:bc 5".
Proof. by vm_compute. Qed.

(** ** C30 *)

(** Missing: new names that end in "EndInventory" (refuted below), and inventories
    in which "EndInventory" occurs before a space or at the end of a longer line. *)
Theorem C30_readable_partial : forall item new dm iv, terminated iv -> plain_inv iv ->
  (forall n, new = Some n -> plain_name n /\ x0a ∉ n) -> terminated (rewrite_inv item new dm iv).
Proof. exact InvProofs.rewrite_terminated. Qed.
Print Assumptions C30_readable_partial.

Example C30_example : plain_inv toy_inv /\ rewrite_inv (bstr "default:pick") None false toy_inv <> toy_inv.
Proof. split; [apply plainb_ok|]; by vm_compute. Qed.

(** A block that was readable is not any more. *)
Theorem C30_readable_refuted : exists E W g main input pos item new, setting E W g main pos /\
  acmd g = CReplaceInInv /\ aitem g = Some item /\ new_item g = Some new /\ name_ok new /\
  blocks E main consistent /\
  exists main' l k x b y, run_ok E g W main input main' l /\
    main !! k = Some x /\ deserialize E x = Ok b /\
    (forall i m, metadata b !! i = Some m -> plain_inv (inv m)) /\
    main' !! k = Some y /\ exists e, deserialize E y = Err e.
Proof. exact CmdFacts.replace_unreadable. Qed.
Print Assumptions C30_readable_refuted.

(** ** C31 *)

Theorem C31_deleteblocks : forall E W g main input pos, setting E W g main pos -> acmd g = CDeleteBlocks ->
  exists main', run_ok E g W main input main' (warnings g ++ closing 0) /\
    (forall k, main !! k = None -> main' !! k = None) /\
    forall k bp, block_at k bp ->
      (visit (aarea g) (invert g) false bp -> main' !! k = None) /\
      (~ visit (aarea g) (invert g) false bp -> main' !! k = main !! k).
Proof. exact WholeProofs.delblocks_run. Qed.
Print Assumptions C31_deleteblocks.

Definition ex_delblocks (inv : bool) : args :=
  with_area (Area (V3 3 (-5) (-5)) (V3 31 20 20)) inv (toy_args CDeleteBlocks).
Example C31_example_hyps inv : setting toy_full toy_world (ex_delblocks inv) toy_main toy_pos.
Proof. apply toy_setting; [toy_supplied|destruct inv; by vm_compute]. Qed.
Example C31_example :
  sees (toy_run (ex_delblocks false)) (closing 0) (fun m =>
    raw_is m key_a (ser block_a) && bool_decide (m !! key_c = None)) = true /\
  sees (toy_run (ex_delblocks true)) (closing 0) (fun m =>
    raw_is m key_c junk_c && bool_decide (m !! key_b = None) && bool_decide (m !! key_d = None)) = true.
Proof. by vm_compute. Qed.

(** ** C36 *)

Theorem C36_filter_keeps : forall W s w d m names a inv partial,
  no_faults W -> world_ok W -> area_ok a ->
  db s = MDB (Conn d (Some m)) true -> in_tr (get_db w s) = true ->
  keys_ok (view (cn (get_db w s))) ->
  exists keys s', query_keys w names a inv partial W s = (Done keys, s') /\
    forall E k bp x b, block_at k bp -> view (cn (get_db w s)) !! k = Some x ->
      visit a inv partial bp -> deserialize E x = Ok b ->
      ((exists id n, nimap b !! id = Some n /\ n ∈ names) \/
       (exists o n dt, o ∈ objects b /\ entity o n dt /\ n ∈ names)) -> k ∈ keys.
Proof. exact CmdFacts.filter_keeps. Qed.
Print Assumptions C36_filter_keeps.

Example C36_example :
  ex_query toy_world [bstr "default:chest"] None false true ≡ₚ [key_a; key_b; key_d] /\
  ex_query toy_world [bstr "mobs:rat"] None false true ≡ₚ [key_a; key_b; key_d] /\
  ex_query toy_world [bstr "mobs:cat"] None false true ≡ₚ [key_b; key_d].
Proof. vm_compute. repeat split; by apply (bool_decide_unpack _). Qed.

(** ** C37 *)

Theorem C37_unreadable_skipped : forall E W g main input pos, setting E W g main pos ->
  in_place (acmd g) = true -> (acmd g = CSetParam2 -> is_Some (aparam2 g)) -> args_fit g ->
  blocks E main (harmless g) -> skips E W g main input.
Proof. exact SafeProofs.in_place_skips. Qed.
Print Assumptions C37_unreadable_skipped.

(** Block (1,0,0) is unreadable, see also C22, C25. *)
Example C37_example :
  sees (toy_run (with_confirm true ex_replace))
    [(LWarning, MDanger); (LInfo, MReplaced 4097); (LInfo, MSkipped 1); (LInfo, MCommitting); (LInfo, MDone)]
    (fun m => raw_is m key_c junk_c) = true /\
  (forall g, blocks toy_full toy_main (harmless g)) /\ in_place (acmd ex_replace) = true.
Proof.
  split; [by vm_compute|]. split; [|done]. intros g k x b Hk Hd. by eapply consistent_harmless, toy_consistent.
Qed.

(** ** C52 *)

Theorem C52_registered_twice_refuted : exists E W g main input pos old, setting E W g main pos /\
  acmd g = CReplaceNodes /\ anode g = Some old /\ blocks E main (sound 65533) /\
  exists main' l k y b i, run_ok E g W main input main' l /\
    main' !! k = Some y /\ deserialize E y = Ok b /\ 0 <= i < 4096 /\
    chosen (aarea g) (invert g) [old] (pos k) b i.
Proof. exact CmdFacts.replace_misses. Qed.
Print Assumptions C52_registered_twice_refuted.
