(** Property C77: in blocks that register a name more than once, commands with a name act on
    the nodes with the lowest ID of that name, and on no others

    These are C22, C23, C25, C26, C28 and C29 without the assumption that names are registered
    once, and with [picked] for [chosen]. *)
From Verif Require Import SpecPick SpecSafe NodeProofs MetaProofs InvProofs CmdFacts PickFacts Toy ToyRun.
From Verif Require Import Spec.

(** ** C77 *)

Theorem C77_replacenodes : forall E W g main input pos old new, setting E W g main pos ->
  acmd g = CReplaceNodes -> anode g = Some old -> new_node g = Some new -> fits16 new ->
  blocks E main (sound 65533) ->
  edits E W g main input [old]
    (MReplaced (total E main pos (fun bp b => count_if (picked (aarea g) (invert g) [old] bp b))))
    (fun bp b => unselected (aarea g) (invert g) bp \/ lacks [old] b)
    (fun bp b => renamed 1 (picked (aarea g) (invert g) [old] bp b) new b).
Proof. exact NodeProofs.replace_picks. Qed.
Print Assumptions C77_replacenodes.

Example C77_replacenodes_hyps : setting toy_full toy_world twin_replace twin_main (fun _ => V3 0 0 0) /\
  blocks toy_full twin_main (sound 65533) /\ fits16 (bstr "default:dirt") /\
  ~ unique_names twin_block.
Proof.
  split; [apply twin_setting; [split; [done|by split; eexists]|by vm_compute]|]. split; [apply twin_sound|].
  split; [by vm_compute|apply twin_not_unique].
Qed.
(** Node 0 is stone with ID 2, node 1 is stone with ID 1. *)
Example C77_replacenodes_example :
  sees (twin_run twin_replace) [(LInfo, MReplaced 1); (LInfo, MCommitting); (LInfo, MDone)] (fun m =>
    block_is m key_a (fun b => (node_name b 0, node_name b 1, node_name b 2))
      (Some (bstr "default:stone"), Some (bstr "default:dirt"), Some (bstr "air"))) = true.
Proof. by vm_compute. Qed.

Theorem C77_setparam2 : forall E W g main input pos val, setting E W g main pos ->
  acmd g = CSetParam2 -> aparam2 g = Some val ->
  edits E W g main input (o2l (anode g))
    (MParam2 (total E main pos (fun bp b => count_if (picked (aarea g) (invert g) (o2l (anode g)) bp b))))
    (fun bp b => unselected (aarea g) (invert g) bp \/ lacks (o2l (anode g)) b)
    (fun bp b => repainted (picked (aarea g) (invert g) (o2l (anode g)) bp b) val b).
Proof. exact NodeProofs.param2_picks. Qed.
Print Assumptions C77_setparam2.

Example C77_setparam2_hyps : setting toy_full toy_world twin_param2 twin_main (fun _ => V3 0 0 0).
Proof. apply twin_setting; [split; [done|by eexists]|by vm_compute]. Qed.

Theorem C77_deletemeta : forall E W g main input pos, setting E W g main pos ->
  acmd g = CDeleteMeta -> blocks E main meta_in ->
  let P := picked (aarea g) (invert g) (o2l (anode g)) in
  edits E W g main input (o2l (anode g))
    (MMeta (total E main pos (fun bp b => entries (fun i _ => P bp b i) (metadata b))))
    (fun bp b => forall i, is_Some (metadata b !! i) -> ~ P bp b i)
    (fun bp b => metadata_changed (drop_chosen (P bp b)) b).
Proof. exact MetaProofs.delmeta_picks. Qed.
Print Assumptions C77_deletemeta.

Example C77_deletemeta_hyps : setting toy_full toy_world twin_delmeta twin_main (fun _ => V3 0 0 0) /\
  blocks toy_full twin_main meta_in.
Proof. split; [apply twin_setting; [by split|by vm_compute]|apply twin_meta_in]. Qed.
Example C77_deletemeta_example :
  sees (twin_run twin_delmeta) [(LInfo, MMeta 1); (LInfo, MCommitting); (LInfo, MDone)] (fun m =>
    block_is m key_a metadata {[ 0 := twin_meta ]}) = true.
Proof. by vm_compute. Qed.

Theorem C77_deletetimers : forall E W g main input pos, setting E W g main pos ->
  acmd g = CDeleteTimers -> blocks E main timers_in ->
  let P := fun bp b t => picked (aarea g) (invert g) (o2l (anode g)) bp b (tpos t) in
  edits E W g main input (o2l (anode g))
    (MTimers (total E main pos (fun bp b => count_of (P bp b) (timers b))))
    (fun bp b => forall t, t ∈ timers b -> ~ P bp b t)
    (fun bp b b' => norm b' = with_timers (norm b) (filter (fun t => ~ P bp b t) (timers b))).
Proof. exact MetaProofs.deltimers_picks. Qed.
Print Assumptions C77_deletetimers.

Example C77_deletetimers_hyps : setting toy_full toy_world twin_deltimers twin_main (fun _ => V3 0 0 0) /\
  blocks toy_full twin_main timers_in.
Proof. split; [apply twin_setting; [by split|by vm_compute]|apply twin_timers_in]. Qed.

Theorem C77_setmetavar : forall E W g main input pos key, setting E W g main pos ->
  acmd g = CSetMetaVar -> akey g = Some key -> (forall v, avalue g = Some v -> fits32 v) ->
  blocks E main meta_in ->
  let P := picked (aarea g) (invert g) (anodes g) in
  edits E W g main input (anodes g)
    (MVars (total E main pos (fun bp b => entries (fun i m => P bp b i /\ is_Some (vars m !! key)) (metadata b))))
    (fun bp b => forall i m, metadata b !! i = Some m -> P bp b i -> vars m !! key = None)
    (fun bp b => metadata_changed (change_chosen (change_var key (avalue g)) (P bp b)) b).
Proof. exact MetaProofs.setvar_picks. Qed.
Print Assumptions C77_setmetavar.

Example C77_setmetavar_hyps : setting toy_full toy_world twin_setvar twin_main (fun _ => V3 0 0 0) /\
  blocks toy_full twin_main meta_in /\ fits32 (bstr "me").
Proof.
  split; [apply twin_setting; [split; [done|by eexists]|by vm_compute]|]. split; [apply twin_meta_in|by vm_compute].
Qed.

Theorem C77_replaceininv : forall E W g main input pos item, setting E W g main pos ->
  acmd g = CReplaceInInv -> aitem g = Some item ->
  let new := if adelete g then None else Some (default item (new_item g)) in
  (forall n, new = Some n -> plain_name n) ->
  blocks E main meta_in ->
  let P := picked (aarea g) (invert g) (anodes g) in
  let s := fun bp b => zsum (fun e => if decide (P bp b e.1) then stacks item (inv e.2) else 0)
                         (map_to_list (metadata b)) in
  (forall k bp x b i m, block_at k bp -> main !! k = Some x -> deserialize E x = Ok b ->
     metadata b !! i = Some m -> P bp b i -> plain_inv (inv m)) ->
  edits E W g main input (anodes g)
    (MStacks (total E main pos s mod 18446744073709551616)
       (total E main pos (fun bp b => entries (fun i m => P bp b i /\ 0 < stacks item (inv m)) (metadata b))))
    (fun bp b => forall i m, metadata b !! i = Some m -> P bp b i -> stacks item (inv m) = 0)
    (fun bp b => metadata_changed (change_chosen (fun m => NM (vars m)
       (rewrite_inv item new (delete_meta g) (inv m))) (P bp b)) b).
Proof. exact InvProofs.replinv_picks. Qed.
Print Assumptions C77_replaceininv.

Example C77_replaceininv_hyps : setting toy_full toy_world twin_replinv twin_main (fun _ => V3 0 0 0) /\
  blocks toy_full twin_main meta_in /\
  blocks toy_full twin_main (fun b => forall i m, metadata b !! i = Some m -> plain_inv (inv m)) /\
  plain_name (bstr "default:cobble").
Proof.
  split; [apply twin_setting; [split; [done|by eexists]|by vm_compute]|]. split; [apply twin_meta_in|].
  split; [apply twin_plain|].
  intros [l H]. apply (f_equal last) in H. change (bstr "EndInventory") with (bstr "EndInventor" ++ [x79]) in H.
  by rewrite app_assoc, last_snoc in H.
Qed.
Example C77_replaceininv_example :
  sees (twin_run twin_replinv) [(LInfo, MStacks 1 1); (LInfo, MCommitting); (LInfo, MDone)] (fun m =>
    block_is m key_a (fun b => (inv <$> metadata b !! 0, inv <$> metadata b !! 1)) (Some twin_inv,
      Some (nl [bstr "List main 1"; bstr "Item default:cobble 5"; bstr "EndInventoryList"; bstr "EndInventory"]))) = true.
Proof. by vm_compute. Qed.

(** ** C52 *)

(** "Partial": names are registered once; see C52_registered_twice_refuted in PropsCmd.v. *)
Theorem C52_gone_partial : forall E W g main input pos old new, setting E W g main pos ->
  acmd g = CReplaceNodes -> anode g = Some old -> new_node g = Some new -> fits16 new ->
  blocks E main (sound 65533) -> blocks E main unique_names ->
  exists main' l, run_ok E g W main input main' l /\
    forall k y b i, main' !! k = Some y -> deserialize E y = Ok b -> 0 <= i < 4096 ->
      ~ chosen (aarea g) (invert g) [old] (pos k) b i.
Proof. exact PickFacts.replace_gone. Qed.
Print Assumptions C52_gone_partial.

(** What is left otherwise: the nodes that had another than the lowest ID of the name. *)
Theorem C52_remaining : forall E W g main input pos old new, setting E W g main pos ->
  acmd g = CReplaceNodes -> anode g = Some old -> new_node g = Some new -> fits16 new ->
  blocks E main (sound 65533) ->
  exists main' l, run_ok E g W main input main' l /\
    forall k y b' i, main' !! k = Some y -> deserialize E y = Ok b' -> 0 <= i < 4096 ->
      exists x b, main !! k = Some x /\ deserialize E x = Ok b /\
        (chosen (aarea g) (invert g) [old] (pos k) b' i <->
         chosen (aarea g) (invert g) [old] (pos k) b i /\ ~ has_lowest b i old).
Proof. exact PickFacts.replace_leaves. Qed.
Print Assumptions C52_remaining.

(** The hypotheses are those of C22_example_hyps and C77_replacenodes_hyps, whose examples
    show the runs: node 0 of the latter is still stone.  The first block has such nodes. *)
Example C52_example : chosen None false [bstr "default:stone"] (V3 0 0 0) twin_block 0 /\
  ~ has_lowest twin_block 0 (bstr "default:stone") /\ has_lowest twin_block 1 (bstr "default:stone").
Proof.
  split; [by apply (bool_decide_unpack _); vm_compute|].
  split; [by apply (bool_decide_eq_false_1 _); vm_compute|by apply (bool_decide_unpack _); vm_compute].
Qed.
