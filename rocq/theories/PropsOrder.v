(** Runs with different row orders and hash orders.  A world [W] chooses the order of
    the rows of every query, an environment [E] the order in which the variables of a
    node are written; see Sys.v and Codec.v. *)
From Verif Require Import SpecOrder SpecSafe OrderProofs OrderFacts SafeProofs Toy ToyRun CmdFacts.
From Verif Require Import Spec.

(** ** C50 *)

(** Missing: maps with contradictory blocks and item names like in [C50_order_refuted]
    (see [plausible]), and runs that panic (see PropsCrash.v). *)
Theorem C50_order_partial : forall E1 E2, same_reading E1 E2 ->
  forall W1 W2 g main input pos, setting E1 W1 g main pos -> setting E2 W2 g main pos ->
  plausible E1 g main input -> same_outcome E1 E2 W1 W2 g main input.
Proof. exact OrderProofs.same_run. Qed.
Print Assumptions C50_order_partial.

(** With the same hash order, the rows can be in any order: the stored bytes are the
    same, on all maps on which the command does not crash. *)
Theorem C50_rows : forall E W1 W2 g main input pos, setting E W1 g main pos -> setting E W2 g main pos ->
  in_place (acmd g) = true \/ acmd g = CDeleteBlocks \/ acmd g = CVacuum ->
  (acmd g = CSetParam2 -> is_Some (aparam2 g)) -> args_fit g -> blocks E main (harmless g) ->
  exists main' l, run_ok E g W1 main input main' l /\ run_ok E g W2 main input main' l.
Proof. exact OrderFacts.same_rows. Qed.
Print Assumptions C50_rows.

(** replaceininv with a new item that looks like the end of an inventory: afterwards,
    variables of a node are read as part of another one, in their hash order. *)
Theorem C50_order_refuted : exists E1 E2 W g main input pos new, same_reading E1 E2 /\
  setting E1 W g main pos /\ setting E2 W g main pos /\
  acmd g = CReplaceInInv /\ new_item g = Some new /\ name_ok new /\ blocks E1 main consistent /\
  (forall k x b, main !! k = Some x -> deserialize E1 x = Ok b ->
     forall i m, metadata b !! i = Some m -> plain_inv (inv m)) /\
  exists main1 main2 l, run_ok E1 g W main input main1 l /\ run_ok E2 g W main input main2 l /\
    ~ same_contents E1 main1 main2.
Proof. exact OrderFacts.order_matters. Qed.
Print Assumptions C50_order_refuted.

(** Stone becomes dirt in the whole map; in the second run all rows are in reverse
    order, and so are all variables. *)
Definition ex_order : args :=
  with_names (Some (bstr "default:stone")) [] (Some (bstr "default:dirt")) (toy_args CReplaceNodes).
Example C50_example_hyps : same_reading toy_full toy_rev /\
  setting toy_full toy_world ex_order toy_main toy_pos /\ setting toy_rev toy_world_rev ex_order toy_main toy_pos /\
  plausible toy_full ex_order toy_main toy_input /\ args_fit ex_order /\ blocks toy_full toy_main (harmless ex_order).
Proof.
  split; [done|].
  assert (setting toy_full toy_world ex_order toy_main toy_pos) as HS
    by (apply toy_setting; [toy_supplied|by vm_compute]).
  split; [exact HS|]. split.
  - apply toy_rev_setting. destruct HS as [HE Hf HW HO Hs Hl Hr Hk]. split; try done.
    intros t m. cbn. apply reverse_Permutation.
  - assert (args_fit ex_order) as Hf by (split; [|done]; intros n [= <-]; by vm_compute).
    split; [split; [exact Hf|apply toy_consistent]|]. split; [exact Hf|done].
Qed.
(** The stored bytes differ, and so does the order of the queried rows. *)
Example C50_example :
  let r1 := toy_run ex_order in
  let r2 := run_with toy_rev toy_world_rev toy_main toy_input ex_order in
  bool_decide (data_at r1 key_a <> data_at r2 key_a) && bool_decide (messages r1 = messages r2) &&
  bool_decide (at_key r1 key_a metadata = at_key r2 key_a metadata) &&
  bool_decide (at_key r1 key_a (fun b => node_name b 1) = Some (Some (bstr "default:dirt"))) &&
  bool_decide (rows toy_world 0 toy_main <> rows toy_world_rev 0 toy_main) = true.
Proof. by vm_compute. Qed.
