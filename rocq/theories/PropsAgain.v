(** The same command twice *)
From Verif Require Import Toy ToyRun CmdFacts CopyFacts.
From Verif Require AgainProofs AgainFacts PairFacts.
From Verif Require Import SpecAgain Spec.

(** ** C60 *)

(** "Partial": clone must not overwrite what it copies, see the refutation below, and
    blocks of versions below 28 must not hold private variables, which the program
    drops when it stores such a block. *)
Theorem C60_again_partial : forall E W1 W2 g main input n,
  fair E W1 g input -> fair E W2 g input -> keys_ok main -> 4095 <= n -> n + growth g <= 7280 ->
  blocks E main (healthy n) -> blocks E input (healthy n) ->
  (acmd g = CClone -> apart g /\ blocks E main no_early_private) ->
  exists main1 l1 main2 l2, twice E W1 W2 g main input main1 l1 main2 l2 /\ same_contents E main1 main2.
Proof. exact AgainProofs.again_same. Qed.
Print Assumptions C60_again_partial.

Theorem C60_clone_refuted : exists E W1 W2 g main input n, fair E W1 g input /\ fair E W2 g input /\ keys_ok main /\
  4095 <= n /\ n + growth g <= 7280 /\ blocks E main (healthy n) /\ blocks E input (healthy n) /\
  acmd g = CClone /\ blocks E main no_early_private /\
  exists main1 l1 main2 l2, twice E W1 W2 g main input main1 l1 main2 l2 /\ ~ same_contents E main1 main2.
Proof. exact AgainFacts.clone_twice. Qed.
Print Assumptions C60_clone_refuted.

(** The limit on private variables is needed. *)
Theorem C60_private_refuted : exists E W1 W2 g main input n, fair E W1 g input /\ fair E W2 g input /\ keys_ok main /\
  4095 <= n /\ n + growth g <= 7280 /\ blocks E main (healthy n) /\ blocks E input (healthy n) /\
  acmd g = CClone /\ apart g /\
  exists main1 l1 main2 l2, twice E W1 W2 g main input main1 l1 main2 l2 /\ ~ same_contents E main1 main2.
Proof. exact PairFacts.clone_twice_private. Qed.
Print Assumptions C60_private_refuted.

(** The second run leaves every byte as it is. *)
Theorem C60_idle : forall E W1 W2 g main input n,
  fair E W1 g input -> fair E W2 g input -> keys_ok main -> 4095 <= n -> n + growth g <= 7280 ->
  blocks E main (healthy n) -> blocks E input (healthy n) -> idle g ->
  exists main1 l1 l2, twice E W1 W2 g main input main1 l1 main1 l2.
Proof. exact AgainProofs.again_idle. Qed.
Print Assumptions C60_idle.

Theorem C60_found_nothing : forall E W1 W2 g main input n,
  fair E W1 g input -> fair E W2 g input -> keys_ok main -> 4095 <= n -> n + growth g <= 7280 ->
  blocks E main (healthy n) -> blocks E input (healthy n) -> removes g ->
  exists main1 l1 main2 f, twice E W1 W2 g main input main1 l1 main2
    (warnings g ++ [(LInfo, found_nothing g)] ++ closing f).
Proof. exact AgainProofs.again_nothing. Qed.
Print Assumptions C60_found_nothing.

(** Picks in chests become axes; the second run reads the rows in another order. *)
Definition ex_axe : args :=
  with_item (Some (bstr "default:pick")) (Some (bstr "default:axe")) false false (toy_args CReplaceInInv).
Example C60_example_hyps : fair toy_full toy_world ex_axe ∅ /\ fair toy_full toy_world_rev ex_axe ∅ /\
  keys_ok main_end /\ blocks toy_full main_end (healthy 4095) /\ removes ex_axe /\ idle ex_axe.
Proof.
  assert (forall n, n = bstr "default:pick" \/ n = bstr "default:axe" -> plain_name n) as Hp.
  { intros n Hn. intros Hend. assert (last n = Some x79) as H2 by (destruct Hend as [l ->]; by rewrite last_app).
    destruct Hn as [-> | ->]; by vm_compute in H2. }
  assert (removes ex_axe) as Hr.
  { right. exists (bstr "default:axe"). split; [reflexivity|]. by vm_compute. }
  assert (forall W, W = toy_world \/ W = toy_world_rev -> fair toy_full W ex_axe ∅) as Hf.
  { apply AgainFacts.toy_fair; [toy_supplied|by vm_compute|done| |discriminate|apply AgainFacts.keys_none].
    intros n [[= <-]|[= <-]]; apply Hp; auto. }
  split; [by apply Hf; left|]. split; [by apply Hf; right|]. split; [exact AgainFacts.end_keys|].
  split; [exact AgainFacts.end_healthy|]. split; [exact Hr|]. right. right. split; [exact Hr|]. discriminate.
Qed.
(** What the first run reports, and that the second changes and finds nothing *)
Example C60_example :
  match run_with toy_full toy_world main_end ∅ ex_axe with
  | Some (m, l) => bool_decide (l = (LInfo, MStacks 1 1) :: closing 0) &&
      sees (run_with toy_full toy_world_rev m ∅ ex_axe) ((LInfo, MStacks 0 0) :: closing 0) (fun m' => bool_decide (m' = m))
  | None => false
  end = true.
Proof. vm_compute. reflexivity. Qed.

(** A clone that can be repeated *)
Definition ex_apart : args :=
  with_offset (Some (V3 2 0 0)) (with_area (Area (V3 0 0 0) (V3 1 0 0)) false (toy_args CClone)).
Example C60_apart : apart ex_apart /\ blocks toy_full main_end no_early_private.
Proof.
  split.
  - intros a off p [= <-] [= <-]. unfold inside. cbn. lia.
  - apply (one_block (ser block_a) block_a); [apply AgainFacts.end_read|]. intros H. vm_compute in H. discriminate.
Qed.
