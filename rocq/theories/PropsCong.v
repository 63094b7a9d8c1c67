(** Only the contents of a map matter *)
From Verif Require Import Toy ToyRun CmdFacts CopyFacts.
From Verif Require CongProofs CongFacts AgainFacts OrderFacts RestoreFacts LooseProofs SeqProofs LooseFacts.
From Verif Require Import SpecAgain SpecCong SpecSeq Spec.

(** ** C69 *)

(** Runs of one command on maps with the same contents log the same and leave the same
    contents.  The numbering of the names, the order of the rows and the order of the
    variables may differ.  "Partial": [storable]; see the refutation below. *)
Theorem C69_run_partial : forall E1 E2 W1 W2 g m1 m2 input1 input2 n, same_reading E1 E2 ->
  keys_ok m1 -> 4095 <= n <= 7280 -> blocks E1 m1 (healthy n) -> blocks E1 m2 (healthy n) ->
  blocks E1 m1 storable -> blocks E1 m2 storable -> same_contents E1 m1 m2 ->
  same_job E1 E2 n (W1, g, input1) (W2, g, input2) ->
  exists m1' m2' l, run_ok E1 g W1 m1 input1 m1' l /\ run_ok E2 g W2 m2 input2 m2' l /\
    same_contents E1 m1' m2' /\ blocks E1 m1' storable /\ blocks E1 m2' storable.
Proof. exact CongProofs.run_cong. Qed.
Print Assumptions C69_run_partial.

(** So do sequences of runs. *)
Theorem C69_session_partial : forall E1 E2 runs1 runs2 m1 m2 n, same_reading E1 E2 ->
  keys_ok m1 -> 4095 <= n -> n + growths runs1 <= 7280 -> blocks E1 m1 (healthy n) -> blocks E1 m2 (healthy n) ->
  blocks E1 m1 storable -> blocks E1 m2 storable -> same_contents E1 m1 m2 ->
  Forall2 (same_job E1 E2 n) runs1 runs2 ->
  exists m1' m2' ls, diary E1 runs1 m1 m1' ls /\ diary E2 runs2 m2 m2' ls /\ same_contents E1 m1' m2'.
Proof. exact CongProofs.session_cong. Qed.
Print Assumptions C69_session_partial.

(** Metadata without variables and items can be read but is never written: it counts as
    deleted in one of two maps with the same contents. *)
Theorem C69_run_refuted : exists E W g m1 m2 input n, fair E W g input /\ keys_ok m1 /\ 4095 <= n <= 7280 /\
  blocks E m1 (healthy n) /\ blocks E m2 (healthy n) /\ same_contents E m1 m2 /\ acmd g = CDeleteMeta /\
  exists m1' m2' l1 l2, run_ok E g W m1 input m1' l1 /\ run_ok E g W m2 input m2' l2 /\ l1 <> l2.
Proof. exact CongFacts.blank_counted. Qed.
Print Assumptions C69_run_refuted.

(** The contents left agree also where the maps hold such metadata; only the counts may
    differ.  "Partial": clone and overlay need that blocks of versions below 28 hold no
    private variables; see the refutation below. *)
Theorem C69_contents_partial : forall E1 E2 W1 W2 g m1 m2 input1 input2 n, same_reading E1 E2 ->
  fair E1 W1 g input1 -> fair E2 W2 g input2 -> keys_ok m1 -> 4095 <= n <= 7280 ->
  blocks E1 m1 (healthy n) -> blocks E1 m2 (healthy n) -> same_contents E1 m1 m2 ->
  (acmd g = CClone \/ acmd g = COverlay -> blocks E1 m1 no_early_private /\ blocks E1 m2 no_early_private) ->
  (acmd g = COverlay -> blocks E1 input1 (healthy n) /\ blocks E1 input2 (healthy n) /\ same_contents E1 input1 input2 /\
     blocks E1 input1 no_early_private /\ blocks E1 input2 no_early_private) ->
  exists m1' l1 m2' l2, run_ok E1 g W1 m1 input1 m1' l1 /\ run_ok E2 g W2 m2 input2 m2' l2 /\ same_contents E1 m1' m2'.
Proof. exact LooseProofs.contents_cong. Qed.
Print Assumptions C69_contents_partial.

(** A private variable in an old block is public after the block has been stored, but a
    clone made before keeps it private. *)
Theorem C69_contents_refuted : exists E W g m1 m2 input n, fair E W g input /\ keys_ok m1 /\ 4095 <= n <= 7280 /\
  blocks E m1 (healthy n) /\ blocks E m2 (healthy n) /\ same_contents E m1 m2 /\ acmd g = CClone /\
  exists m1' m2' l, run_ok E g W m1 input m1' l /\ run_ok E g W m2 input m2' l /\ ~ same_contents E m1' m2'.
Proof. exact LooseFacts.contents_private. Qed.
Print Assumptions C69_contents_refuted.

(** Cloning a chest with empty metadata, and one without *)
Example C69_contents_hyps : same_reading toy_full OrderFacts.toy_rev /\
  fair toy_full toy_world LooseFacts.blank_clone ∅ /\ fair OrderFacts.toy_rev toy_world_rev LooseFacts.blank_clone ∅ /\
  keys_ok CongFacts.main_blank /\ 4095 <= 4095 <= 7280 /\
  blocks toy_full CongFacts.main_blank (healthy 4095) /\ blocks toy_full CongFacts.main_plain (healthy 4095) /\
  same_contents toy_full CongFacts.main_blank CongFacts.main_plain /\
  blocks toy_full CongFacts.main_blank no_early_private /\ blocks toy_full CongFacts.main_plain no_early_private.
Proof.
  split; [done|]. split; [exact (proj1 LooseFacts.blank_fair)|]. split; [exact (proj2 LooseFacts.blank_fair)|].
  split; [apply LawFacts.one_keys|]. split; [lia|]. split; [exact LooseFacts.blank_healthy|]. split; [exact LooseFacts.plain_healthy|].
  split; [exact LooseFacts.blank_same|exact LooseFacts.blank_public].
Qed.

(** The same for any sequence of runs.  "Partial" for the same reason. *)
Theorem C69_contents_session_partial : forall E1 E2 runs1 runs2 m1 m2 n, same_reading E1 E2 ->
  keys_ok m1 -> 4095 <= n -> n + growths runs1 <= 7280 -> blocks E1 m1 (healthy n) -> blocks E1 m2 (healthy n) ->
  same_contents E1 m1 m2 ->
  (Exists copy_job runs1 -> blocks E1 m1 no_early_private /\ blocks E1 m2 no_early_private) ->
  Forall2 (loose_job E1 E2 n) runs1 runs2 ->
  exists m1' m2', session E1 runs1 m1 m1' /\ session E2 runs2 m2 m2' /\ same_contents E1 m1' m2'.
Proof. exact SeqProofs.contents_session. Qed.
Print Assumptions C69_contents_session_partial.

(** Two such clones in a row *)
Example C69_contents_session_hyps :
  let runs W := [(W, LooseFacts.blank_clone, ∅); (W, LooseFacts.blank_clone, ∅)] : list (world * args * mapdata) in
  4095 + growths (runs toy_world) <= 7280 /\ Exists copy_job (runs toy_world) /\
  Forall2 (loose_job toy_full OrderFacts.toy_rev 4095) (runs toy_world) (runs toy_world_rev).
Proof.
  split; [by vm_compute|]. split; [apply Exists_cons_hd; by left|].
  assert (loose_job toy_full OrderFacts.toy_rev 4095 (toy_world, LooseFacts.blank_clone, ∅) (toy_world_rev, LooseFacts.blank_clone, ∅)).
  { split; [done|]. split; [exact (proj1 LooseFacts.blank_fair)|]. split; [exact (proj2 LooseFacts.blank_fair)|done]. }
  apply Forall2_cons_2; [done|]. apply Forall2_cons_2; [done|apply Forall2_nil_2].
Qed.

(** The same nodes with other numbers: a clone, an overlay on a part of the block, and
    a replacement.  In the second session, rows and variables are in reverse order. *)
Definition ex_dirt : args := with_names (Some (bstr "default:stone")) [] (Some (bstr "default:dirt"))
  (with_area (Area (V3 0 0 0) (V3 4 0 0)) false (toy_args CReplaceNodes)).
Definition ex_steps : list args :=
  [with_offset (Some (V3 3 0 0)) (with_area (Area (V3 0 0 0) (V3 1 0 0)) false (toy_args CClone));
   RestoreFacts.back (Some (Area (V3 1 0 0) (V3 2 0 0)));
   ex_dirt].
Example C69_example_hyps :
  same_reading toy_full OrderFacts.toy_rev /\ keys_ok main_end /\ 4095 + 1 <= 7280 /\
  blocks toy_full main_end (healthy 4095) /\ blocks toy_full CongFacts.main_p (healthy 4095) /\
  blocks toy_full main_end storable /\ blocks toy_full CongFacts.main_p storable /\
  same_contents toy_full main_end CongFacts.main_p /\
  Forall2 (same_job toy_full OrderFacts.toy_rev 4095)
    ((fun g => (toy_world, g, main_end)) <$> ex_steps) ((fun g => (toy_world_rev, g, CongFacts.main_p)) <$> ex_steps).
Proof.
  split; [done|]. split; [exact AgainFacts.end_keys|]. split; [lia|]. split; [exact AgainFacts.end_healthy|].
  split; [exact CongFacts.p_healthy|]. split; [exact CongFacts.end_storable|]. split; [exact CongFacts.p_storable|].
  split; [exact CongFacts.p_same|]. unfold ex_steps. cbn [fmap list_fmap].
  apply Forall2_cons_2; [|apply Forall2_cons_2; [|apply Forall2_cons_2; [|apply Forall2_nil_2]]].
  - apply CongFacts.toy_job; [toy_supplied|by vm_compute|done|by intros n [?|?]|done].
  - apply CongFacts.toy_job; [toy_supplied|by vm_compute|done|by intros n [?|?]|done].
  - apply CongFacts.toy_job; [toy_supplied|by vm_compute|split; [|done]; intros n [= <-]; by vm_compute|by intros n [?|?]|done].
Qed.
(** The replacement changes the bytes, but not the names. *)
Example C69_example :
  CongFacts.twins (run_with toy_full toy_world main_end ∅ ex_dirt)
    (run_with OrderFacts.toy_rev toy_world_rev CongFacts.main_p ∅ ex_dirt) 1 (bstr "default:dirt") = true.
Proof. by vm_compute. Qed.
