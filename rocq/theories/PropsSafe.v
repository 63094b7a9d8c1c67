(** Properties of all runs, including those with database errors, panics and
    crashes.  The world [W] chooses, for every database statement, whether it works,
    fails, or the process is killed before or after it; see Sys.v. *)
From Verif Require Import SpecSafe CmdFacts SafeFacts FaultProofs ProgressProofs ArgProofs Toy ToyRun.
From Verif Require Import Spec.

(** ** C35 *)

Theorem C35_input_unchanged : forall E g W main input,
  final Input (thread_main E g W (start main input)).2 = input.
Proof. exact FaultProofs.input_intact. Qed.
Print Assumptions C35_input_unchanged.

(** ** C38 *)

(** Missing: maps with blocks on which the command crashes, see below.  clone and
    overlay: [C38_copies_partial]. *)
Theorem C38_completes_partial : forall E W g main input pos, setting E W g main pos ->
  (acmd g = CSetParam2 -> is_Some (aparam2 g)) -> args_fit g -> blocks E main (harmless g) ->
  in_place (acmd g) = true \/ acmd g = CDeleteBlocks \/ acmd g = CVacuum -> completes E W g main input.
Proof. exact SafeFacts.completes_in_place. Qed.
Print Assumptions C38_completes_partial.

(** Whatever is in the map *)
Theorem C38_sturdy : forall E W g main input pos, setting E W g main pos ->
  (acmd g = CSetParam2 -> is_Some (aparam2 g)) -> args_fit g -> sturdy g -> completes E W g main input.
Proof. exact SafeFacts.completes_always. Qed.
Print Assumptions C38_sturdy.

(** A readable block with an empty name-ID map. *)
Theorem C38_completes_refuted : exists E W g main input pos, setting E W g main pos /\ in_place (acmd g) = true /\
  args_fit g /\ (exists s, thread_main E g W (start main input) = (Panicked, s)) /\
  forall k x, main !! k = Some x -> exists b, deserialize E x = Ok b.
Proof. exact CmdFacts.nameless_panics. Qed.
Print Assumptions C38_completes_refuted.

Definition ex_del : args := with_area (Area (V3 0 0 0) (V3 31 15 15)) false (toy_args CDeleteBlocks).
Definition ex_vac : args := with_confirm true (toy_args CVacuum).
(** A block where no node has a name *)
Definition ex_paint : args :=
  with_param2 (Some (z2b 9)) (with_area (Area (V3 0 0 0) (V3 2 0 0)) false (toy_args CSetParam2)).
Example C38_sturdy_example : setting toy_full toy_world ex_paint main_nameless (fun _ => V3 0 0 0) /\
  args_fit ex_paint /\ sturdy ex_paint /\ ~ no_high_ids block_nameless /\
  messages (run_with toy_full toy_world main_nameless ∅ ex_paint) =
    Some [(LInfo, MParam2 3); (LInfo, MCommitting); (LInfo, MDone)].
Proof.
  split; [apply key_a_setting; [toy_supplied|by vm_compute]|]. split; [done|]. split; [done|]. split.
  - intros H. destruct (H 0) as (id & _ & [n Hn]); [by left|done].
  - by vm_compute.
Qed.
Example C38_example : setting toy_full toy_world ex_del toy_main toy_pos /\ args_fit ex_del /\
  setting toy_full toy_world ex_vac toy_main toy_pos /\ args_fit ex_vac /\
  blocks toy_full toy_main (harmless ex_del) /\
  messages (toy_run ex_del) = Some [(LInfo, MCommitting); (LInfo, MDone)] /\
  messages (toy_run ex_vac) =
    Some [(LWarning, MDanger); (LInfo, MVacStart); (LInfo, MVacDone); (LInfo, MDone)].
Proof.
  split; [apply toy_setting; [toy_supplied|by vm_compute]|]. split; [done|].
  split; [apply toy_setting; [by split|by vm_compute]|]. split; [done|]. split; [by intros k x b _ _|].
  by vm_compute.
Qed.

(** ** C39 *)

(** Killed at any statement, before or after it takes effect. *)
Theorem C39_atomic : forall E g W main input, (forall t rb, faults W t <> FFail rb) ->
  all_or_nothing E g W main input.
Proof. exact SafeFacts.atomic_kills. Qed.
Print Assumptions C39_atomic.

(** Also with database errors, which make these commands panic. *)
Theorem C39_atomic_errors : forall E g W main input, acmd g <> CClone -> acmd g <> COverlay ->
  all_or_nothing E g W main input.
Proof. exact SafeFacts.atomic_errors. Qed.
Print Assumptions C39_atomic_errors.

(** overlay goes on after a read error, outside of the lost transaction. *)
Theorem C39_overlay_errors_refuted : exists E g W main input, ext_ok E /\ world_ok W /\ supplied g /\ legal g /\
  ready W g /\ keys_ok main /\ keys_ok input /\ ~ all_or_nothing E g W main input.
Proof. exact SafeFacts.overlay_half. Qed.
Print Assumptions C39_overlay_errors_refuted.

(** "Done." is only said when everything was done. *)
Theorem C39_done : forall E g W main input, acmd g <> CVacuum ->
  (acmd g = CClone \/ acmd g = COverlay -> forall t rb, faults W t <> FFail rb) ->
  says_done (thread_main E g W (start main input)).2 ->
  thread_main E g W (start main input) = thread_main E g (calm W) (start main input).
Proof. exact SafeFacts.done_complete. Qed.
Print Assumptions C39_done.

(** deleteblocks has 8 statements before the commit; killed during the commit. *)
Definition ex_kill (t : nat) (after : bool) : world :=
  World (fun n => if decide (n = t) then FKill after else FOk) (fun _ m => sorted_list m) true
    (fun _ => true) (fun _ => true) (fun _ => true).
Definition ex_small : mapdata := io_map 1.
Definition ex_outcome (W : world) : bool * mapdata :=
  let r := thread_main toy_full ex_del W (start ex_small ∅) in
  (match r.1 with Killed => true | _ => false end, final Main r.2).
Example C39_example :
  bool_decide (ex_outcome (ex_kill 8 true) = (true, ex_small)) = true /\
  bool_decide (ex_outcome (ex_kill 9 false) = (true, ex_small)) = true /\
  bool_decide (ex_outcome (ex_kill 9 true) = (true, delete 0 (delete 1 ex_small))) = true /\
  bool_decide (ex_outcome (ex_kill 10 true) = (false, delete 0 (delete 1 ex_small))) = true /\
  forall t rb, faults (ex_kill 9 true) t <> FFail rb.
Proof. do 4 (split; [by vm_compute|]). intros t rb. simpl. by destruct (decide _). Qed.

(** ** C40 *)

Theorem C40_no_consent : forall E g W main input, supplied g ->
  ~ legal g \/ (do_confirmation g = true /\ answer W = false) ->
  let s := (thread_main E g W (start main input)).2 in
  final Main s = main /\ final Input s = input /\ Forall quiet (trace s).
Proof. exact FaultProofs.refused_intact. Qed.
Print Assumptions C40_no_consent.

Definition ex_no : world :=
  World (fun _ => FOk) (fun _ m => sorted_list m) false (fun _ => true) (fun _ => true) (fun _ => true).
Example C40_example :
  let s := (thread_main toy_full (with_confirm true ex_del) ex_no (start ex_small ∅)).2 in
  answer ex_no = false /\ trace s = [TLog LWarning MDanger; TConfirm] /\ bool_decide (final Main s = ex_small) = true.
Proof. by vm_compute. Qed.

(** ** C41 *)

Theorem C41_accepted : forall E g W s, supplied g ->
  (legal g <-> forall e, (compute_thread E g W s).1 <> Done (Some (EArg e))) /\
  (~ legal g -> exists e, compute_thread E g W s = (Done (Some (EArg e)), s)).
Proof. exact ArgProofs.rejected_iff. Qed.
Print Assumptions C41_accepted.

Definition ex_far (x : Z) : args := with_area (Area (V3 0 0 0) (V3 x 15 15)) false (toy_args CDeleteBlocks).
Definition ex_name (n : bytes) : args := with_names (Some n) [] None (toy_args CSetParam2).
Definition ex_error (g : args) : run (option inst_error) :=
  (compute_thread toy_full g ex_no (start ex_small ∅)).1.
Example C41_example :
  supplied (ex_far 31000) /\ supplied (ex_name (bstr "default:stone")) /\
  ex_error (ex_far 31000) = Done None /\
  ex_error (ex_far 31001) = Done (Some (EArg (CornerOutside (V3 31001 15 15)))) /\
  ex_error (ex_name (bstr "default:Stone_1")) = Panicked /\
  ex_error (ex_name (bstr "Default:stone")) = Done (Some (EArg (BadNodeName (bstr "Default:stone")))) /\
  ex_error (toy_args CSetParam2) = Done (Some (EArg NeedAreaOrNode)).
Proof. split; [toy_supplied|]. split; [by split|]. by vm_compute. Qed.

(** ** C43 *)

Theorem C43_vacuum_unchanged : forall E g W main input, acmd g = CVacuum ->
  final Main (thread_main E g W (start main input)).2 = main.
Proof. exact FaultProofs.vacuum_intact. Qed.
Print Assumptions C43_vacuum_unchanged.

Theorem C43_vacuum_reports : forall E W g main input, acmd g = CVacuum -> input_map_path g = None ->
  tells_vacuum W (thread_main E g W (start main input)).
Proof. exact SafeFacts.vacuum_tells. Qed.
Print Assumptions C43_vacuum_reports.

(** The statements of vacuum are a commit (number 2) and VACUUM (number 3). *)
Definition ex_fail (t : nat) : world :=
  World (fun n => if decide (n = t) then FFail true else FOk) (fun _ m => sorted_list m) true
    (fun _ => true) (fun _ => true) (fun _ => true).
Example C43_example :
  let r t := thread_main toy_full (toy_args CVacuum) (ex_fail t) (start ex_small ∅) in
  let msgs t := logs (trace (r t).2) in
  msgs 3%nat = [(LInfo, MVacStart); (LError, MVacFailed); (LInfo, MDone)] /\
  msgs 2%nat = [(LInfo, MVacStart); (LError, MVacFailed); (LInfo, MCommitting); (LError, MErr ECommit)] /\
  bool_decide (final Main (r 2%nat).2 = ex_small) = true.
Proof. by vm_compute. Qed.

(** ** C47 *)

(** [trace] has every value of the status that other threads can see, and the
    status starts as [status_new]. *)
Theorem C47_progress : forall E g W main input x,
  TStatus x ∈ trace (thread_main E g W (start main input)).2 -> 0 <= blocks_done x <= blocks_total x.
Proof. exact ProgressProofs.progress_in_range. Qed.
Print Assumptions C47_progress.

Example C47_example :
  omap (fun e => match e with TStatus x => Some (blocks_done x, blocks_total x) | _ => None end)
    (trace (thread_main toy_full ex_del (ex_kill 8 true) (start ex_small ∅)).2)
  = [(0, 0); (0, 1); (0, 2); (0, 2); (0, 2); (1, 2); (2, 2)].
Proof. by vm_compute. Qed.
