(** Properties of the progress displays, under every interleaving of the two threads *)
From Verif Require Import Ui SpecRun SpecShow ShowFacts Toy ToyRun.

(** ** C61 *)

(** What the terminal shows of the progress of a finished run: how many blocks were
    found so far, never decreasing, up to the number of blocks that the command has to
    look at; then how many of these it has looked at, never decreasing, up to all of
    them.  There are at least two displays of each kind.  Database errors that do not
    stop the run are allowed.  What is missing: replacenodes does not count blocks that
    it cannot read, so its last display falls short by the number of skipped blocks. *)
Theorem C61_displays_partial : forall E g W main input line p, behaves p E g W main input ->
  forall ls t s, world_ok W -> keys_ok main -> keys_ok input -> supplied g -> legal g ->
  execution line p ls t -> ph t = UEnd ->
  thread_main E g (replying (confirms line) W) (start main input) = (Done tt, s) ->
  finished (logged (events E g W main input (confirms line))) ->
  exists n, workload g main input n /\
    shows_run g (logged (events E g W main input (confirms line))) n (outs t).
Proof. exact ShowFacts.shown_blocks. Qed.
Print Assumptions C61_displays_partial.

(** Whatever the arguments, keys and row order: a run that returns displays nothing,
    or first what it finds and then what it works on, as above. *)
Theorem C61_displays_any : forall E g W main input line p, behaves p E g W main input ->
  forall ls t s, finite_tables W main input -> execution line p ls t -> ph t = UEnd ->
  thread_main E g (replying (confirms line) W) (start main input) = (Done tt, s) ->
  (displays (outs t) = [] \/ exists n, shows_run g (logged (events E g W main input (confirms line))) n (outs t)) /\
  (finished (logged (events E g W main input (confirms line))) ->
   exists n, shows_run g (logged (events E g W main input (confirms line))) n (outs t)).
Proof. exact ShowFacts.shown_run. Qed.
Print Assumptions C61_displays_any.

(** The full statement, that the last display of a finished run says that all blocks
    are done, is false: replacenodes on a map with an unreadable block. *)
Theorem C61_all_done_refuted : exists E g W main input line p ls t s,
  ext_ok E /\ full_writes E /\ no_faults W /\ world_ok W /\ keys_ok main /\ supplied g /\ legal g /\
  behaves p E g W main input /\ execution line p ls t /\ ended t /\
  thread_main E g (replying (confirms line) W) (start main input) = (Done tt, s) /\
  finished (logged (events E g W main input (confirms line))) /\
  ~ exists n, shows n n (outs t).
Proof. exact ShowFacts.not_all_done. Qed.
Print Assumptions C61_all_done_refuted.

(** deletemeta on a map of four blocks, one of which is unreadable *)
Example C61_example_hyps : world_ok toy_world /\ keys_ok toy_main /\ supplied meta_args /\ legal meta_args /\
  workload meta_args toy_main ∅ 4 /\
  forall b, logged (events toy_full meta_args toy_world toy_main ∅ b) =
    [(LWarning, MAllMeta); (LInfo, MMeta 3); (LInfo, MSkipped 1); (LInfo, MCommitting); (LInfo, MDone)].
Proof.
  split; [by intros t m|]. split; [apply toy_keys_ok|]. split; [apply meta_supplied|].
  split; [apply meta_legal|]. split; [apply meta_workload|apply meta_log].
Qed.
Example C61_example : exists p ls t, behaves p toy_full meta_args toy_world toy_main ∅ /\
  execution [] p ls t /\ ended t /\ shows 4 4 (outs t).
Proof. exact meta_shown. Qed.
Example C61_example_not : ~ shows 4 4 [OQuery 2; OQuery 4; OEdit 3 4 true; OEdit 2 4 true] /\
  ~ shows 4 4 [OQuery 4; OEdit 0 4 true; OEdit 4 4 true] /\
  shows 4 4 [OQuery 0; OQuery 4; OEdit 0 4 true; OLog LInfo MDone; OEdit 4 4 true].
Proof.
  split; [|split].
  - intros (qs & ds & H & _ & _ & _ & Hd & _). apply (f_equal last) in H. rewrite last_app, fmap_last, Hd in H. done.
  - intros (qs & ds & H & _ & _ & _ & _ & Hq & Hd). apply (f_equal (fun l => head (drop 1 l))) in H.
    destruct qs as [|q [|q' qs]]; cbn in Hq; [lia..|]. done.
  - exists [0; 4], [0; 4]. split; [done|]. repeat split; try (repeat constructor; lia).
Qed.
