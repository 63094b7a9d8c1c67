(** Facts behind the theorems of PropsSafe.v *)
From Verif Require Import SpecSafe ArgProofs ThreadProofs WholeProofs SafeProofs AtomicProofs FaultProofs Toy ToyRun CmdFacts.
From Verif Require Import Spec.

Lemma completes_in_place E W g main input pos : setting E W g main pos ->
  (acmd g = CSetParam2 -> is_Some (aparam2 g)) -> args_fit g -> blocks E main (harmless g) ->
  in_place (acmd g) = true \/ acmd g = CDeleteBlocks \/ acmd g = CVacuum -> completes E W g main input.
Proof.
  intros HS Hp Hf Hb [Hc|[Hc|Hc]].
  - destruct (in_place_skips E W g main input pos HS Hc Hp Hf Hb) as (main' & m & failed & Hrun & _).
    eexists main', _. split; [exact Hrun|]. unfold closing. by rewrite !last_app.
  - destruct (delblocks_run E W g main input pos HS Hc) as (main' & Hrun & _).
    eexists main', _. split; [exact Hrun|]. unfold closing. by rewrite !last_app.
  - destruct HS. eexists main, _. split; [by apply vacuum_run|]. by rewrite last_app.
Qed.
Lemma completes_always E W g main input pos : setting E W g main pos ->
  (acmd g = CSetParam2 -> is_Some (aparam2 g)) -> args_fit g -> sturdy g -> completes E W g main input.
Proof.
  intros HS Hp Hf Hs. eapply completes_in_place; [done..| |].
  - intros k x b _ _. unfold harmless. unfold sturdy in Hs. destruct (acmd g); try done.
    + rewrite Hs. by intros [].
    + rewrite Hs. by intros [].
  - unfold sturdy in Hs. destruct (acmd g); try done; auto.
Qed.

Lemma atomic_kills E g W main input : (forall t rb, faults W t <> FFail rb) -> all_or_nothing E g W main input.
Proof.
  intros Hf. unfold all_or_nothing. destruct (acmd g) eqn:Ec; try (apply atomic_run; [by rewrite Ec|done]).
  left. by apply vacuum_intact.
Qed.
Lemma atomic_errors E g W main input : acmd g <> CClone -> acmd g <> COverlay -> all_or_nothing E g W main input.
Proof.
  intros H1 H2. unfold all_or_nothing. destruct (acmd g) eqn:Ec; try done;
    try (apply atomic_run; [by rewrite Ec|rewrite Ec; by intros []]).
  left. by apply vacuum_intact.
Qed.
Lemma done_complete E g W main input : acmd g <> CVacuum ->
  (acmd g = CClone \/ acmd g = COverlay -> forall t rb, faults W t <> FFail rb) ->
  says_done (thread_main E g W (start main input)).2 ->
  thread_main E g W (start main input) = thread_main E g (calm W) (start main input).
Proof. intros H1 H2. by apply atomic_run. Qed.

(** ** An I/O error that overlay ignores *)
Definition io_world : world :=
  World (fun t => if decide (t = 11)%nat then FFail true else FOk) (fun _ m => sorted_list m) true
    (fun _ => true) (fun _ => true) (fun _ => true).
(** Blocks (0,0,0), (1,0,0), (2,0,0), of which only the header is looked at *)
Definition io_map (x : Z) : mapdata := list_to_map ((fun k => (k, [z2b 28; z2b 0; z2b x])) <$> [0; 1; 2]).
(** A part of block (1,0,0) is spared *)
Definition io_args : args := with_input (Some (bstr "input")) (with_area (Area (V3 20 5 5) (V3 25 6 6)) true (toy_args COverlay)).

Lemma overlay_half : exists E g W main input, ext_ok E /\ world_ok W /\ supplied g /\ legal g /\ ready W g /\
  keys_ok main /\ keys_ok input /\ ~ all_or_nothing E g W main input.
Proof.
  exists toy_full, io_args, io_world, (io_map 1), (io_map 2).
  split; [apply toy_full_ok|]. split; [intros t m; apply merge_sort_Permutation|].
  assert (supplied io_args) as Hs by toy_supplied.
  split; [exact Hs|]. split; [apply argsb_legal; [exact Hs|by vm_compute]|].
  assert (forall p, map_found io_world p) as H.
  { intros p. exists p. split; [done|]. split; [by left|done]. }
  split; [split; [apply H|]; split; [intros; apply H|done]|].
  assert (forall x, keys_ok (io_map x)) as Hk.
  { intros x k [y Hy]. apply elem_of_list_to_map_2 in Hy. apply elem_of_list_fmap in Hy as (j & [= -> ->] & Hj).
    exists (V3 j 0 0). assert (0 <= j <= 2) by (rewrite !elem_of_cons, elem_of_nil in Hj; lia). split; [unfold key_range; simpl; lia|simpl; lia]. }
  split; [apply Hk|]. split; [apply Hk|].
  unfold all_or_nothing. intros [H1|H1]; revert H1; apply (bool_decide_unpack _); by vm_compute.
Qed.

(** ** vacuum *)
Ltac not_said H := exfalso; repeat (apply elem_of_cons in H as [H|H]; [discriminate H|]); by apply elem_of_nil in H.
Ltac said := repeat first [apply elem_of_list_here|apply elem_of_list_further].
Ltac done_case := unfold tells_vacuum; cbn; split; [|split];
  [intros H; first [not_said H|intros t Ht; destruct t as [|[|[|[|t]]]]; [assumption..|lia]]
  |intros H; first [not_said H|
   match goal with F : faults _ ?t = FFail ?rb |- _ => exists t, rb; split; [lia|exact F] end]
  |intros H Hr; first [discriminate Hr|not_said H|left; solve [said]|right; solve [said]]].
Ltac go := cbv [mbind M_bind mret M_ret stmt is_in_transaction exec db_new db_vacuum commit_if_needed log set_show_progress
    begin_editing end_editing set_state put_status send modify gets ask get_confirmation lift open_db open_map consent vacuum finish keep
    put_db get_db put_conn put_flag tick start]; cbn -[tells_vacuum find_map].
Ltac step := match goal with
  | |- context [match faults ?W ?t with _ => _ end] => let H := fresh "F" in destruct (faults W t) as [|[]|[]] eqn:H
  | |- context [if ?b then _ else _] => let H := fresh "B" in destruct b eqn:H
  end; go.
Lemma vacuum_tells E W g main input : acmd g = CVacuum -> input_map_path g = None -> tells_vacuum W (thread_main E g W (start main input)).
Proof.
  intros Hc Hi. unfold thread_main, compute_thread.
  destruct (verify_args g) as [e|] eqn:Ev; [go; done_case|].
  unfold cmd_verify. rewrite Hc. unfold open_input. rewrite Hi. unfold run_command, cmd_func. rewrite Hc.
  go.
  destruct (find_map W (map_path g)) as [f|]; go; [|done_case].
  repeat step; done_case.
Qed.
