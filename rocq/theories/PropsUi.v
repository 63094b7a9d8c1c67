(** Properties of the two threads, under every interleaving of their steps *)
From Verif Require Import Ui SpecUi UiProofs Toy ToyRun.

(** ** C46 *)

(** The visible behaviour that the theorems below assume exists for every run,
    including runs with database errors, panics and kills: what the compute thread
    does before its question does not depend on the reply. *)
Theorem C46_behaviour : forall E g W main input, exists p, behaves p E g W main input.
Proof. exact UiProofs.behaves_ex. Qed.
Print Assumptions C46_behaviour.

(** At every moment what is printed of the messages is the first part of what is
    logged, and no [unwrap] on a channel or lock has failed. *)
Theorem C46_in_order : forall E g W main input line p, behaves p E g W main input ->
  forall ls t, execution line p ls t ->
  sane t /\ printed (outs t) `prefix_of` logged (events E g W main input (confirms line)).
Proof. exact UiProofs.messages_in_order. Qed.
Print Assumptions C46_in_order.

(** When the interface is done, so is the compute thread, everything logged is
    printed and the user has been asked as often as the run asked. *)
Theorem C46_complete : forall E g W main input line p, behaves p E g W main input ->
  forall ls t, execution line p ls t -> ph t = UEnd ->
  wk t = WOver /\ printed (outs t) = logged (events E g W main input (confirms line)) /\
  prompts (outs t) = requests (events E g W main input (confirms line)).
Proof. exact UiProofs.messages_complete. Qed.
Print Assumptions C46_complete.

(** Never do both threads wait for each other. *)
Theorem C46_no_deadlock : forall E g W main input line p, behaves p E g W main input ->
  forall ls t, execution line p ls t -> ended t \/ exists l t', l <> LTick /\ tstep line l t t'.
Proof. exact UiProofs.no_deadlock. Qed.
Print Assumptions C46_no_deadlock.

(** Once the compute thread has ended, both threads end. *)
Theorem C46_ends : forall E g W main input line p, behaves p E g W main input ->
  forall ls t, execution line p ls t -> gone (wk t) = true -> inevitably line ended t.
Proof. exact UiProofs.interface_ends. Qed.
Print Assumptions C46_ends.

(** Without timeouts of the receiver, executions have bounded length; so a schedule
    that goes on for ever starves the compute thread. *)
Theorem C46_bounded : forall E g W main input line p, behaves p E g W main input ->
  forall ls t, execution line p ls t ->
  (length ls <= 5 * length (events E g W main input (confirms line)) + 2 + 2 * timeouts ls)%nat.
Proof. exact UiProofs.bounded. Qed.
Print Assumptions C46_bounded.

(** ** C55 *)

Theorem C55_own_lines : forall E g W main input line p, behaves p E g W main input ->
  forall ls t, execution line p ls t -> tidy (outs t) /\ (Ui.nl t = false -> fresh (outs t)).
Proof. exact UiProofs.output_tidy. Qed.
Print Assumptions C55_own_lines.

(** After a run that did not panic and was not killed, the shell prompt is on a line
    of its own too. *)
Theorem C55_last_line : forall E g W main input line p, behaves p E g W main input ->
  forall ls t s, execution line p ls t -> ph t = UEnd ->
  thread_main E g (replying (confirms line) W) (start main input) = (Done tt, s) -> fresh (outs t).
Proof. exact UiProofs.output_ends. Qed.
Print Assumptions C55_last_line.

(** A run that is refused at the prompt: the message is printed, the prompt shown
    and answered "n". *)
Definition ex_ask : args := with_confirm true (toy_args CVacuum).
Definition ex_after (b : bool) : proc := straight (drop 2 (events toy_full ex_ask toy_world ∅ ∅ b)).
Definition ex_proc : proc := PLog LWarning MDanger (PAsk ex_after).
Definition ex_no : list Z := [110; 10].
Definition ex_steps : list label :=
  [LTick; LUi; LWorker; LUi; LWorker; LUi; LUi; LUi; LWorker; LUi; LWorker; LUi].
Definition ex_end : threads :=
  Threads WOver [] [] status_new UEnd Ignore false [OLog LWarning MDanger; OPrompt].
Example C46_example_behaves : behaves ex_proc toy_full ex_ask toy_world ∅ ∅.
Proof. by intros []; vm_compute. Qed.
Example C46_example : execution ex_no ex_proc ex_steps ex_end /\ ended ex_end /\
  logged (events toy_full ex_ask toy_world ∅ ∅ (confirms ex_no)) = [(LWarning, MDanger)].
Proof.
  split; [|by vm_compute].
  assert (forall k, k false = PEnd -> execution ex_no (PLog LWarning MDanger (PAsk k)) ex_steps ex_end) as H.
  { intros k Hk. pose proof (X_start ex_no (PLog LWarning MDanger (PAsk k))) as X. unfold launch in X.
    eassert (execution _ _ _ _) as X1 by (eapply X_step; [exact X|eapply U_timeout; cbn; (reflexivity || discriminate)]). cbn in X1.
    eassert (execution _ _ _ _) as X2 by (eapply X_step; [exact X1|eapply (U_update _ _ _ true); cbn; (reflexivity || discriminate)]). cbn in X2.
    eassert (execution _ _ _ _) as X3 by (eapply X_step; [exact X2|eapply W_log; cbn; (reflexivity || discriminate)]). cbn in X3.
    eassert (execution _ _ _ _) as X4 by (eapply X_step; [exact X3|eapply U_recv; cbn; (reflexivity || discriminate)]). cbn in X4.
    eassert (execution _ _ _ _) as X5 by (eapply X_step; [exact X4|eapply W_ask; cbn; (reflexivity || discriminate)]). cbn in X5.
    eassert (execution _ _ _ _) as X6 by (eapply X_step; [exact X5|eapply (U_update _ _ _ true); cbn; (reflexivity || discriminate)]). cbn in X6.
    eassert (execution _ _ _ _) as X7 by (eapply X_step; [exact X6|eapply U_recv; cbn; (reflexivity || discriminate)]). cbn in X7.
    eassert (execution _ _ _ _) as X8 by (eapply X_step; [exact X7|eapply U_reply; cbn; (reflexivity || discriminate)]).
    change (confirms ex_no) with false in X8. cbn in X8.
    eassert (execution _ _ _ _) as X9 by (eapply X_step; [exact X8|eapply W_resume; cbn; (reflexivity || discriminate)]). cbn in X9. rewrite Hk in X9.
    eassert (execution _ _ _ _) as X10 by (eapply X_step; [exact X9|eapply (U_update _ _ _ false); cbn; (reflexivity || discriminate)]). cbn in X10.
    eassert (execution _ _ _ _) as X11 by (eapply X_step; [exact X10|eapply W_end; cbn; (reflexivity || discriminate)]). cbn in X11.
    eassert (execution _ _ _ _) as X12 by (eapply X_step; [exact X11|eapply U_disconnected; cbn; reflexivity]). exact X12. }
  apply H. by vm_compute.
Qed.
Example C55_example : tidy (outs ex_end) /\ fresh (outs ex_end) /\ ~ fresh (outs ex_end ++ [OQuery 5]).
Proof.
  destruct C46_example as [X _].
  split; [by eapply UiProofs.output_tidy; [apply C46_example_behaves|exact X]|]. split; [done|]. unfold fresh. simpl. auto.
Qed.
